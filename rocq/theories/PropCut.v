(** Files that were cut: what is read from the first bytes of a file, wherever it ends. *)
From Verif Require Import Base BaseProofs VintSpec EbmlIdSpec CrcSpec CrcProofs IntEltSpec Vint EbmlId IntElt Crc EltHead Void Ebml ArrProofs2 Stream StreamProofs Finder FinderSpec
  Tree TreeRead TreeSpec TreeProofs TreeProofs2 TreeProofs3 TreeProofs4 TreeProofs5 TreeProofs6 PropTree Cut CutSpec CutProofs CutProofs2 CutProofs3.

Definition known_in (E : schema) (flt_is : Z -> Z -> bool) (wd cs : bool) (depth : nat) (c0 : Z) (l : list elt) : Prop :=
  Forall (fun d => omitted E flt_is wd d = false -> resolves E c0 (e_kind (einfo d)) /\ readable E flt_is wd cs depth d) l.

Lemma cut_view pre body post L : zlen pre <= L <= zlen (pre ++ body) -> view (mkIn false 0 (firstn (Z.to_nat L) (pre ++ body ++ post))) (pre ++ body ++ post) L.
Proof. intros H. pose proof (zlen_nonneg pre). pose proof (zlen_nonneg post). split; [reflexivity|]. rewrite !zlen_app in *. lia. Qed.
Lemma cut_at (pre body post : list Z) : at_pos (pre ++ body ++ post) (zlen pre) body.
Proof. pose proof (zlen_nonneg pre). pose proof (zlen_nonneg post). split; [lia|]. rewrite !zlen_app. split; [lia|]. unfold slice. rewrite skipn_zlen, firstn_zlen. reflexivity. Qed.

(** C134: a file holds the encodings of elements one after the other, and only its first L bytes are
    there, L being any number up to the end of the last.  The elements are read up to the cut: the
    complete ones as they were, then what is left of the one that was cut; and nothing else, no
    error of the model (no access outside a buffer, no endless loop) included. *)
Theorem C134_cut : forall E narrow widen flt_is wd char_signed junk junk0 junkcrc allow,
  (forall p, zlen (junk p) = 16 /\ bytes_ok (junk p)) ->
  forall l pre body post depth c0 up L, bytes_ok (pre ++ body ++ post) -> zlen (pre ++ body ++ post) < 2 ^ 32 ->
  encs E narrow flt_is wd l body -> known_in E flt_is wd char_signed depth c0 l -> zlen pre <= L <= zlen (pre ++ body) ->
  exists fuel0, forall fuel, (fuel0 <= fuel)%nat -> exists l' pos,
    read_all E widen char_signed junk junk0 junkcrc allow fuel depth (mkIn false 0 (firstn (Z.to_nat L) (pre ++ body ++ post))) ((c0, -1) :: up) [] (zlen pre) = Ok (l', pos) /\
    left_of E narrow widen flt_is wd (pre ++ body ++ post) L l (zlen pre) l'.
Proof.
  intros E narrow widen flt_is wd cs junk junk0 junkcrc allow Hj l pre body post depth c0 up L Hok Hsz Henc Hk HL.
  exists (S (needs l)). intros fuel Hfu.
  destruct (all_cut E narrow widen flt_is wd cs junk junk0 junkcrc allow Hj (pre ++ body ++ post) Hok Hsz L c0 up (mkIn false 0 (firstn (Z.to_nat L) (pre ++ body ++ post))) eq_refl (cut_view pre body post L HL) l body Henc fuel depth [] (zlen pre) (cut_at pre body post)) as (l' & pos & H1 & H2); auto.
  { rewrite zlen_app in HL. lia. }
  exists l', pos. split; [exact H1|exact H2].
Qed.
Print Assumptions C134_cut.

(** The elements whose last byte is there are read back, all of them and in order; at most one more,
    cut, follows. *)
Theorem C134_whole : forall E narrow widen flt_is wd char_signed junk junk0 junkcrc allow,
  (forall p, zlen (junk p) = 16 /\ bytes_ok (junk p)) ->
  forall l pre body post depth c0 up L lc, bytes_ok (pre ++ body ++ post) -> zlen (pre ++ body ++ post) < 2 ^ 32 ->
  encs E narrow flt_is wd l body -> known_in E flt_is wd char_signed depth c0 l -> zlen pre <= L <= zlen (pre ++ body) ->
  complete E narrow flt_is wd (pre ++ body ++ post) L l (zlen pre) lc ->
  exists fuel0, forall fuel, (fuel0 <= fuel)%nat -> exists a b pos,
    read_all E widen char_signed junk junk0 junkcrc allow fuel depth (mkIn false 0 (firstn (Z.to_nat L) (pre ++ body ++ post))) ((c0, -1) :: up) [] (zlen pre) = Ok (a ++ b, pos) /\
    Forall2 (same E narrow widen flt_is wd (pre ++ body ++ post)) lc a /\ (length b <= 1)%nat.
Proof.
  intros E narrow widen flt_is wd cs junk junk0 junkcrc allow Hj l pre body post depth c0 up L lc Hok Hsz Henc Hk HL Hc.
  destruct (C134_cut E narrow widen flt_is wd cs junk junk0 junkcrc allow Hj l pre body post depth c0 up L Hok Hsz Henc Hk HL) as (fuel0 & H).
  exists fuel0. intros fuel Hfu. destruct (H fuel Hfu) as (l' & pos & H1 & H2).
  destruct (left_complete E narrow widen flt_is wd junk junk0 Hj (pre ++ body ++ post) L l (zlen pre) l' lc H2 Hc) as (a & b & -> & Ha & Hb).
  exists a, b, pos. auto.
Qed.
Print Assumptions C134_whole.

(** ** Writing, a crash, reading *)
Lemma render_end E narrow flt_is wd alloc keep : (forall n, 0 <= n -> zlen (alloc n) = n) -> forall e d,
  writable E narrow flt_is wd e -> omitted E flt_is wd e = false -> zlen d + fsize E flt_is wd e < 2 ^ 62 ->
  exists e', element_render E narrow flt_is true alloc wd keep e (OFile d (zlen d)) =
    Ok (ERR_NONE, fsize E flt_is wd e, e', OFile (d ++ out E narrow flt_is wd e) (zlen (d ++ out E narrow flt_is wd e))).
Proof.
  intros Ha e d Hw Ho Hs. destruct (out_ok E narrow flt_is wd e Hw Ho) as (H1 & _). pose proof (zlen_nonneg d) as Hd.
  unfold element_render. eexists. rewrite (render_top E narrow flt_is wd alloc Ha) by (auto; try (right; left; reflexivity); split; lia). cbn [o_put]. unfold patch. rewrite H1.
  assert (Hfi : firstn (Z.to_nat (zlen d)) d = d) by (apply firstn_all2; unfold zlen; lia). rewrite Hfi.
  rewrite skipn_all2 by (pose proof (zlen_nonneg (out E narrow flt_is wd e)); unfold zlen in *; lia). rewrite app_nil_r, zlen_app, H1. reflexivity.
Qed.

Lemma render_all_end E narrow flt_is wd alloc keep : (forall n, 0 <= n -> zlen (alloc n) = n) -> forall l d,
  Forall (fun e => writable E narrow flt_is wd e /\ omitted E flt_is wd e = false) l -> zlen d + fold_right Z.add 0 (map (fsize E flt_is wd) l) < 2 ^ 62 ->
  exists body, render_all E narrow flt_is alloc wd keep l (OFile d (zlen d)) = Ok (ERR_NONE, OFile (d ++ body) (zlen (d ++ body))) /\ bytes_ok body /\ encs E narrow flt_is wd l body /\
    zlen body = fold_right Z.add 0 (map (fsize E flt_is wd) l).
Proof.
  intros Ha. assert (Hpos : forall l, Forall (fun e => writable E narrow flt_is wd e /\ omitted E flt_is wd e = false) l -> 0 <= fold_right Z.add 0 (map (fsize E flt_is wd) l)).
  { induction 1 as [|x l [H1 H2] _ IH]; cbn [map fold_right]; [lia|]. destruct (out_ok E narrow flt_is wd x H1 H2) as (H3 & _). pose proof (zlen_nonneg (out E narrow flt_is wd x)). lia. }
  induction l as [|e l IH]; intros d Hall Hs; cbn [render_all map fold_right] in *.
  - exists []. rewrite app_nil_r. repeat split; constructor.
  - inversion Hall as [|? ? [Hw Ho] Hl]; subst. specialize (Hpos l Hl). destruct (out_ok E narrow flt_is wd e Hw Ho) as (H1 & H2 & H3).
    destruct (render_end E narrow flt_is wd alloc keep Ha e d Hw Ho ltac:(lia)) as (e' & ->). cbn [bind]. change (ERR_NONE =? ERR_NONE) with true. cbn [negb].
    destruct (IH (d ++ out E narrow flt_is wd e) Hl) as (body & -> & Hb & He & Hz); [rewrite zlen_app; lia|].
    exists (out E narrow flt_is wd e ++ body). rewrite <- !app_assoc. split; [reflexivity|]. split; [apply bytes_ok_app; auto|]. split; [constructor; assumption|]. rewrite zlen_app. lia.
Qed.

(** Elements are rendered one after the other at the end of a file; the writer stops anywhere, so that
    only the first L bytes are on the disk.  Reading from where the first element was to be gives the
    elements that were written, and what is left of the one being written. *)
Theorem C134_crash : forall E narrow widen flt_is wd keep alloc char_signed junk junk0 junkcrc allow,
  (forall n, 0 <= n -> zlen (alloc n) = n) -> (forall p, zlen (junk p) = 16 /\ bytes_ok (junk p)) ->
  forall l d depth c0 up, bytes_ok d -> zlen d + fold_right Z.add 0 (map (fsize E flt_is wd) l) < 2 ^ 32 ->
  Forall (fun e => writable E narrow flt_is wd e /\ omitted E flt_is wd e = false) l -> known_in E flt_is wd char_signed depth c0 l ->
  exists f, render_all E narrow flt_is alloc wd keep l (OFile d (zlen d)) = Ok (ERR_NONE, OFile f (zlen f)) /\
  forall L, zlen d <= L <= zlen f -> exists fuel0, forall fuel, (fuel0 <= fuel)%nat -> exists l' pos,
    read_all E widen char_signed junk junk0 junkcrc allow fuel depth (mkIn false 0 (firstn (Z.to_nat L) f)) ((c0, -1) :: up) [] (zlen d) = Ok (l', pos) /\
    left_of E narrow widen flt_is wd f L l (zlen d) l'.
Proof.
  intros E narrow widen flt_is wd keep alloc cs junk junk0 junkcrc allow Ha Hj l d depth c0 up Hd Hs Hw Hk.
  destruct (render_all_end E narrow flt_is wd alloc keep Ha l d Hw) as (body & R & Hb & He & Hz).
  { change (2 ^ 62) with (2 ^ 32 * 2 ^ 30). pose proof (zlen_nonneg d). lia. }
  exists (d ++ body). split; [exact R|]. intros L HL.
  destruct (C134_cut E narrow widen flt_is wd cs junk junk0 junkcrc allow Hj l d body [] depth c0 up L) as (fuel0 & H); rewrite ?app_nil_r in *; auto.
  { apply bytes_ok_app. auto. }
  { rewrite zlen_app. lia. }
  exists fuel0. exact H.
Qed.
Print Assumptions C134_crash.

(** A value that is cut is reported by an error; it is never read as a shorter value. *)
Theorem C134_value_told : forall E narrow widen flt_is wd char_signed junk junk0 junkcrc allow,
  (forall p, zlen (junk p) = 16 /\ bytes_ok (junk p)) ->
  forall i v pre bs post depth c0 up L fuel h q, bytes_ok (pre ++ bs ++ post) -> zlen (pre ++ bs ++ post) < 2 ^ 32 ->
  enc E narrow flt_is wd (Leaf i v) bs -> readable E flt_is wd char_signed depth (Leaf i v) -> resolves E c0 (e_kind i) -> kind_class E (e_kind i) <> KVoid ->
  zlen pre <= L < zlen (pre ++ bs) ->
  let s := mkIn false 0 (firstn (Z.to_nat L) (pre ++ bs ++ post)) in
  find_on E junk allow s (zlen pre) ((c0, -1) :: up) = Ok (FElt h 0 q) ->
  exists err e' pos, read_data E widen char_signed true junk junk0 junkcrc allow false fuel depth s ((c0, -1) :: up) (of_hdr E h) q = Ok (err, e', pos) /\ err <> ERR_NONE.
Proof.
  intros E narrow widen flt_is wd cs junk junk0 junkcrc allow Hj i v pre bs post depth c0 up L fuel h q Hok Hsz Henc Hrd Hres Hnv HL s Hfind.
  destruct (read_cut E narrow widen flt_is wd cs junk junk0 junkcrc allow Hj (pre ++ bs ++ post) Hok Hsz L (Leaf i v) fuel depth s c0 (-1) up (zlen pre) bs eq_refl) as [(q' & F1 & _)|(h' & q' & err & e' & pos & F1 & F2 & F3 & F4 & F5)]; auto.
  { apply cut_view. lia. }
  { apply cut_at. }
  { rewrite zlen_app in HL. lia. }
  { cbn [need]. lia. }
  { congruence. }
  rewrite F1 in Hfind. injection Hfind as -> ->. exists err, e', pos. split; [exact F3|].
  destruct F5 as [(G & _)|(_ & G & _)]; [exact G|]. inversion G; subst; contradiction.
Qed.
Print Assumptions C134_value_told.

(** It is not so for masters: a master whose last bytes are missing is read without any error, with the
    children that are left.  Here the inner master of the example lost its last byte; the checksums of
    both masters are there and do not match what is left, yet neither is reported. *)
Definition ex_file : list Z := match element_render ex_schema ex_narrow ex_flt_is true ex_alloc false false ex_tree (OFile [] 0) with Ok (_, _, _, OFile d _) => d | _ => [] end.
Theorem C134_master_told_refuted : ~ (forall E narrow widen flt_is wd char_signed junk junk0 junkcrc allow,
  (forall p, zlen (junk p) = 16 /\ bytes_ok (junk p)) ->
  forall e pre bs post depth c0 up L h q, bytes_ok (pre ++ bs ++ post) -> zlen (pre ++ bs ++ post) < 2 ^ 32 ->
  enc E narrow flt_is wd e bs -> readable E flt_is wd char_signed depth e -> resolves E c0 (e_kind (einfo e)) ->
  zlen pre <= L < zlen (pre ++ bs) ->
  let s := mkIn false 0 (firstn (Z.to_nat L) (pre ++ bs ++ post)) in
  find_on E junk allow s (zlen pre) ((c0, -1) :: up) = Ok (FElt h 0 q) ->
  forall fuel err e' pos, read_data E widen char_signed true junk junk0 junkcrc allow false fuel depth s ((c0, -1) :: up) (of_hdr E h) q = Ok (err, e', pos) -> err <> ERR_NONE).
Proof.
  intros H.
  assert (Hj : forall p, zlen (ex_junk p) = 16 /\ bytes_ok (ex_junk p)) by (intros p; split; [reflexivity|apply bytes_ok_forallb; reflexivity]).
  destruct (C14_render_encodes ex_schema ex_narrow ex_flt_is false ex_alloc) with (e := ex_tree) (keep := false) (d := @nil Z) (p := 0) as (e1 & bs & R & Hb & Henc).
  { intros n Hn. unfold ex_alloc, zlen. rewrite repeat_length. lia. }
  { exact ex_writable. }
  { reflexivity. }
  { vm_compute. split; discriminate. }
  { vm_compute. reflexivity. }
  assert (Hbs : bs = ex_file).
  { unfold ex_file. rewrite R. cbn [firstn app Z.to_nat]. rewrite skipn_nil, app_nil_r. reflexivity. }
  rewrite Hbs in *. clear bs Hbs R.
  destruct (find_on ex_schema ex_junk true (mkIn false 0 (firstn 41 ex_file)) 0 [(0, -1)]) as [| | |r] eqn:Ef; try (vm_compute in Ef; discriminate Ef).
  assert (Hr : exists h q, r = FElt h 0 q /\ exists e' pos, read_data ex_schema (fun x => x) false true ex_junk 0 0 true false 20 2 (mkIn false 0 (firstn 41 ex_file)) [(0, -1)] (of_hdr ex_schema h) q = Ok (ERR_NONE, e', pos)).
  { vm_compute in Ef. injection Ef as <-. eexists _, _. split; [reflexivity|]. vm_compute. eexists _, _. reflexivity. }
  destruct Hr as (h & q & -> & e' & pos & Hr).
  apply (H ex_schema ex_narrow (fun x => x) ex_flt_is false false ex_junk 0 0 true Hj ex_tree [] ex_file [] 2%nat 0 [] 41 h q) with (fuel := 20%nat) (err := ERR_NONE) (e' := e') (pos := pos); cbn [app]; rewrite ?app_nil_r; auto.
  - vm_compute. reflexivity.
  - exact ex_readable.
  - resolve 0%nat.
  - vm_compute. split; [discriminate|reflexivity].
Qed.
Print Assumptions C134_master_told_refuted.

(** Two copies of the example tree, the second cut at every byte: the hypotheses hold, and this many
    elements and children of the last are read. *)
Definition ex_two : list elt := [ex_tree; ex_tree].
Definition ex_written : list Z := match render_all ex_schema ex_narrow ex_flt_is ex_alloc false false ex_two (OFile [7; 7] 2) with Ok (_, OFile d _) => d | _ => [] end.
Definition ex_after (L : nat) : list (Z * list kind) :=
  match read_all ex_schema (fun x => x) false ex_junk 0 0 true 60 2 (mkIn false 0 (firstn L ex_written)) [(0, -1)] [] 2 with
  | Ok (l, _) => map (fun e => match e with Master _ chk ch => (chk, map (fun c => e_kind (einfo c)) ch) | Leaf _ _ => (-1, []) end) l
  | _ => [(-2, [])]
  end.
Example C134_ex :
  Forall (fun e => writable ex_schema ex_narrow ex_flt_is false e /\ omitted ex_schema ex_flt_is false e = false) ex_two /\
  known_in ex_schema ex_flt_is false false 2 0 ex_two /\ zlen ex_written = 86 /\
  ex_after 86 = [(2, [Known 3; Known 4]); (2, [Known 3; Known 4])] /\
  ex_after 85 = [(2, [Known 3; Known 4]); (0, [Known 5; Known 3; Known 4])] /\
  ex_after 65 = [(2, [Known 3; Known 4]); (0, [Known 5; Known 3])] /\
  ex_after 60 = [(2, [Known 3; Known 4]); (0, [Known 5])] /\
  ex_after 50 = [(2, [Known 3; Known 4]); (0, [])] /\
  ex_after 46 = [(2, [Known 3; Known 4])] /\ ex_after 44 = [(2, [Known 3; Known 4])] /\ ex_after 4 = [].
Proof.
  split; [apply Forall_cons; [|apply Forall_cons; [|apply Forall_nil]]; (split; [exact ex_writable|reflexivity])|]. split.
  - apply Forall_cons; [|apply Forall_cons; [|apply Forall_nil]]; intros _; (split; [resolve 0%nat|exact ex_readable]).
  - repeat split; vm_compute; reflexivity.
Qed.
(** The first of the two is complete, the second is not. *)
Example C134_whole_ex : let b := out ex_schema ex_narrow ex_flt_is false ex_tree in
  encs ex_schema ex_narrow ex_flt_is false ex_two (b ++ b) /\ complete ex_schema ex_narrow ex_flt_is false ([7; 7] ++ (b ++ b) ++ []) 85 ex_two (zlen [7; 7]) [ex_tree].
Proof.
  intros b. destruct (out_ok ex_schema ex_narrow ex_flt_is false ex_tree ex_writable eq_refl) as (_ & _ & He). fold b in He.
  assert (Hz : zlen b = 42) by (vm_compute; reflexivity).
  assert (Hj : forall p, zlen (ex_junk p) = 16 /\ bytes_ok (ex_junk p)) by (intros p; split; [reflexivity|apply bytes_ok_forallb; reflexivity]).
  split. { apply encs_cons; [reflexivity|exact He|]. rewrite <- (app_nil_r b). apply encs_cons; [reflexivity|exact He|constructor]. }
  set (f := [7; 7] ++ (b ++ b) ++ []).
  assert (H1 : at_pos f 2 b) by (vm_compute; repeat split; congruence).
  assert (H2 : at_pos f 44 b) by (vm_compute; repeat split; congruence).
  destruct (placed_of ex_schema ex_narrow (fun x => x) ex_flt_is false ex_junk Hj f 85 ex_tree b 2 He H1 eq_refl) as (h & n & P1 & Hn1).
  destruct (placed_of ex_schema ex_narrow (fun x => x) ex_flt_is false ex_junk Hj f 85 ex_tree b 44 He H2 eq_refl) as (h2 & n2 & P2 & Hn2).
  rewrite Hz in *. apply complete_whole with (h := h) (n := n); [reflexivity|exact P1|change (zlen [7; 7]) with 2; lia|].
  replace (zlen [7; 7] + h + n) with 44 by (change (zlen [7; 7]) with 2; lia). apply complete_cut with (h := h2) (n := n2); [reflexivity|exact P2|lia].
Qed.
