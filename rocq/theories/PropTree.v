(** Element trees: sizes, rendering and reading back, checksums. *)
From Verif Require Import Base BaseProofs VintSpec EbmlIdSpec CrcSpec CrcProofs IntEltSpec Vint EbmlId IntElt Crc EltHead Void Ebml ArrProofs2 Stream StreamProofs Finder FinderSpec
  Tree TreeRead TreeSpec TreeProofs TreeProofs2 TreeProofs3 TreeProofs4 TreeProofs5 TreeProofs6.

(** A schema: contexts 0 (document), 1 (a master, ID 1A45DFA3), 2 (unsigned, 4286, default 1), 3 (string,
    4282, default "mk"), 4 (a master, 1F43B675), 5 (CRC-32), 6 (Void), 7 (float, 4489), 8 (signed, FB). *)
Definition ex_schema : schema := fun c =>
  match c with
  | 0 => mkCtx 0 KMaster None (Some [mkSem false false 1 0]) []
  | 1 => mkCtx 440786851 KMaster None (Some [mkSem true true 2 0; mkSem true true 3 0; mkSem false false 4 0; mkSem false true 5 0; mkSem false false 6 0]) []
  | 2 => mkCtx 17030 KUInt (Some (DInt 1)) (Some []) []
  | 3 => mkCtx 17026 KString (Some (DStr [109; 107])) (Some []) []
  | 4 => mkCtx 524531317 KMaster None (Some [mkSem false false 7 0; mkSem false false 8 0; mkSem false true 5 0]) []
  | 5 => mkCtx 191 KCrc None (Some []) []
  | 6 => mkCtx 236 KVoid None (Some []) []
  | 7 => mkCtx 17545 KFloat None (Some []) []
  | _ => mkCtx 251 KSInt None (Some []) []
  end.
Definition ex_narrow (x : Z) : Z := x / 2 ^ 32.
Definition ex_flt_is (x y : Z) : bool := false.
Definition fresh (k : Z) (set : bool) (dsize defsz : Z) : info := mkInfo (Known k) set true true dsize defsz 0 (-1) (-1) (-1).
(** A master with a checksum: a number at its default (left out), a string, and a master with a
    checksum holding a float and a signed integer. *)
Definition ex_tree : elt :=
  Master (fresh 1 true 0 (-1)) 1
    [Leaf (fresh 2 true 0 1) (VInt 1);
     Leaf (fresh 3 true 0 (-1)) (VStr (Some [119; 101; 98; 0]));
     Master (fresh 4 true 0 (-1)) 1 [Leaf (fresh 7 true 8 4) (VFlt 4609434218613702656); Leaf (fresh 8 true 0 1) (VInt (-2))]].
Definition ex_junk (p : Z) : list Z := repeat 170 16.
Definition ex_alloc (n : Z) : list Z := repeat 204 (Z.to_nat n).

(** Closed facts. *)
Ltac known :=
  match goal with
  | |- _ = _ => vm_compute; reflexivity
  | |- (_ < _)%Z => vm_compute; reflexivity
  | |- (_ <= _)%Z => vm_compute; discriminate
  | |- (_ <= _ < _)%Z => split; known
  | |- (_ <= _ <= _)%Z => split; known
  end.
Ltac id_len n := exists n; split; [split|split]; known.
Ltac decide_ex :=
  repeat match goal with
  | |- True => exact I
  | |- _ /\ _ => split
  | |- _ -> _ => intros ?
  | H : true = false |- _ => discriminate H
  | |- valid_id _ => first [id_len 1 | id_len 2 | id_len 3 | id_len 4]
  | |- e_need _ = true \/ _ => left; reflexivity
  | |- _ \/ e_fin _ = true \/ _ => right; left; reflexivity
  | |- def_ok _ _ => vm_compute; exact I
  | |- is_int64 _ => split; known
  | |- bytes_ok _ => apply bytes_ok_forallb; vm_compute; reflexivity
  | |- exists b s, Some ?x = Some b /\ _ => exists x; eexists; split; [reflexivity|]; split; [vm_compute; reflexivity|]
  | |- _ => known
  | |- _ => progress lazy beta iota delta [def_ok val_ok defsz_ok kind_class e_kind ex_schema fresh c_class default_of c_def e_defsz leaf_psize]
  | |- _ \/ _ => left; split; known
  end.

Lemma ex_writable : writable ex_schema ex_narrow ex_flt_is false ex_tree.
Proof. cbn [ex_tree writable]. unfold head_ok. decide_ex. Qed.

Lemma ex_resolves p k n c : nth_error (match c_sem (ex_schema p) with Some l => l | None => [] end) n = Some c -> s_ctx c = k ->
  forallb (fun s => negb (c_id (ex_schema (s_ctx s)) =? c_id (ex_schema k)) || (s_ctx s =? k)) (match c_sem (ex_schema p) with Some l => l | None => [] end) = true ->
  c_glob (ex_schema p) = [] -> resolves ex_schema p (Known k).
Proof.
  intros H1 <- H2 H3. exists (s_ctx c). split; [reflexivity|]. unfold names. destruct (c_sem (ex_schema p)) as [l|] eqn:El; [|destruct n; discriminate H1]. split.
  - exists c, l. split; [reflexivity|]. split; [reflexivity|]. left. eapply nth_error_In. exact H1.
  - intros s (l' & Hl & Hid & Hin). injection Hl as <-. destruct Hin as [Hin|[_ Hin]]; [|rewrite H3 in Hin; contradiction].
    rewrite forallb_forall in H2. specialize (H2 s Hin). rewrite Hid, Z.eqb_refl in H2. apply Z.eqb_eq. exact H2.
Qed.
Ltac resolve n := eapply (ex_resolves _ _ n); [vm_compute; reflexivity..].
Lemma ex_readable : readable ex_schema ex_flt_is false false 2 ex_tree.
Proof.
  cbn [ex_tree readable]. split; [reflexivity|]. exists 1. split; [reflexivity|]. split; [reflexivity|]. split; [vm_compute; discriminate|]. split.
  { right. split; [apply Nat.lt_0_succ|]. exists 5. split; [reflexivity|]. split; [reflexivity|]. resolve 3%nat. }
  split; [vm_compute; discriminate|]. split.
  { intros _. split; [resolve 1%nat|]. split; [reflexivity|]. repeat split; try (vm_compute; discriminate). intros _.
    exists [119; 101; 98; 0], [119; 101; 98]. repeat split. apply bytes_ok_forallb. reflexivity. }
  split; [|exact I]. intros _. split; [resolve 2%nat|]. split; [reflexivity|]. exists 4. split; [reflexivity|]. split; [reflexivity|]. split; [vm_compute; discriminate|].
  split. { right. split; [apply Nat.lt_0_succ|]. exists 5. split; [reflexivity|]. split; [reflexivity|]. resolve 2%nat. }
  split. { intros _. split; [resolve 0%nat|]. repeat split; try (vm_compute; discriminate). }
  split; [|exact I]. intros _. split; [resolve 1%nat|]. split; [reflexivity|]. repeat split; try (vm_compute; discriminate). left. reflexivity.
Qed.

(** ** C13: sizes *)
(** EBML_ElementUpdateSize returns the data size; then every master's data size is the sum of the
    lengths of its written children plus 6 for a checksum, at every level. *)
Theorem C13_update_size : forall E narrow flt_is wd e, writable E narrow flt_is wd e -> omitted E flt_is wd e = false ->
  exists n e', update_size E flt_is wd e = Ok (n, e') /\ e_dsize (einfo e') = n /\ balanced E flt_is wd e'.
Proof.
  intros E narrow flt_is wd e Hw Ho. exists (psize E flt_is wd e), (sized E flt_is wd e). split; [apply update_size_ok with narrow; assumption|].
  destruct (sized_balanced E flt_is wd e) as [H1 H2]. split; assumption.
Qed.
Print Assumptions C13_update_size.
Example C13_ex_update : writable ex_schema ex_narrow ex_flt_is false ex_tree /\
  match update_size ex_schema ex_flt_is false ex_tree with
  | Ok (n, Master _ _ [a; b; c]) => n = 37 /\ e_dsize (einfo a) = 0 /\ elen ex_schema b = 6 /\ elen ex_schema c = 25
  | _ => False
  end.
Proof. split; [exact ex_writable|]. vm_compute. repeat split. Qed.

(** A second update changes nothing. *)
Theorem C13_update_stable : forall E narrow flt_is wd e n e', writable E narrow flt_is wd e -> omitted E flt_is wd e = false ->
  update_size E flt_is wd e = Ok (n, e') -> needs_update E flt_is wd e' = Ok false /\ update_size E flt_is wd e' = Ok (n, e').
Proof.
  intros E narrow flt_is wd e n e' Hw Ho H. rewrite (update_size_ok E narrow) in H by assumption. injection H as <- <-.
  pose proof (writable_sized E narrow flt_is wd e Hw Ho) as Hws. split.
  - rewrite (needs_update_ok E narrow) by exact Hws. rewrite needsb_sized by exact Ho. reflexivity.
  - rewrite (update_size_ok E narrow) by (try exact Hws; rewrite omitted_sized; exact Ho). rewrite (sized_sized E narrow), psize_sized by assumption. reflexivity.
Qed.
Print Assumptions C13_update_stable.

(** Rendering, to a file or in memory, succeeds and writes exactly EBML_ElementFullSize bytes at the
    current position; *Rendered is that count. *)
Theorem C13_render_file : forall E narrow flt_is wd alloc, (forall n, 0 <= n -> zlen (alloc n) = n) ->
  forall e keep d p, writable E narrow flt_is wd e -> omitted E flt_is wd e = false -> 0 <= p <= zlen d -> p + fsize E flt_is wd e < 2 ^ 62 ->
  exists e' bs, element_render E narrow flt_is true alloc wd keep e (OFile d p) =
      Ok (ERR_NONE, zlen bs, e', OFile (firstn (Z.to_nat p) d ++ bs ++ skipn (Z.to_nat (p + zlen bs)) d) (p + zlen bs)) /\
    full_size_of E flt_is wd e' = Ok (zlen bs).
Proof.
  intros E narrow flt_is wd alloc Ha e keep d p Hw Ho Hp Hs. destruct (out_ok E narrow flt_is wd e Hw Ho) as (H1 & H2 & H3).
  exists (kept E flt_is wd keep p e), (out E narrow flt_is wd e). rewrite full_size_kept by (try apply (writable_typed _ _ _ _ _ Hw); assumption). split; [|congruence].
  unfold element_render. rewrite (render_top E narrow flt_is wd alloc Ha) by (auto; try (right; left; reflexivity); split; lia). rewrite H1. cbn [o_put o_tell]. unfold patch. rewrite H1. reflexivity.
Qed.
Print Assumptions C13_render_file.
(** In memory, with room for the element; without a checksum at the top or without bKeepPosition. *)
Theorem C13_render_memory : forall E narrow flt_is wd alloc, (forall n, 0 <= n -> zlen (alloc n) = n) ->
  forall e (keep : bool) m, writable E narrow flt_is wd e -> omitted E flt_is wd e = false ->
  keep = false \/ match e with Master _ chk _ => chk = 0 | Leaf _ _ => True end ->
  0 <= mpos m -> mpos m + fsize E flt_is wd e <= zlen (mptr m) -> 0 <= mvoff m -> mvoff m + zlen (mptr m) < 2 ^ 62 ->
  exists e' bs, element_render E narrow flt_is true alloc wd keep e (OMem m) =
      Ok (ERR_NONE, zlen bs, e', OMem (mkMem (firstn (Z.to_nat (mpos m)) (mptr m) ++ bs ++ skipn (Z.to_nat (mpos m + zlen bs)) (mptr m)) (mpos m + zlen bs) (mvoff m))) /\
    full_size_of E flt_is wd e' = Ok (zlen bs).
Proof.
  intros E narrow flt_is wd alloc Ha e keep m Hw Ho Hk H4 H5 H6 H7. destruct (out_ok E narrow flt_is wd e Hw Ho) as (H1 & H2 & H3).
  exists (kept E flt_is wd keep (o_tell (OMem m)) e), (out E narrow flt_is wd e). rewrite full_size_kept by (try apply (writable_typed _ _ _ _ _ Hw); assumption). split; [|congruence].
  unfold element_render. rewrite (render_top E narrow flt_is wd alloc Ha) by (auto; try (destruct Hk; auto; right; right; assumption); repeat split; lia). rewrite H1. cbn [o_put]. unfold patch. rewrite H1. reflexivity.
Qed.
Print Assumptions C13_render_memory.

(** An element left out of the output has no full size, and rendering it alone is refused with nothing
    written. *)
Theorem C13_left_out : forall E narrow flt_is little alloc wd e keep o, match e with Leaf i v => def_ok E i /\ val_ok E i v | Master _ _ _ => True end -> omitted E flt_is wd e = true ->
  full_size_of E flt_is wd e = Ok INVALID_FILEPOS /\ element_render E narrow flt_is little alloc wd keep e o = Ok (ERR_INVALID_DATA, 0, e, o).
Proof.
  intros E narrow flt_is little alloc wd e keep o Ht Ho. pose proof (left_out_ok E flt_is wd e Ht) as Hl. rewrite Ho in Hl. unfold full_size_of. rewrite Hl. split; [reflexivity|].
  destruct e as [i v|i c l]; [|unfold omitted in Ho; rewrite andb_false_r in Ho; discriminate]. unfold left_out in Hl. destruct wd; [discriminate|]. unfold element_render. cbn [height render]. rewrite Hl. cbn [bind andb negb]. rewrite orb_false_r. cbn [einfo].
  destruct (e_set i); reflexivity.
Qed.
Print Assumptions C13_left_out.
Example C13_left_out_ex : omitted ex_schema ex_flt_is false (Leaf (fresh 2 true 0 1) (VInt 1)) = true.
Proof. reflexivity. Qed.

(** A tree with an element that has neither a value nor a default somewhere is not written: rendering
    reports an error, wherever the element is. *)
Theorem C13_no_value : forall E narrow flt_is little alloc wd e keep o err n e' o', blocked E e ->
  element_render E narrow flt_is little alloc wd keep e o = Ok (err, n, e', o') -> err <> ERR_NONE.
Proof. intros E narrow flt_is little alloc wd e keep o err n e' o'. unfold element_render. apply render_blocked. Qed.
Print Assumptions C13_no_value.
Example C13_no_value_ex : let e := Master (fresh 1 true 0 (-1)) 0 [Leaf (fresh 3 true 0 (-1)) (VStr (Some [119; 0])); Master (fresh 4 true 0 (-1)) 0 [Leaf (fresh 8 false 0 1) (VInt 0)]] in
  blocked ex_schema e /\ exists n e' o', element_render ex_schema ex_narrow ex_flt_is true ex_alloc false false e (OFile [] 0) = Ok (ERR_INVALID_DATA, n, e', o').
Proof.
  split; [|eexists _, _, _; vm_compute; reflexivity]. eapply blocked_child; [right; left; reflexivity|]. eapply blocked_child; [left; reflexivity|]. apply blocked_leaf; reflexivity.
Qed.
Example C13_ex_render :
  match element_render ex_schema ex_narrow ex_flt_is true ex_alloc false false ex_tree (OFile [1; 2; 3] 1) with
  | Ok (err, n, _, OFile d p) => err = ERR_NONE /\ n = 42 /\ p = 43 /\ zlen d = 43 /\ firstn 17 d = [1; 26; 69; 223; 163; 165; 191; 132; 171; 81; 244; 214; 66; 130; 131; 119; 101]
  | _ => False
  end.
Proof. vm_compute. repeat split. Qed.

(** The size of an element set up with one value of bWithDefault is not the size for the other:
    UpdateSize with defaults, then Render without them, writes a master whose size says 10 but which has 6 bytes. *)
Definition ex_two : elt := Master (fresh 1 true 0 (-1)) 0 [Leaf (fresh 2 true 0 1) (VInt 1); Leaf (fresh 3 true 0 (-1)) (VStr (Some [119; 101; 98; 0]))].
Theorem C13_mixed_defaults_refuted : exists e e' n r,
  writable ex_schema ex_narrow ex_flt_is false e /\ writable ex_schema ex_narrow ex_flt_is true e /\
  update_size ex_schema ex_flt_is true e = Ok (n, e') /\
  element_render ex_schema ex_narrow ex_flt_is true ex_alloc false false e' (OFile [] 0) = Ok r /\
  fst (fst (fst r)) = ERR_NONE /\ n = 10 /\ snd (fst (fst r)) = 11 /\
  full_size_of ex_schema ex_flt_is false (snd (fst r)) = Ok 15.
Proof.
  exists ex_two. do 3 eexists. split; [cbn [ex_two writable]; unfold head_ok; decide_ex|]. split; [cbn [ex_two writable]; unfold head_ok; decide_ex|].
  split; [vm_compute; reflexivity|]. split; [vm_compute; reflexivity|]. vm_compute. repeat split.
Qed.
Print Assumptions C13_mixed_defaults_refuted.

(** ** C14: rendering and reading back *)
(** What is written is the encoding of the tree. *)
Theorem C14_render_encodes : forall E narrow flt_is wd alloc, (forall n, 0 <= n -> zlen (alloc n) = n) ->
  forall e keep d p, writable E narrow flt_is wd e -> omitted E flt_is wd e = false -> 0 <= p <= zlen d -> p + fsize E flt_is wd e < 2 ^ 62 ->
  exists e' bs, element_render E narrow flt_is true alloc wd keep e (OFile d p) =
      Ok (ERR_NONE, zlen bs, e', OFile (firstn (Z.to_nat p) d ++ bs ++ skipn (Z.to_nat (p + zlen bs)) d) (p + zlen bs)) /\
    bytes_ok bs /\ enc E narrow flt_is wd e bs.
Proof.
  intros E narrow flt_is wd alloc Ha e keep d p Hw Ho Hp Hs. destruct (out_ok E narrow flt_is wd e Hw Ho) as (H1 & H2 & H3).
  exists (kept E flt_is wd keep p e), (out E narrow flt_is wd e). split; [|split; assumption].
  unfold element_render. rewrite (render_top E narrow flt_is wd alloc Ha) by (auto; try (right; left; reflexivity); split; lia). rewrite H1. cbn [o_put o_tell]. unfold patch. rewrite H1. reflexivity.
Qed.
Print Assumptions C14_render_encodes.
Theorem C14_render_memory_encodes : forall E narrow flt_is wd alloc, (forall n, 0 <= n -> zlen (alloc n) = n) ->
  forall e (keep : bool) m, writable E narrow flt_is wd e -> omitted E flt_is wd e = false ->
  keep = false \/ match e with Master _ chk _ => chk = 0 | Leaf _ _ => True end ->
  0 <= mpos m -> mpos m + fsize E flt_is wd e <= zlen (mptr m) -> 0 <= mvoff m -> mvoff m + zlen (mptr m) < 2 ^ 62 ->
  exists e' bs, element_render E narrow flt_is true alloc wd keep e (OMem m) =
      Ok (ERR_NONE, zlen bs, e', OMem (mkMem (firstn (Z.to_nat (mpos m)) (mptr m) ++ bs ++ skipn (Z.to_nat (mpos m + zlen bs)) (mptr m)) (mpos m + zlen bs) (mvoff m))) /\
    bytes_ok bs /\ enc E narrow flt_is wd e bs.
Proof.
  intros E narrow flt_is wd alloc Ha e keep m Hw Ho Hk H4 H5 H6 H7. destruct (out_ok E narrow flt_is wd e Hw Ho) as (H1 & H2 & H3).
  exists (kept E flt_is wd keep (o_tell (OMem m)) e), (out E narrow flt_is wd e). split; [|split; assumption].
  unfold element_render. rewrite (render_top E narrow flt_is wd alloc Ha) by (auto; try (destruct Hk; auto; right; right; assumption); repeat split; lia). rewrite H1. cbn [o_put]. unfold patch. rewrite H1. reflexivity.
Qed.
Print Assumptions C14_render_memory_encodes.

(** Any encoding of a tree, lying anywhere in a file or memory stream, with any bytes before and after,
    is found and read back as the same tree, and the stream is left just after it. *)
Theorem C14_read_back : forall E narrow widen flt_is wd char_signed junk junk0 junkcrc allow,
  (forall p, zlen (junk p) = 16 /\ bytes_ok (junk p)) ->
  forall e pre bs post depth c0 e0 up mem, bytes_ok (pre ++ bs ++ post) -> zlen (pre ++ bs ++ post) < 2 ^ 32 ->
  enc E narrow flt_is wd e bs -> readable E flt_is wd char_signed depth e -> resolves E c0 (e_kind (einfo e)) ->
  e0 = -1 \/ zlen (pre ++ bs) <= e0 ->
  let s := mkIn mem 0 (pre ++ bs ++ post) in
  exists h q fuel0, find_on E junk allow s (zlen pre) ((c0, e0) :: up) = Ok (FElt h 0 q) /\
    forall fuel, (fuel0 <= fuel)%nat -> exists e',
      read_data E widen char_signed true junk junk0 junkcrc allow false fuel depth s ((c0, e0) :: up) (of_hdr E h) q = Ok (ERR_NONE, e', zlen (pre ++ bs)) /\
      same E narrow widen flt_is wd (pre ++ bs ++ post) e e'.
Proof.
  intros E narrow widen flt_is wd cs junk junk0 junkcrc allow Hj e pre bs post depth c0 e0 up mem Hok Hlen Henc Hrd Hres He s.
  set (f := pre ++ bs ++ post). pose proof (zlen_nonneg pre) as Hp. pose proof (zlen_nonneg bs). pose proof (zlen_nonneg post).
  assert (Hz : zlen f = zlen pre + zlen bs + zlen post) by (unfold f; rewrite !zlen_app; lia). rewrite zlen_app in *.
  assert (Hat : at_pos f (zlen pre) bs).
  { split; [lia|]. split; [lia|]. unfold slice, f. rewrite skipn_zlen, firstn_zlen. reflexivity. }
  assert (Hv : view s f (zlen f)).
  { split; [|lia]. cbn [in_data s]. unfold zlen. rewrite Nat2Z.id, firstn_all. reflexivity. }
  pose proof (read_back E narrow widen flt_is wd cs junk junk0 junkcrc allow Hj f Hok ltac:(rewrite zlen_app in Hlen; lia) e) as Hb.
  destruct (Hb (need e) depth s (zlen f) c0 e0 up (zlen pre) bs Hv ltac:(intros _; exact Hp) Hat ltac:(lia) Henc Hrd ltac:(lia) He Hres) as (h & q & e' & F & _ & R & S & _).
  exists h, q, (need e). split; [exact F|]. intros fuel Hfuel.
  destruct (Hb fuel depth s (zlen f) c0 e0 up (zlen pre) bs Hv ltac:(intros _; exact Hp) Hat ltac:(lia) Henc Hrd Hfuel He Hres) as (h2 & q2 & e2 & F2 & _ & R2 & S2 & _).
  rewrite F in F2. injection F2 as <- <-. exists e2. split; assumption.
Qed.
Print Assumptions C14_read_back.

(** Both together: render to a file at any position, then read from there. *)
Theorem C14_round_trip : forall E narrow widen flt_is wd alloc char_signed junk junk0 junkcrc allow,
  (forall n, 0 <= n -> zlen (alloc n) = n) -> (forall p, zlen (junk p) = 16 /\ bytes_ok (junk p)) ->
  forall e keep d p depth c0 e0 up, bytes_ok d -> 0 <= p <= zlen d -> zlen d < 2 ^ 32 -> p + fsize E flt_is wd e < 2 ^ 32 ->
  writable E narrow flt_is wd e -> omitted E flt_is wd e = false -> readable E flt_is wd char_signed depth e -> resolves E c0 (e_kind (einfo e)) ->
  e0 = -1 \/ p + fsize E flt_is wd e <= e0 ->
  exists e1 d' h q fuel0, element_render E narrow flt_is true alloc wd keep e (OFile d p) = Ok (ERR_NONE, fsize E flt_is wd e, e1, OFile d' (p + fsize E flt_is wd e)) /\
    firstn (Z.to_nat p) d' = firstn (Z.to_nat p) d /\
    find_on E junk allow (mkIn false 0 d') p ((c0, e0) :: up) = Ok (FElt h 0 q) /\
    forall fuel, (fuel0 <= fuel)%nat -> exists e2,
      read_data E widen char_signed true junk junk0 junkcrc allow false fuel depth (mkIn false 0 d') ((c0, e0) :: up) (of_hdr E h) q =
        Ok (ERR_NONE, e2, p + fsize E flt_is wd e) /\ same E narrow widen flt_is wd d' e e2.
Proof.
  intros E narrow widen flt_is wd alloc cs junk junk0 junkcrc allow Ha Hj e keep d p depth c0 e0 up Hd Hp Hsz Hfs Hw Ho Hrd Hres He.
  destruct (C14_render_encodes E narrow flt_is wd alloc Ha e keep d p Hw Ho Hp) as (e1 & bs & R & Hb & Henc).
  { change (2 ^ 62) with (2 ^ 32 * 2 ^ 30). lia. }
  destruct (out_ok E narrow flt_is wd e Hw Ho) as (Hol & _).
  assert (Hbl : zlen bs = fsize E flt_is wd e).
  { destruct (C13_render_file E narrow flt_is wd alloc Ha e keep d p Hw Ho Hp) as (e1' & bs' & R' & Hfull); [change (2 ^ 62) with (2 ^ 32 * 2 ^ 30); lia|].
    unfold element_render in R. rewrite (render_top E narrow flt_is wd alloc Ha) in R by (auto; try (right; left; reflexivity); split; try lia; change (2 ^ 62) with (2 ^ 32 * 2 ^ 30); lia). injection R as -> _ _. reflexivity. }
  pose proof (zlen_nonneg bs). assert (Hpre : zlen (firstn (Z.to_nat p) d) = p) by (rewrite zlen_firstn by lia; lia).
  set (pre := firstn (Z.to_nat p) d) in *. set (post := skipn (Z.to_nat (p + zlen bs)) d) in *.
  assert (Hpost : 0 <= zlen post /\ (zlen post = 0 \/ p + zlen bs + zlen post = zlen d)).
  { split; [apply zlen_nonneg|]. unfold post, zlen. rewrite skipn_length. unfold zlen in *. lia. }
  destruct (C14_read_back E narrow widen flt_is wd cs junk junk0 junkcrc allow Hj e pre bs post depth c0 e0 up false) as (h & q & fuel0 & F & G); auto.
  { apply bytes_ok_app. split; [apply bytes_ok_firstn; exact Hd|]. apply bytes_ok_app. split; [exact Hb|]. apply bytes_ok_skipn. exact Hd. }
  { rewrite !zlen_app. lia. }
  { rewrite zlen_app. lia. }
  exists e1, (pre ++ bs ++ post), h, q, fuel0. rewrite Hpre in F. rewrite zlen_app, Hpre in G. rewrite Hbl in R, G.
  split; [exact R|]. split; [|split; [exact F|exact G]].
  rewrite <- Hpre at 1. apply firstn_zlen.
Qed.
Print Assumptions C14_round_trip.
Example C14_ex : writable ex_schema ex_narrow ex_flt_is false ex_tree /\ readable ex_schema ex_flt_is false false 2 ex_tree /\ resolves ex_schema 0 (Known 1) /\
  match element_render ex_schema ex_narrow ex_flt_is true ex_alloc false false ex_tree (OFile [1; 2; 3] 1) with
  | Ok (_, _, _, OFile d _) =>
      match find_on ex_schema ex_junk true (mkIn false 0 d) 1 [(0, -1)] with
      | Ok (FElt h 0 q) =>
          match read_data ex_schema (fun x => x) false true ex_junk 0 0 true false 20 2 (mkIn false 0 d) [(0, -1)] (of_hdr ex_schema h) q with
          | Ok (err, Master i chk [Leaf _ (VStr (Some b)); Master _ chk' [Leaf _ (VFlt x); Leaf _ (VInt y)]], p) =>
              err = ERR_NONE /\ chk = 2 /\ b = [119; 101; 98; 0] /\ chk' = 2 /\ x = 4609434218613702656 /\ y = -2 /\ p = 43
          | _ => False
          end
      | _ => False
      end
  | _ => False
  end.
Proof.
  split; [exact ex_writable|]. split; [exact ex_readable|]. split; [resolve 0%nat|]. vm_compute. repeat split.
Qed.

(** One element decoded by the example reader (below): the number of direct children. *)
Definition ex_read (f : list Z) (mem : bool) (depth : nat) : res (Z * elt * Z) :=
  match find_on ex_schema ex_junk true (mkIn mem 0 f) 0 [(0, -1)] with
  | Ok (FElt h 0 q) => read_data ex_schema (fun x => x) false true ex_junk 0 0 true false 40 depth (mkIn mem 0 f) [(0, -1)] (of_hdr ex_schema h) q
  | Ok _ => Bad | Bad => Bad | Null => Null | Fuel => Fuel
  end.
Definition children_of (r : res (Z * elt * Z)) : list kind := match r with Ok (_, Master _ _ ch, _) => map (fun e => e_kind (einfo e)) ch | _ => [] end.
(** With a child of unknown size the round trip fails: the element after it is lost.  The two files hold
    the same elements, one number in a master followed by another number, the inner master with known and
    with unknown size. *)
Theorem C14_unknown_size_refuted : exists f g,
  f = [26; 69; 223; 163; 140; 31; 67; 182; 117; 131; 251; 129; 5; 66; 134; 129; 2] /\
  g = [26; 69; 223; 163; 140; 31; 67; 182; 117; 255; 251; 129; 5; 66; 134; 129; 2] /\
  children_of (ex_read f false 0) = [Known 4; Known 2] /\ children_of (ex_read g false 0) = [Known 4].
Proof. do 2 eexists. split; [reflexivity|]. split; [reflexivity|]. vm_compute. split; reflexivity. Qed.
Print Assumptions C14_unknown_size_refuted.

(** ** C15: checksums *)
(** A master of known size, found in a file or memory stream, that starts with a CRC-32 element: if its
    data can be read at all, the status afterwards is 2 (verified) exactly when the stored value is the
    CRC-32 of all the bytes of the master after that element, and 1 (wrong) otherwise. *)
Theorem C15_status : forall E widen char_signed junk junk0 junkcrc allow,
  (forall p, zlen (junk p) = 16 /\ bytes_ok (junk p)) ->
  forall c cc pre idb szb stored body post fuel depth c0 e0 up mem err e p',
  let f := pre ++ (idb ++ szb ++ ([191; 132] ++ rev (be_bytes 4 stored)) ++ body) ++ post in
  let n := 6 + zlen body in
  bytes_ok f -> zlen f < 2 ^ 32 -> c_class (E c) = KMaster ->
  c_id (E cc) = 191 -> c_class (E cc) = KCrc -> resolves E c (Known cc) -> (0 < depth)%nat -> 0 <= stored < 2 ^ 32 ->
  vint_spec szb n -> n <> vint_reserved (zlen szb) -> body <> [] -> (2 <= fuel)%nat ->
  read_data E widen char_signed true junk junk0 junkcrc allow false fuel depth (mkIn mem 0 f) ((c0, e0) :: up)
    (of_hdr E (mkHdr (Known c) (zlen szb) n true (zlen pre) (zlen pre + zlen idb) (zlen pre + zlen idb + zlen szb + n))) (zlen pre + zlen idb + zlen szb) = Ok (err, e, p') ->
  err = ERR_NONE /\ exists i ch, e = Master i (if stored =? crc32_ieee body then 2 else 1) ch.
Proof.
  intros E widen cs junk junk0 junkcrc allow Hj c cc pre idb szb stored body post fuel depth c0 e0 up mem err e p' f n Hok Hlen H1 H2 H3 H4 H5 H6 H7 H8 H9 H10 Hr.
  pose proof (zlen_nonneg pre) as Hp. pose proof (zlen_nonneg post) as Hpo. set (bs := idb ++ szb ++ ([191; 132] ++ rev (be_bytes 4 stored)) ++ body) in *.
  assert (Hbz : zlen bs = zlen idb + zlen szb + n).
  { unfold bs. rewrite <- crc_render_be by exact H6. rewrite !zlen_app. destruct (crc_render_read stored H6) as (_ & -> & _). change (zlen [191; 132]) with 2. unfold n. lia. }
  assert (Hz : zlen f = zlen pre + zlen bs + zlen post) by (unfold f; rewrite !zlen_app; lia). pose proof (zlen_nonneg bs).
  eapply (read_status E (fun x => x) widen (fun _ _ => true) cs junk junk0 junkcrc allow Hj f Hok Hlen c cc idb szb stored body fuel depth (mkIn mem 0 f) (zlen f)); eauto.
  - split; [|lia]. cbn [in_data]. unfold zlen. rewrite Nat2Z.id, firstn_all. reflexivity.
  - intros _. exact Hp.
  - split; [lia|]. split; [fold bs; lia|]. fold bs. unfold slice, f. rewrite skipn_zlen, firstn_zlen. reflexivity.
  - fold n. lia.
Qed.
Print Assumptions C15_status.

(** So a checksum written over [body] is reported valid, and invalid after any change of [body] that is
    confined to 32 consecutive bits. *)
Theorem C15_corruption : forall E widen char_signed junk junk0 junkcrc allow,
  (forall p, zlen (junk p) = 16 /\ bytes_ok (junk p)) ->
  forall c cc pre idb szb body body' b0 x y b1 post fuel depth c0 e0 up mem err e p',
  let f := pre ++ (idb ++ szb ++ checksum 1 body ++ body') ++ post in
  let n := 6 + zlen body' in
  bytes_ok f -> zlen f < 2 ^ 32 -> bytes_ok body -> c_class (E c) = KMaster ->
  c_id (E cc) = 191 -> c_class (E cc) = KCrc -> resolves E c (Known cc) -> (0 < depth)%nat ->
  vint_spec szb n -> n <> vint_reserved (zlen szb) -> body <> [] -> (2 <= fuel)%nat ->
  msg_bits body = b0 ++ x ++ b1 -> msg_bits body' = b0 ++ y ++ b1 -> length x = length y -> (length x <= 32)%nat ->
  read_data E widen char_signed true junk junk0 junkcrc allow false fuel depth (mkIn mem 0 f) ((c0, e0) :: up)
    (of_hdr E (mkHdr (Known c) (zlen szb) n true (zlen pre) (zlen pre + zlen idb) (zlen pre + zlen idb + zlen szb + n))) (zlen pre + zlen idb + zlen szb) = Ok (err, e, p') ->
  exists i chk ch, e = Master i chk ch /\ (body' = body -> chk = 2) /\ (body' <> body -> chk = 1).
Proof.
  intros E widen cs junk junk0 junkcrc allow Hj c cc pre idb szb body body' b0 x y b1 post fuel depth c0 e0 up mem err e p' f n Hok Hlen Hbo H1 H2 H3 H4 H5 H7 H8 H9 H10 Hb Hb' Hxy Hx Hr.
  assert (Hbo' : bytes_ok body') by (unfold f in Hok; rewrite !bytes_ok_app in Hok; tauto).
  assert (Hne : body' <> []).
  { intros ->. apply H9. apply (f_equal (@length bool)) in Hb. apply (f_equal (@length bool)) in Hb'. rewrite msg_bits_len in *. rewrite !app_length in *.
    destruct body; [reflexivity|]. cbn [length] in *. lia. }
  destruct (C15_status E widen cs junk junk0 junkcrc allow Hj c cc pre idb szb (crc32_ieee body) body' post fuel depth c0 e0 up mem err e p') as (_ & i & ch & ->); auto.
  { apply crc32_ieee_u32. }
  exists i. eexists. exists ch. split; [reflexivity|]. split; [intros ->; rewrite Z.eqb_refl; reflexivity|]. intros Hd.
  destruct (crc32_ieee body =? crc32_ieee body') eqn:Ec; [exfalso|reflexivity]. apply Z.eqb_eq in Ec.
  assert (Hm : crc_matches false (crc32_ieee body) body = true) by (apply crc_matches_iff; auto).
  assert (Hm' : crc_matches false (crc32_ieee body) body' = true) by (apply crc_matches_iff; auto).
  enough (crc_matches false (crc32_ieee body) body' = false) by congruence.
  eapply (crc_detects_burst _ body body'); eauto. intros ->. apply Hd. assert (Hmb : msg_bits body' = msg_bits body) by congruence. apply msg_bits_inj; auto. apply (f_equal (@length bool)) in Hmb. rewrite !msg_bits_len in Hmb. lia.
Qed.
Print Assumptions C15_corruption.
Definition status_of (r : res (Z * elt * Z)) : Z := match r with Ok (_, Master _ chk _, _) => chk | _ => -1 end.
(** A Void element of three bytes covered by a checksum; then one bit of it changed. *)
Definition ex_crc_file (b : Z) : list Z := [26; 69; 223; 163; 139] ++ checksum 1 [236; 131; 1; 2; 3] ++ [236; 131; b; 2; 3].
Example C15_ex : map (fun m => map (fun b => status_of (ex_read (ex_crc_file b) m 1)) [1; 0; 65]) [false; true] = [[2; 1; 1]; [2; 1; 1]].
Proof. vm_compute. reflexivity. Qed.

(** Not verified: a checksum over no bytes at all, read from a file (any stored value gives status 0,
    while a memory stream reports it); and checksums below the depth asked for. *)
Theorem C15_empty_refuted : exists f g : list Z, firstn 7 f = firstn 7 g /\ zlen f = zlen g /\ f <> g /\
  status_of (ex_read f false 1) = 0 /\ status_of (ex_read g false 1) = 0 /\ status_of (ex_read f true 1) = 2 /\ status_of (ex_read g true 1) = 1.
Proof.
  exists ([26; 69; 223; 163; 134] ++ checksum 1 []), ([26; 69; 223; 163; 134; 191; 132; 1; 2; 3; 4]). vm_compute. repeat split; congruence.
Qed.
Print Assumptions C15_empty_refuted.
Theorem C15_depth_zero_refuted : exists f, status_of (ex_read f false 0) = 0 /\ status_of (ex_read f false 1) = 1.
Proof. exists (ex_crc_file 0). vm_compute. split; reflexivity. Qed.
Print Assumptions C15_depth_zero_refuted.

(** ** C48: reading any bytes *)
(** Reading an element found in any file, with at least one open-ended context and checksums looked for
    at most one level down, ends: the stream is placed after the start of the element, no byte outside
    a buffer is touched.  The fuel is the file size.  A NULL dereference remains possible, see below. *)
Theorem C48_read_total : forall E widen char_signed junk junk0 junkcrc allow nodata,
  (forall p, zlen (junk p) = 16 /\ bytes_ok (junk p)) -> (forall c, c_id (E c) = 191 -> c_class (E c) <> KMaster) ->
  forall f pos chain depth h u q fuel, bytes_ok f -> zlen f < 2 ^ 32 -> 0 <= pos -> (depth <= 1)%nat ->
  (exists i, (i < length chain)%nat /\ ctx_end chain i = -1) ->
  find_on E junk allow (mkIn false 0 f) pos chain = Ok (FElt h u q) -> zlen f <= Z.of_nat fuel ->
  match read_data E widen char_signed true junk junk0 junkcrc allow nodata fuel depth (mkIn false 0 f) chain (of_hdr E h) q with
  | Ok (err, e, p) => e_kind (einfo e) = h_kind h /\ pos + 2 <= p
  | Null => True
  | Bad | Fuel => False
  end.
Proof.
  intros E widen cs junk junk0 junkcrc allow nodata Hj H191 f pos chain depth h u q fuel Hok Hlen Hp Hd He Hf Hfu.
  assert (Hg : good (zlen f) (mkIn false 0 f)) by (split; [exact Hok|apply Z.le_refl]).
  destruct (find_good E widen junk allow Hj H191 (zlen f) Hlen (mkIn false 0 f) pos chain Hg Hp ltac:(discriminate) He) as (r & Hr & Hfound).
  rewrite Hf in Hr. injection Hr as <-. destruct Hfound as (F1 & F2 & F3 & F4). cbn [in_data] in F3.
  destruct (read_safe E widen cs junk junk0 junkcrc allow nodata Hj H191 (zlen f) Hlen fuel) as [Hsafe _].
  specialize (Hsafe depth (mkIn false 0 f) chain h q Hg F2 F3 ltac:(lia) He ltac:(discriminate)). unfold fine in Hsafe.
  destruct (read_data _ _ _ _ _ _ _ _ _ _ _ _ _ _) as [| | |[[err e] p]].
  - apply Hsafe; [|cbn [in_data]; lia]. destruct depth as [|[|d]]; [left; reflexivity|right; split; reflexivity|lia].
  - apply Hsafe; [|cbn [in_data]; lia]. destruct depth as [|[|d]]; [left; reflexivity|right; split; reflexivity|lia].
  - exact I.
  - destruct Hsafe as [(L1 & _) Hpos]; [|cbn [in_data]; lia|split; [exact L1|lia]]. destruct depth as [|[|d]]; [left; reflexivity|right; split; reflexivity|lia].
Qed.
Print Assumptions C48_read_total.
Example C48_ex : (forall c, c_id (ex_schema c) = 191 -> c_class (ex_schema c) <> KMaster) /\
  match ex_read [26; 69; 223; 163; 140; 31; 67; 182; 117; 255; 251; 129; 5; 0; 0; 129; 2] false 1 with Ok (_, e, p) => e_kind (einfo e) = Known 1 /\ p = 17 | _ => False end.
Proof.
  split; [|vm_compute; split; reflexivity]. intros c. unfold ex_schema.
  destruct c as [|p|p]; try discriminate. repeat (destruct p as [p|p|]; try discriminate).
Qed.

(** A file that ends inside a master of unknown size whose parent's size is known makes the reader use
    a NULL element: ten bytes are enough (ebmlmaster.c 413-417). *)
Theorem C48_null_dereference_refuted : exists f, ex_read f false 0 = Null.
Proof. exists [26; 69; 223; 163; 133; 31; 67; 182; 117; 255]. vm_compute. reflexivity. Qed.
Print Assumptions C48_null_dereference_refuted.
(** In a memory stream a checksum element that is not the first child makes the reader cover bytes after
    the end of the buffer. *)
Theorem C48_memory_checksum_refuted : exists f, ex_read f true 1 = Bad /\ status_of (ex_read f false 1) = 0.
Proof. exists [26; 69; 223; 163; 138; 66; 134; 129; 2; 191; 132; 0; 0; 0; 0]. vm_compute. split; reflexivity. Qed.
Print Assumptions C48_memory_checksum_refuted.
