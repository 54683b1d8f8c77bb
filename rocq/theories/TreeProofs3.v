(** Reading back the encoding of an element tree. *)
From Verif Require Import Base BaseProofs VintSpec EbmlIdSpec CrcSpec IntEltSpec Vint VintProofs EbmlId EbmlIdProofs IntElt IntEltProofs
  Crc CrcProofs EltHead Void VoidSpec VoidProofs Ebml Arr ArrProofs ArrProofs2 Stream StreamProofs Finder FinderSpec FinderProofs FinderProofs2 FinderProofs3 FinderProofs4
  Tree TreeRead TreeSpec TreeProofs TreeProofs2.

Lemma cstr_app s r : ~ In 0 s -> cstr (s ++ 0 :: r) = Some s.
Proof.
  induction s as [|c s IH]; intros H; [reflexivity|]. cbn [app cstr]. assert (c <> 0) by (intros ->; apply H; left; reflexivity).
  replace (c =? 0) with false by lia. rewrite IH; [reflexivity|]. intros Hi. apply H. right. exact Hi.
Qed.

(** ** Positioned bytes *)
Definition at_pos (f : list Z) (p : Z) (bs : list Z) : Prop := 0 <= p /\ p + zlen bs <= zlen f /\ slice f p (zlen bs) = bs.

Lemma at_app f p a b : at_pos f p (a ++ b) <-> at_pos f p a /\ at_pos f (p + zlen a) b.
Proof.
  pose proof (zlen_nonneg a). pose proof (zlen_nonneg b). unfold at_pos. rewrite zlen_app. split.
  - intros (H1 & H2 & H3). rewrite slice_split in H3 by lia.
    assert (Hl : length (slice f p (zlen a)) = length a).
    { apply Nat2Z.inj. exact (slice_len f p (zlen a) ltac:(lia) ltac:(lia) ltac:(lia)). }
    destruct (app_inv_len _ _ _ _ Hl H3) as [Ha Hb]. repeat split; try lia; assumption.
  - intros ((H1 & H2 & H3) & H4 & H5 & H6). split; [lia|]. split; [lia|]. rewrite slice_split by lia. congruence.
Qed.

(** [s] shows the bytes of [f] before [L]. *)
Definition view (s : ist) (f : list Z) (L : Z) : Prop := in_data s = firstn (Z.to_nat L) f /\ 0 <= L <= zlen f.

Lemma view_len s f L : view s f L -> zlen (in_data s) = L.
Proof. intros [-> H]. rewrite zlen_firstn by lia. lia. Qed.
Lemma slice_prefix f L p n : 0 <= p -> 0 <= n -> p + n <= L -> slice (firstn (Z.to_nat L) f) p n = slice f p n.
Proof.
  intros H1 H2 H3. unfold slice. rewrite skipn_firstn_comm, firstn_firstn. f_equal. lia.
Qed.
Lemma view_slice s f L p n : view s f L -> 0 <= p -> 0 <= n -> p + n <= L -> slice (in_data s) p n = slice f p n.
Proof. intros [-> H] ? ? ?. apply slice_prefix; lia. Qed.
Lemma view_bytes s f L : view s f L -> bytes_ok f -> bytes_ok (in_data s).
Proof. intros [-> H] Hf. apply bytes_ok_firstn. exact Hf. Qed.

Definition in_reach (s : ist) (p : Z) : Prop := in_mem s = true -> in_lo s <= p.
Lemma reach_cond s p : in_reach s p -> in_mem s && (p <? in_lo s) = false.
Proof. unfold in_reach. destruct (in_mem s); [|reflexivity]. intros H. specialize (H eq_refl). cbn [andb]. lia. Qed.

Lemma i_read_at s f L p bs : view s f L -> in_reach s p -> at_pos f p bs -> p + zlen bs <= L ->
  i_read s p (zlen bs) = Ok (ERR_NONE, bs, p + zlen bs).
Proof.
  intros Hv Hr (H1 & H2 & H3) H4. pose proof (zlen_nonneg bs). unfold i_read. rewrite reach_cond by assumption. rewrite orb_false_r.
  replace (zlen bs <? 0) with false by lia. fold (slice (in_data s) p (zlen bs)). rewrite (view_slice _ _ _ _ _ Hv) by lia. rewrite H3.
  rewrite Z.ltb_irrefl. reflexivity.
Qed.
Lemma i_seek_at s f L p cur : view s f L -> 0 <= p <= L -> i_seek s p cur = (p, p).
Proof.
  intros Hv Hp. unfold i_seek. rewrite (view_len _ _ _ Hv). replace (p <? 0) with false by lia. replace (L <? p) with false by lia. destruct (in_mem s); reflexivity.
Qed.
Lemma at_bytes f p bs : bytes_ok f -> at_pos f p bs -> bytes_ok bs.
Proof. intros Hf (_ & _ & <-). apply slice_bytes. exact Hf. Qed.

Section Rd.
Context (E : schema) (narrow widen : Z -> Z) (flt_is : Z -> Z -> bool) (wd : bool).
Context (char_signed : bool) (junk : Z -> list Z) (junk0 junkcrc : Z) (allow : bool).
Context (Hjunk : forall p, zlen (junk p) = 16 /\ bytes_ok (junk p)).
Context (f : list Z) (Hf : bytes_ok f) (Hsmall : zlen f < 2 ^ 32).
Notation find_on := (find_on E junk allow).
Notation enc := (enc E narrow flt_is wd).
Notation encs := (encs E narrow flt_is wd).
Notation omitted := (omitted E flt_is wd).
Notation same := (same E narrow widen flt_is wd f).
Notation sames := (sames E narrow widen flt_is wd f).
Notation readable := (readable E flt_is wd char_signed).

Definition hdr_at (c p : Z) (idb szb : list Z) (n : Z) : hdr :=
  mkHdr (Known c) (zlen szb) n true p (p + zlen idb) (p + zlen idb + zlen szb + n).

Lemma find_child s L p c0 e0 up c idb szb n :
  view s f L -> in_reach s p -> at_pos f p (idb ++ szb) -> p + zlen idb + zlen szb + n <= L -> 0 <= n ->
  id_encodes idb (c_id (E c)) -> vint_spec szb n -> n <> vint_reserved (zlen szb) ->
  e0 = -1 \/ p + zlen idb + zlen szb + n <= e0 -> resolves E c0 (Known c) -> legal_size (c_class (E c)) (Some n) ->
  find_on s p ((c0, e0) :: up) = Ok (FElt (hdr_at c p idb szb n) 0 (p + zlen idb + zlen szb)).
Proof.
  intros Hv Hr Hat HL Hn Hid Hsz Hnr He Hres Hleg. pose proof (view_len _ _ _ Hv) as Hvl. pose proof (view_bytes _ _ _ Hv Hf) as Hvb.
  assert (Hp : 0 <= p) by apply Hat. pose proof (zlen_nonneg idb) as Hzi. pose proof (zlen_nonneg szb) as Hzs.
  apply at_app in Hat. destruct Hat as [(_ & _ & Ha1) (_ & _ & Ha2)].
  assert (Hz1 : 1 <= zlen szb) by apply Hsz.
  unfold TreeRead.find_on. rewrite reach_cond by assumption. destruct (Hjunk p) as [Hj1 Hj2].
  assert (Hchild : child_at E (in_data s) ((c0, e0) :: up) 0 p (c_id (E c)) (zlen idb) n (zlen szb)).
  { split.
    - unfold header_at. rewrite !(view_slice _ _ _ _ _ Hv) by lia. rewrite Ha1, Ha2. auto.
    - destruct Hres as (c' & Hc & Hex & Hun). injection Hc as <-. exists c0, e0. split; [reflexivity|]. split; [exact Hex|]. split; [|destruct He; [left; assumption|right; lia]].
      intros x Hx. rewrite (Hun x Hx). unfold size_of_vint. replace (n =? vint_reserved (zlen szb)) with false by lia. exact Hleg. }
  assert (Hop : open_ctx ((c0, e0) :: up) p 0).
  { split; [cbn [length]; lia|]. split; [intros; lia|]. right. unfold ctx_end. cbn [nth_error]. lia. }
  assert (Hin : ctx_end ((c0, e0) :: up) 0 = -1 \/ p <= ctx_end ((c0, e0) :: up) 0) by (unfold ctx_end; cbn [nth_error]; lia).
  destruct (child_first E (junk p) (in_data s) p ((c0, e0) :: up) 0 allow 0 p (c_id (E c)) (zlen idb) n (zlen szb)) as (r & Er & Hrr); auto; try lia.
  { unfold small_file. destruct Hv as [_ Hv]. lia. }
  rewrite Er. destruct r as [u q|h u q|]; [lia| |contradiction].
  destruct Hrr as [Hge [Hlt|(x & c1 & e1 & Hnth & Hnm & Hh)]]; [lia|]. cbv zeta in Hh. injection Hnth as <- <-.
  destruct Hres as (c' & Hc & Hex & Hun). injection Hc as <-. specialize (Hun x Hnm).
  destruct Hh as (-> & -> & ->). unfold hdr_at. rewrite Hun. replace (n =? vint_reserved (zlen szb)) with false by lia. reflexivity.
Qed.

Lemma pos_data_hdr c p idb szb n : vint_spec szb n -> n <> vint_reserved (zlen szb) -> n < 2 ^ 35 - 1 ->
  position_data (einfo (of_hdr E (hdr_at c p idb szb n))) = p + zlen idb + zlen szb.
Proof.
  intros Hsz Hnr Hn. destruct Hsz as (_ & Hz & Hv & _). unfold of_hdr, hdr_at.
  replace (einfo _) with (mkInfo (Known c) false (class_need (c_class (E c))) true n (class_defsz (c_class (E c))) (zlen szb) p (p + zlen idb) (p + zlen idb + zlen szb + n))
    by (cbn [h_kind kind_class h_fin h_dsize h_szlen h_epos h_spos h_end]; destruct (c_class (E c)); reflexivity).
  unfold position_data. cbn [e_fin negb e_spos e_dsize e_szlen].
  rewrite coded_size_length_forced by lia. pose proof (csl_size_class n ltac:(lia)) as Hc.
  assert (coded_size_length n 0 true <= zlen szb); [|lia].
  unfold vint_reserved in Hnr. unfold size_class in Hc. clear -Hc Hz Hv Hnr.
  set (k := coded_size_length n 0 true) in *. assert (Hlt : n < 2 ^ (7 * zlen szb) - 1) by lia. clear Hv Hnr.
  destruct (Z_le_gt_dec k (zlen szb)) as [|Hgt]; [assumption|exfalso].
  assert (2 ^ (7 * zlen szb) <= 2 ^ (7 * (k - 1))) by (apply Z.pow_le_mono_r; lia). lia.
Qed.

Notation read_data := (read_data E widen char_signed true junk junk0 junkcrc allow false).
Notation read_loop := (read_loop E widen char_signed true junk junk0 junkcrc allow false).

(** The sizes a payload can have. *)
Lemma payload_legal i v data : payload E narrow i v data -> legal_size (kind_class E (e_kind i)) (Some (zlen data)).
Proof.
  intros (_ & H). unfold legal_size. destruct (kind_class E (e_kind i)); destruct v as [x|x|[b|]|d|x|]; try contradiction; try exact I; try lia.
  subst data. rewrite zlen_rev, be_bytes_zlen. reflexivity.
Qed.

Lemma leaf_val_ok i v data : payload E narrow i v data -> val_ok E i v -> sint_plain E char_signed i v ->
  kind_class E (e_kind i) <> KMaster -> kind_class E (e_kind i) <> KCrc -> kind_class E (e_kind i) <> KVoid ->
  leaf_size_ok (kind_class E (e_kind i)) (zlen data) = true /\
  exists v', leaf_val widen char_signed junk0 (kind_class E (e_kind i)) data = Some v' /\ val_same E narrow widen flt_is wd i v v'.
Proof.
  intros (Hok & Hp) Hv Hpl N1 N2 N3. unfold val_ok, sint_plain, leaf_val, leaf_size_ok, val_same in *. destruct (kind_class E (e_kind i)) eqn:Ek; try contradiction;
    destruct v as [x|x|[b|]|d|x|]; try contradiction.
  - destruct Hp as (Hz & Hb). split; [lia|]. rewrite read_data_int_ok by (assumption || lia). eexists. split; [reflexivity|].
    f_equal. rewrite <- (s64_small x Hv). apply s64_congr. rewrite Hb. apply Z.mod_mod. lia.
  - destruct Hp as (Hz & Hb). split; [lia|]. destruct char_signed.
    + destruct Hpl as [?|Hpl]; [discriminate|]. rewrite read_sint_signed_ok; [eexists; split; [reflexivity|congruence]|assumption|lia|].
      intros pre b post ->. intros. eapply Hpl; eauto. lia.
    + rewrite read_sint_unsigned_char by (assumption || lia). eexists. split; [reflexivity|congruence].
  - destruct Hp as (Hz & Hc). split; [destruct Hc; lia|]. unfold read_data_float. cbn [TreeSpec.psize]. rewrite <- Hz. rewrite load_be_ok by assumption. destruct Hc as [[H1 H2]|[H1 H2]]; rewrite H1, H2; cbn [Z.eqb Pos.eqb orb]; eexists; (split; reflexivity).
  - destruct Hp as (r & -> & Hn). split; [reflexivity|]. rewrite cstr_app by assumption. eexists. split; reflexivity.
  - destruct Hp as (r & -> & Hn). split; [reflexivity|]. rewrite cstr_app by assumption. eexists. split; reflexivity.
  - subst data. split; [reflexivity|]. eexists. split; reflexivity.
  - destruct Hp as (Hz & Hb). split; [lia|]. rewrite Hz. cbn [Z.ltb Z.compare Pos.compare Pos.compare_cont]. eexists. split; [reflexivity|]. f_equal.
    rewrite <- (s64_small x Hv). apply s64_congr. rewrite <- Hb. unfold twos_val. rewrite Hz. destruct (_ <? _); [reflexivity|].
    change (256 ^ 8) with (2 ^ 64). rewrite <- (Z.mod_add (be_val data - 2 ^ 64) 1) by lia. f_equal. lia.
  - subst data. split; [reflexivity|]. eexists. split; reflexivity.
Qed.

Lemma skip_fin s chain i pos L : view s f L -> e_fin i = true -> 0 <= e_end i <= L -> skip_data E junk allow s chain i pos = Ok (e_end i).
Proof. intros Hv Hi He. unfold skip_data. rewrite Hi. rewrite (i_seek_at _ _ _ _ _ Hv He). reflexivity. Qed.

Lemma read_leaf_back i v c idb szb data fuel depth s L chain p :
  e_kind i = Known c -> payload E narrow i v data -> val_ok E i v -> sint_plain E char_signed i v ->
  kind_class E (e_kind i) <> KMaster -> kind_class E (e_kind i) <> KCrc -> e_fin i = true ->
  view s f L -> in_reach s p -> at_pos f p (idb ++ szb ++ data) -> p + zlen (idb ++ szb ++ data) <= L ->
  id_encodes idb (c_id (E c)) -> coded i szb (zlen data) ->
  exists e', read_data fuel depth s chain (of_hdr E (hdr_at c p idb szb (zlen data))) (p + zlen idb + zlen szb) = Ok (ERR_NONE, e', p + zlen (idb ++ szb ++ data)) /\
    same (Leaf i v) e' /\ e_fin (einfo e') = true /\ e_end (einfo e') = p + zlen (idb ++ szb ++ data) /\ e_kind (einfo e') = Known c.
Proof.
  intros Hk Hp Hv Hpl N1 N2 Hfin Hvw Hr Hat HL Hid Hcod.
  pose proof Hat as Hat0. apply at_app in Hat. destruct Hat as [Ha1 Ha]. apply at_app in Ha. destruct Ha as [Ha2 Ha3].
  pose proof (zlen_nonneg idb). pose proof (zlen_nonneg szb). pose proof (zlen_nonneg data). rewrite !zlen_app in *.
  assert (HvL : 0 <= L <= zlen f) by apply Hvw. assert (Hp0 : 0 <= p) by apply Hat0.
  assert (Henc : enc (Leaf i v) (idb ++ szb ++ data)) by (constructor; [unfold eid_of; rewrite Hk; exact Hid|exact Hcod|exact Hp]).
  unfold coded in Hcod. rewrite Hfin in Hcod. destruct Hcod as [Hvs Hnr]. specialize (Hnr eq_refl).
  pose proof (pos_data_hdr c p idb szb (zlen data) Hvs Hnr ltac:(lia)) as Hpd.
  assert (Hsl : forall e, e_epos e = p -> e_end e = p + zlen idb + zlen szb + zlen data -> enc (Leaf i v) (slice f (e_epos e) (e_end e - e_epos e))).
  { intros e -> ->. replace (p + zlen idb + zlen szb + zlen data - p) with (zlen (idb ++ szb ++ data)) by (rewrite !zlen_app; lia).
    destruct Hat0 as (_ & _ & ->). exact Henc. }
  assert (Hcl : kind_class E (e_kind i) = c_class (E c)) by (rewrite Hk; reflexivity).
  assert (Hof : of_hdr E (hdr_at c p idb szb (zlen data)) = Leaf (mkInfo (Known c) false (class_need (c_class (E c))) true (zlen data) (class_defsz (c_class (E c))) (zlen szb) p (p + zlen idb) (p + zlen idb + zlen szb + zlen data)) (class_val (c_class (E c)))).
  { unfold of_hdr, hdr_at. cbn [h_kind kind_class h_fin h_dsize h_szlen h_epos h_spos h_end]. rewrite Hcl in N1. destruct (c_class (E c)); try reflexivity. contradiction. }
  rewrite Hof in *. cbn [einfo] in Hpd. set (i0 := mkInfo _ _ _ _ _ _ _ _ _ _) in *.
  assert (Hrd : read_data fuel depth s chain (Leaf i0 (class_val (c_class (E c)))) (p + zlen idb + zlen szb) = read_leaf E widen char_signed junk junk0 allow false s chain i0 (class_val (c_class (E c))) (p + zlen idb + zlen szb))
    by (destruct fuel; reflexivity).
  rewrite Hrd. clear Hrd. unfold read_leaf. cbv zeta. change (kind_class E (e_kind i0)) with (c_class (E c)).
  destruct (c_class (E c)) eqn:Ec; try contradiction.
  all: try (destruct (leaf_val_ok i v data Hp Hv Hpl N1 N2) as (Hso & v' & Hlv & Hsame); [rewrite Hcl; discriminate|]; rewrite Hcl in Hso, Hlv;
    change (position_data (with_set i0 false)) with (position_data i0); rewrite Hpd, (i_seek_at _ _ _ _ _ Hvw) by lia;
    replace (p + zlen idb + zlen szb =? INVALID_FILEPOS) with false by (unfold INVALID_FILEPOS; lia);
    change (e_dsize (with_set i0 false)) with (zlen data); rewrite Hso; cbn [negb];
    rewrite (i_read_at _ _ _ _ _ Hvw) by (assumption || lia || (intros Hm; specialize (Hr Hm); lia)); cbn [bind]; cbn [Z.eqb ERR_NONE negb]; rewrite Hlv;
    eexists; split; [rewrite !Z.add_assoc; reflexivity|]; cbn [einfo with_set e_fin e_end e_kind i0];
    split; [|split; [reflexivity|split; [lia|reflexivity]]];
    constructor; [symmetry; exact Hk|exact Hsame|right; reflexivity|apply Hsl; reflexivity]).
  (* Void *)
  rewrite (skip_fin _ _ _ _ _ Hvw) by (try reflexivity; cbn [e_end i0]; lia). cbn [bind]. eexists. split; [cbn [e_end i0]; rewrite !Z.add_assoc; reflexivity|].
  cbn [einfo e_fin e_end e_kind i0]. split; [|split; [reflexivity|split; [lia|reflexivity]]].
  unfold payload in Hp. rewrite Hcl in Hp. destruct v; try (destruct Hp as [_ Hp]; contradiction).
  constructor; [symmetry; exact Hk|reflexivity|left; reflexivity|apply Hsl; reflexivity].
Qed.

(** ** Masters *)
Fixpoint need (e : elt) : nat :=
  match e with
  | Leaf _ _ => O
  | Master _ _ ch => S (S ((fix sum (l : list elt) : nat := match l with [] => O | c :: l => S (need c) + sum l end) ch))%nat
  end.
Definition needs (l : list elt) : nat := fold_right (fun c s => S (need c) + s)%nat O l.
Lemma need_master i chk ch : need (Master i chk ch) = S (S (needs ch)).
Proof. reflexivity. Qed.

Lemma enc_len e bs : enc e bs -> 2 <= zlen bs.
Proof.
  intros H. destruct H as [i v idb szb data Hid [Hsz _] _|i chk ch idb szb body Hid [Hsz _] _]; rewrite !zlen_app; destruct Hid as (_ & (Hid & _) & _); destruct Hsz as (_ & Hsz & _);
    [pose proof (zlen_nonneg data)|pose proof (zlen_nonneg body); pose proof (zlen_nonneg (checksum chk body))]; lia.
Qed.
Lemma encs_empty l : encs l [] -> sames l [].
Proof.
  remember [] as b eqn:Hb. intros H. induction H as [|c l b Ho H IH|c l b1 b2 Ho Hc Hl IH].
  - constructor.
  - constructor; auto.
  - apply enc_len in Hc. apply app_eq_nil in Hb. destruct Hb as [-> _]. vm_compute in Hc. contradiction Hc; reflexivity.
Qed.

Definition back (e : elt) : Prop := forall fuel depth s L c0 e0 up p bs,
  view s f L -> in_reach s p -> at_pos f p bs -> p + zlen bs <= L -> enc e bs -> readable depth e -> (need e <= fuel)%nat ->
  e0 = -1 \/ p + zlen bs <= e0 -> resolves E c0 (e_kind (einfo e)) ->
  exists h q e', find_on s p ((c0, e0) :: up) = Ok (FElt h 0 q) /\ h_end h = p + zlen bs /\
    read_data fuel depth s ((c0, e0) :: up) (of_hdr E h) q = Ok (ERR_NONE, e', p + zlen bs) /\
    same e e' /\ e_fin (einfo e') = true /\ e_end (einfo e') = p + zlen bs /\ e_kind (einfo e') = e_kind (einfo e) /\ eid_of E (einfo e') <> 191.

Definition kids (c : Z) (depth : nat) (l : list elt) : Prop :=
  Forall (fun d => omitted d = false -> resolves E c (e_kind (einfo d)) /\ readable (Nat.pred depth) d) l.

Definition used (cs : crcst) : bool := match cs with CrcOn _ _ => true | _ => false end.

Lemma loop_step fuel depth inp chain i chk rs cs acc h q ipos :
  read_loop (S fuel) depth inp chain i chk rs cs acc (FElt h 0 q) ipos =
  if e_fin i && (e_end i <? h_end h) then Ok (ERR_NONE, Master (with_set i true) (crc_status true cs chk) (rev acc), if negb (in_mem inp) && used cs then ipos else q)
  else
    do t <- read_data fuel (Nat.pred depth) rs chain (of_hdr E h) q;
    let '(err, e, p) := t in
    if negb (err =? ERR_NONE) then do r <- find_on rs p chain; read_loop fuel depth inp chain i chk rs cs acc r ipos
    else
      do m <- (if crc_first cs && negb (Nat.eqb depth 0) && negb false && (eid_of E (einfo e) =? 191)
               then meet_crc E inp i (einfo e) (crc_field junkcrc e) p else Ok (cs, rs, ipos, p));
      let '(cs', rs', ipos', p) := m in
      let kept := match cs, cs' with CrcNone, CrcOn _ _ => false | _, _ => true end in
      let acc := if kept then e :: acc else acc in
      do p <- skip_data E junk allow rs' chain (einfo e) p;
      if e_fin i && (e_end i - e_end (einfo e) <=? 0)
      then Ok (ERR_NONE, Master (with_set i true) (crc_status true cs' chk) (rev acc), if negb (in_mem inp) && used cs' then ipos' else p)
      else do r <- find_on rs' p chain; read_loop fuel depth inp chain i chk rs' cs' acc r ipos'.
Proof. reflexivity. Qed.

Lemma loop_back c up : forall l body, encs l body -> Forall back l -> forall fuel depth inp i chk rs cs acc ipos L q,
  e_fin i = true -> e_end i = q + zlen body -> view rs f L -> in_reach rs q -> at_pos f q body -> q + zlen body <= L -> body <> [] ->
  kids c depth l -> (needs l <= fuel)%nat ->
  exists r l', find_on rs q ((c, e_end i) :: up) = Ok r /\ sames l l' /\
    read_loop fuel depth inp ((c, e_end i) :: up) i chk rs cs acc r ipos =
    Ok (ERR_NONE, Master (with_set i true) (crc_status true cs chk) (rev acc ++ l'), if negb (in_mem inp) && used cs then ipos else e_end i).
Proof.
  intros l body Henc. induction Henc as [|d l b Ho Hl IH|d l b1 b2 Ho Hd Hl IH]; intros Hb fuel depth inp i chk rs cs acc ipos L q Hfin Hend Hv Hr Hat HL Hne Hk Hn.
  - contradiction.
  - apply Forall_cons_iff in Hb. destruct Hb as [_ Hb]. apply Forall_cons_iff in Hk. destruct Hk as [_ Hk].
    cbn [needs fold_right] in Hn. fold (needs l) in Hn.
    destruct (IH Hb fuel depth inp i chk rs cs acc ipos L q) as (r & l' & H1 & H2 & H3); auto; [lia|].
    exists r, l'. split; [exact H1|]. split; [apply sames_omit; assumption|exact H3].
  - apply Forall_cons_iff in Hb. destruct Hb as [Hb1 Hb]. apply Forall_cons_iff in Hk. destruct Hk as [Hk1 Hk]. destruct (Hk1 Ho) as [Hres Hrd].
    cbn [needs fold_right] in Hn. fold (needs l) in Hn. destruct fuel as [|fuel]; [lia|].
    rewrite zlen_app in *. pose proof (zlen_nonneg b1). pose proof (zlen_nonneg b2). apply at_app in Hat. destruct Hat as [Ha1 Ha2].
    assert (Hq0 : 0 <= q) by apply Ha1.
    destruct (Hb1 fuel (Nat.pred depth) rs L c (e_end i) up q b1) as (h & q' & e' & F1 & F2 & F3 & F4 & F5 & F6 & F7 & F8); auto; try lia.
    assert (Hstep : forall P, P = (fun r => exists l', sames (d :: l) l' /\ read_loop (S fuel) depth inp ((c, e_end i) :: up) i chk rs cs acc r ipos =
       Ok (ERR_NONE, Master (with_set i true) (crc_status true cs chk) (rev acc ++ l'), if negb (in_mem inp) && used cs then ipos else e_end i)) -> P (FElt h 0 q')).
    2:{ specialize (Hstep _ eq_refl). destruct Hstep as (l' & S1 & S2). exists (FElt h 0 q'), l'. auto. }
    intros P ->. cbv beta. rewrite loop_step. rewrite Hfin. replace (e_end i <? h_end h) with false by lia. cbn [andb].
    rewrite F3. cbn [bind]. cbn [Z.eqb ERR_NONE negb]. replace (eid_of E (einfo e') =? 191) with false by lia. rewrite andb_false_r. cbn [bind]. cbv zeta.
    replace (match cs with CrcNone => match cs with CrcOn _ _ => false | _ => true end | _ => true end) with true by (destruct cs; reflexivity).
    rewrite (skip_fin _ _ _ _ _ Hv) by (try assumption; lia). cbn [bind]. rewrite F6.
    destruct (e_end i - (q + zlen b1) <=? 0) eqn:Elast; cbn [andb].
    + assert (b2 = []) by (apply zlen_zero; lia). subst b2. exists [e']. split.
      * apply sames_cons; [assumption|assumption|]. apply encs_empty. assumption.
      * cbn [rev]. do 2 f_equal. change (zlen (@nil Z)) with 0 in *. destruct (_ && _); [reflexivity|lia].
    + assert (Hb2 : b2 <> []) by (intros ->; change (zlen (@nil Z)) with 0 in *; lia).
      destruct (IH Hb fuel depth inp i chk rs cs (e' :: acc) ipos L (q + zlen b1)) as (r & l' & G1 & G2 & G3); auto; try lia.
      { intros Hm. specialize (Hr Hm). lia. }
      rewrite G1. cbn [bind]. rewrite G3. exists (e' :: l'). split; [apply sames_cons; assumption|]. cbn [rev]. rewrite <- app_assoc. reflexivity.
Qed.

Lemma readable_master depth i chk ch : readable depth (Master i chk ch) -> e_fin i = true /\
  exists c, e_kind i = Known c /\ c_class (E c) = KMaster /\ eid_of E i <> 191 /\
    (chk = 0 \/ ((0 < depth)%nat /\ exists cc, c_id (E cc) = 191 /\ c_class (E cc) = KCrc /\ resolves E c (Known cc))) /\ kids c depth ch.
Proof.
  cbn [TreeSpec.readable einfo]. intros (Hf1 & c & H1 & H2 & H3 & H4 & H5). split; [exact Hf1|]. exists c. do 4 (split; [assumption|]).
  clear -H5. unfold kids. induction ch as [|d l IH]; constructor; [apply H5|apply IH, H5].
Qed.

(** The checksum element at the start of a master. *)
Lemma read_crc_back cc fuel depth s L c0 e0 up q stored : c_class (E cc) = KCrc -> is_u32 stored ->
  view s f L -> in_reach s q -> at_pos f q ([191; 132] ++ rev (be_bytes 4 stored)) -> q + 6 <= L ->
  read_data fuel depth s ((c0, e0) :: up) (of_hdr E (hdr_at cc q [191] [132] 4)) (q + 1 + 1) =
  Ok (ERR_NONE, Leaf (mkInfo (Known cc) true false true 4 (-1) 1 q (q + 1) (q + 1 + 1 + 4)) (VCrc stored), q + 6).
Proof.
  intros Hc Hst Hv Hr Hat HL. rewrite <- crc_render_be in Hat by assumption. destruct (crc_render_read _ Hst) as (_ & Hcz & Hcr).
  apply at_app in Hat. destruct Hat as [_ Hat]. change (zlen [191; 132]) with 2 in Hat.
  assert (Hof : of_hdr E (hdr_at cc q [191] [132] 4) = Leaf (mkInfo (Known cc) false false true 4 (-1) 1 q (q + 1) (q + 1 + 1 + 4)) (VCrc CRC32_NEGL)).
  { unfold of_hdr, hdr_at. cbn [h_kind kind_class h_fin h_dsize h_szlen h_epos h_spos h_end]. rewrite Hc. reflexivity. }
  rewrite Hof. set (i0 := mkInfo _ _ _ _ _ _ _ _ _ _).
  replace (read_data fuel depth s ((c0, e0) :: up) (Leaf i0 (VCrc CRC32_NEGL)) (q + 1 + 1)) with
    (read_leaf E widen char_signed junk junk0 allow false s ((c0, e0) :: up) i0 (VCrc CRC32_NEGL) (q + 1 + 1)) by (destruct fuel; reflexivity).
  unfold read_leaf. cbv zeta. change (kind_class E (e_kind i0)) with (c_class (E cc)). rewrite Hc.
  replace (i_read s (q + 1 + 1) 4) with (i_read s (q + 2) (zlen (crc_render stored))) by (rewrite Hcz; f_equal; lia).
  rewrite (i_read_at _ _ _ _ _ Hv) by (assumption || lia || (intros Hm; specialize (Hr Hm); lia)). cbn [bind]. cbn [Z.eqb ERR_NONE].
  rewrite Hcr. cbn [opt_res bind]. rewrite Hcz. do 2 f_equal. lia.
Qed.

Lemma i_read_at' s L p bs n : n = zlen bs -> view s f L -> in_reach s p -> at_pos f p bs -> p + zlen bs <= L -> i_read s p n = Ok (ERR_NONE, bs, p + zlen bs).
Proof. intros ->. apply i_read_at. Qed.

Lemma meet_back s L m ci stored body q M : view s f L -> in_reach s q -> at_pos f q body -> q + zlen body <= L ->
  e_fin m = true -> e_end m = M -> M = q + zlen body -> e_dsize m = 6 + zlen body ->
  eid_of E ci = 191 -> e_dsize ci = 4 -> e_szlen ci = 1 -> e_fin ci = true -> e_end ci = q ->
  exists cov rs, meet_crc E s m ci stored q = Ok (CrcOn stored cov, rs, M, if in_mem s then M else q) /\
    (exists L', view rs f L' /\ M <= L') /\ in_reach rs q /\ (cov = Some body \/ (cov = None /\ body = [])).
Proof.
  intros Hv Hr Hat HL Hm1 Hm2 HM Hm3 Hc1 Hc2 Hc3 Hc4 Hc5. pose proof (zlen_nonneg body) as Hzb.
  assert (Hq : 0 <= q) by apply Hat. assert (HLf : 0 <= L <= zlen f) by apply Hv. unfold meet_crc. rewrite Hm1. cbn [negb].
  assert (Hok : bytes_ok body) by (eapply at_bytes; eassumption).
  destruct (in_mem s) eqn:Em.
  - rewrite Hc5, (i_seek_at _ _ _ _ _ Hv) by lia. rewrite Hm3, Hc1, Hc2, Hc3, Hc4.
    change (full_size 191 4 1 true) with 6. replace (6 + zlen body - 6) with (zlen body) by lia.
    unfold raw_bytes. rewrite (view_len _ _ _ Hv). specialize (Hr Em). replace ((zlen body <? 0) || (q <? in_lo s) || (L <? q + zlen body)) with false by lia.
    cbn [bind]. fold (slice (in_data s) q (zlen body)). rewrite (view_slice _ _ _ _ _ Hv) by lia. destruct Hat as (Ha1 & Ha2 & Ha3). rewrite Ha3.
    rewrite (i_read_at _ _ _ _ _ Hv) by (repeat split; assumption || lia || (intros Hm; assumption)). cbn [bind].
    exists (Some body), s. split; [rewrite HM; reflexivity|]. split; [exists L; split; [assumption|lia]|]. split; [intros _; assumption|].
    left. reflexivity.
  - rewrite Hm2, Hc5, (i_seek_at _ _ _ _ _ Hv) by lia.
    rewrite (i_read_at' s L q body (M - q)) by (assumption || lia). cbn [bind]. cbn [Z.eqb ERR_NONE negb].
    eexists _, _. split; [rewrite <- HM; reflexivity|]. split; [exists M; split; [|lia]|].
    { split; [|lia]. cbn [in_data]. destruct Hv as [-> _]. rewrite firstn_firstn. f_equal. lia. }
    split; [intros _; cbn [in_lo]; lia|]. destruct (M - q =? 0) eqn:E0.
    + right. split; [reflexivity|]. apply zlen_zero. lia.
    + left. reflexivity.
Qed.

Lemma read_master_eq fuel depth s chain i chk l pos :
  read_data (S fuel) depth s chain (Master i chk l) pos =
  let i := with_set i false in
  if (e_dsize i <=? 0) && e_fin i then Ok (ERR_NONE, Master (with_set i true) chk [], pos)
  else
    let '(sk, pos) := i_seek s (position_data i) pos in
    if sk =? INVALID_FILEPOS then Ok (ERR_END_OF_FILE, Master i chk [], pos)
    else match e_kind i with
    | Dummy _ => Bad
    | Known c => do r <- find_on s pos ((c, e_end i) :: chain); read_loop fuel depth s ((c, e_end i) :: chain) i chk s CrcNone [] r pos
    end.
Proof. reflexivity. Qed.

(** A master that starts with a checksum element, whatever follows. *)
Lemma crc_step c cc idb szb stored body fuel depth s L c0 e0 up p : c_class (E c) = KMaster ->
  c_id (E cc) = 191 -> c_class (E cc) = KCrc -> resolves E c (Known cc) -> (0 < depth)%nat -> is_u32 stored ->
  vint_spec szb (6 + zlen body) -> 6 + zlen body <> vint_reserved (zlen szb) ->
  view s f L -> in_reach s p -> at_pos f p (idb ++ szb ++ ([191; 132] ++ rev (be_bytes 4 stored)) ++ body) ->
  p + zlen idb + zlen szb + (6 + zlen body) <= L ->
  let n := 6 + zlen body in let q := p + zlen idb + zlen szb in
  let i := mkInfo (Known c) false true true n (-1) (zlen szb) p (p + zlen idb) (q + n) in
  exists cov rs, (exists L', view rs f L' /\ q + n <= L') /\ in_reach rs (q + 6) /\ (cov = Some body \/ (cov = None /\ body = [])) /\
    read_data (S (S fuel)) depth s ((c0, e0) :: up) (of_hdr E (hdr_at c p idb szb n)) q =
    (if zlen body =? 0 then Ok (ERR_NONE, Master (with_set i true) (crc_status true (CrcOn stored cov) 0) [], q + n)
     else do r <- find_on rs (q + 6) ((c, q + n) :: (c0, e0) :: up);
          read_loop fuel depth s ((c, q + n) :: (c0, e0) :: up) i 0 rs (CrcOn stored cov) [] r (q + n)).
Proof.
  intros Hcl Hcc1 Hcc2 Hcc3 Hdep Hst Hvs Hnr Hv Hr Hat HL n q i1. pose proof (zlen_nonneg body) as Z2. pose proof (zlen_nonneg idb) as Z3. pose proof (zlen_nonneg szb) as Z4.
  assert (HLf : 0 <= L <= zlen f) by apply Hv. assert (Hp0 : 0 <= p) by apply Hat. rewrite app_assoc in Hat. apply at_app in Hat. destruct Hat as [Hath Hatd].
  rewrite zlen_app in Hatd. replace (p + (zlen idb + zlen szb)) with q in Hatd by (unfold q; lia).
  pose proof (pos_data_hdr c p idb szb n Hvs Hnr ltac:(unfold n; lia)) as Hpd. fold q in Hpd.
  assert (Hof : of_hdr E (hdr_at c p idb szb n) = Master i1 0 []).
  { unfold of_hdr, hdr_at. cbn [h_kind kind_class h_fin h_dsize h_szlen h_epos h_spos h_end]. rewrite Hcl. reflexivity. }
  rewrite Hof in *. cbn [einfo] in Hpd. rewrite read_master_eq. cbv zeta. change (with_set i1 false) with i1. change (e_dsize i1) with n. change (e_fin i1) with true.
  replace (n <=? 0) with false by (unfold n; lia). cbn [andb]. rewrite Hpd, (i_seek_at _ _ _ _ _ Hv) by (unfold q; lia).
  replace (q =? INVALID_FILEPOS) with false by (unfold INVALID_FILEPOS, q; lia). change (e_kind i1) with (Known c). cbv iota beta. change (e_end i1) with (q + n).
  assert (Hrq : in_reach s q) by (intros Hm; specialize (Hr Hm); unfold q; lia).
  assert (Hcklen : zlen ([191; 132] ++ rev (be_bytes 4 stored)) = 6) by (rewrite <- crc_render_be by assumption; rewrite zlen_app; destruct (crc_render_read _ Hst) as (_ & -> & _); reflexivity).
  apply at_app in Hatd. destruct Hatd as [Hatc Hatb]. rewrite Hcklen in Hatb.
  assert (Hfc : find_on s q ((c, q + n) :: (c0, e0) :: up) = Ok (FElt (hdr_at cc q [191] [132] 4) 0 (q + 1 + 1))).
  { apply (find_child s L q c (q + n) ((c0, e0) :: up) cc [191] [132] 4); auto; change (zlen [191]) with 1; change (zlen [132]) with 1; try (unfold q, n; lia).
    - change ([191; 132] ++ rev (be_bytes 4 stored)) with (([191] ++ [132]) ++ rev (be_bytes 4 stored)) in Hatc. apply at_app in Hatc. apply Hatc.
    - rewrite Hcc1. split; [apply bytes_ok_forallb; reflexivity|]. split; [|reflexivity]. split; vm_compute; split; congruence.
    - split; [apply bytes_ok_forallb; reflexivity|]. split; [vm_compute; split; discriminate|]. split; [vm_compute; split; congruence|reflexivity].
    - vm_compute. discriminate.
    - rewrite Hcc2. reflexivity. }
  rewrite Hfc. cbn [bind]. rewrite loop_step.
  change (e_fin i1) with true. change (e_end i1) with (q + n). replace (q + n <? h_end (hdr_at cc q [191] [132] 4)) with false by (cbn [h_end hdr_at]; change (zlen [191]) with 1; change (zlen [132]) with 1; unfold n; lia).
  cbn [andb]. rewrite (read_crc_back cc fuel (Nat.pred depth) s L _ _ _ q stored) by (auto; unfold q; lia). cbn [bind]. cbn [Z.eqb ERR_NONE negb].
  set (ic := mkInfo (Known cc) _ _ _ _ _ _ _ _ _). cbn [einfo crc_field crc_first]. change (eid_of E ic) with (c_id (E cc)). rewrite Hcc1.
  replace (Nat.eqb depth 0) with false by (symmetry; apply Nat.eqb_neq; lia). cbn [negb andb Z.eqb Pos.eqb].
  destruct (meet_back s L i1 ic stored body (q + 6) (q + n)) as (cov & rs & M1 & (L' & M2 & M2') & M3 & M4); auto; try (unfold q, n in *; lia).
  { intros Hm. specialize (Hrq Hm). lia. }
  { cbn [e_end ic]. lia. }
  exists cov, rs. split; [exists L'; split; assumption|]. split; [exact M3|]. split; [exact M4|].
  rewrite M1. cbn [bind]. cbv zeta. cbv iota.
  rewrite (skip_fin _ _ _ _ _ M2) by (try reflexivity; cbn [e_end ic]; unfold q, n in *; lia). cbn [bind]. change (e_end ic) with (q + 1 + 1 + 4).
  replace (q + 1 + 1 + 4) with (q + 6) by lia. replace (q + n - (q + 6) <=? 0) with (zlen body =? 0) by (unfold n; lia).
  destruct (zlen body =? 0) eqn:Elast; [|reflexivity]. cbn [used rev]. do 2 f_equal. rewrite andb_true_r. destruct (negb (in_mem s)); unfold n; lia.
Qed.

Lemma read_back e : back e.
Proof.
  revert e. apply (elt_ind2 back).
  - intros i v fuel depth s L c0 e0 up p bs Hv Hr Hat HL Henc Hrd Hn He Hres.
    inversion Henc as [i1 v1 idb szb data Hid Hcod Hp E1 E2|]; subst i1 v1 bs.
    destruct Hrd as (Hfin & Hval & Hpl & N1 & N2 & N3). cbn [einfo] in *. pose proof Hres as (c & Hkc & _).
    assert (Hid' : id_encodes idb (c_id (E c))) by (unfold eid_of in Hid; rewrite Hkc in Hid; exact Hid).
    destruct (read_leaf_back i v c idb szb data fuel depth s L ((c0, e0) :: up) p) as (e' & R1 & R2 & R3 & R4 & R5); auto.
    pose proof (zlen_nonneg data). rewrite !zlen_app in *.
    exists (hdr_at c p idb szb (zlen data)), (p + zlen idb + zlen szb), e'.
    pose proof Hcod as Hcod'. unfold coded in Hcod'. rewrite Hfin in Hcod'. destruct Hcod' as [Hvs Hnr]. specialize (Hnr eq_refl).
    split.
    { apply find_child with (L := L); auto; try lia.
      - rewrite app_assoc in Hat. apply at_app in Hat. apply Hat.
      - rewrite <- Hkc. exact Hres.
      - pose proof (payload_legal _ _ _ Hp) as Hl. rewrite Hkc in Hl. exact Hl. }
    split; [cbn [h_end hdr_at]; lia|]. split; [exact R1|]. split; [exact R2|]. split; [exact R3|]. split; [exact R4|]. rewrite R5. split; [symmetry; exact Hkc|].
    unfold eid_of in *. rewrite R5. rewrite Hkc in N3. exact N3.
  - intros i chk ch IH fuel depth s L c0 e0 up p bs Hv Hr Hat HL Henc Hrd Hn He Hres.
    pose proof (readable_master _ _ _ _ Hrd) as (Hfin & c & Hkc & Hcl & Hid191 & Hck & Hkids).
    inversion Henc as [|i1 chk1 ch1 idb szb body Hid Hcod Hbody E1 E2]; subst i1 chk1 ch1 bs. cbn [einfo] in *.
    assert (Hid' : id_encodes idb (c_id (E c))) by (unfold eid_of in Hid; rewrite Hkc in Hid; exact Hid).
    pose proof (checksum_len chk body) as Hcklen. set (ck := checksum chk body) in *. set (n := zlen (ck ++ body)) in *.
    assert (Hnz : n = zlen ck + zlen body) by apply zlen_app.
    pose proof (zlen_nonneg ck) as Z1. pose proof (zlen_nonneg body) as Z2. pose proof (zlen_nonneg idb) as Z3. pose proof (zlen_nonneg szb) as Z4.
    pose proof Hcod as Hcod'. unfold coded in Hcod'. rewrite Hfin in Hcod'. destruct Hcod' as [Hvs Hnr]. specialize (Hnr eq_refl).
    assert (HLf : 0 <= L <= zlen f) by apply Hv.
    assert (Hlen : zlen (idb ++ szb ++ ck ++ body) = zlen idb + zlen szb + n) by (rewrite !zlen_app; lia).
    assert (Hslice : slice f p (p + zlen idb + zlen szb + n - p) = idb ++ szb ++ ck ++ body).
    { destruct Hat as (_ & _ & Hat). rewrite Hlen in Hat. replace (p + zlen idb + zlen szb + n - p) with (zlen idb + zlen szb + n) by lia. exact Hat. }
    rewrite Hlen in *. pose proof Hat as Hat1. rewrite app_assoc in Hat1. apply at_app in Hat1. destruct Hat1 as [Hath Hatd].
    assert (Hp0 : 0 <= p) by apply Hath. rewrite zlen_app in Hatd. set (q := p + zlen idb + zlen szb). replace (p + (zlen idb + zlen szb)) with q in Hatd by (unfold q; lia).
    pose proof (pos_data_hdr c p idb szb n Hvs Hnr ltac:(lia)) as Hpd. fold q in Hpd.
    assert (Hof : of_hdr E (hdr_at c p idb szb n) = Master (mkInfo (Known c) false true true n (-1) (zlen szb) p (p + zlen idb) (q + n)) 0 []).
    { unfold of_hdr, hdr_at. cbn [h_kind kind_class h_fin h_dsize h_szlen h_epos h_spos h_end]. rewrite Hcl. reflexivity. }
    rewrite Hof in Hpd. cbn [einfo] in Hpd. set (i0 := mkInfo _ _ _ _ _ _ _ _ _ _) in *.
    assert (Hgoal : exists chk' ch', read_data fuel depth s ((c0, e0) :: up) (Master i0 0 []) q = Ok (ERR_NONE, Master (with_set i0 true) chk' ch', q + n) /\
      (if chk =? 0 then chk' = 0 else chk' = 2 \/ (chk' = 0 /\ ch' = [])) /\ sames ch ch').
    2:{ destruct Hgoal as (chk' & ch' & G1 & G2 & G3). exists (hdr_at c p idb szb n), q, (Master (with_set i0 true) chk' ch').
        replace (p + (zlen idb + zlen szb + n)) with (q + n) by (unfold q; lia).
        split. { unfold q. apply find_child with (L := L); auto; try lia; [rewrite <- Hkc; exact Hres|rewrite Hcl; exact I]. }
        split; [cbn [h_end hdr_at]; unfold q; lia|]. rewrite Hof. split; [exact G1|]. split; [|repeat split; [symmetry; exact Hkc|]].
        - constructor; [symmetry; exact Hkc|reflexivity|exact G2|exact G3|]. cbn [with_set e_epos e_end i0]. unfold q. rewrite Hslice. exact Henc.
        - change (c_id (E c) <> 191). unfold eid_of in Hid191. rewrite Hkc in Hid191. exact Hid191. }
    rewrite need_master in Hn. destruct fuel as [|fuel]; [lia|].
    apply at_app in Hatd. destruct Hatd as [Hatc Hatb]. rewrite Hcklen in Hatb.
    assert (Hrq : in_reach s q) by (intros Hm; specialize (Hr Hm); unfold q; lia).
    destruct (chk =? 0) eqn:Ek.
    + rewrite read_master_eq. cbv zeta. change (e_dsize (with_set i0 false)) with n. change (e_fin (with_set i0 false)) with true. rewrite andb_true_r.
      destruct (n <=? 0) eqn:En.
      { assert (body = []) as -> by (apply zlen_zero; lia).
        exists 0, []. split; [unfold q; replace n with 0 by lia; rewrite Z.add_0_r; reflexivity|]. split; [reflexivity|]. apply encs_empty. exact Hbody. }
      change (position_data (with_set i0 false)) with (position_data i0). rewrite Hpd, (i_seek_at _ _ _ _ _ Hv) by (unfold q; lia).
      replace (q =? INVALID_FILEPOS) with false by (unfold INVALID_FILEPOS, q; lia). change (e_kind (with_set i0 false)) with (Known c). cbv iota beta.
      change (e_end (with_set i0 false)) with (q + n).
      set (i1 := with_set i0 false).
      assert (Hbne : body <> []) by (intros ->; change (zlen (@nil Z)) with 0 in *; lia).
      rewrite Z.add_0_r in Hatb.
      destruct (loop_back c ((c0, e0) :: up) ch body Hbody IH fuel depth s i1 0 s CrcNone [] q L q) as (r & l' & G1 & G2 & G3); auto; try (change (e_end i1) with (q + n); unfold q; lia); [..|idtac].
      change (e_end i1) with (q + n) in *. rewrite G1. cbn [bind]. rewrite G3. exists 0, l'. cbn [rev app used]. rewrite andb_false_r. auto.
    + destruct Hck as [?|(Hdep & cc & Hcc1 & Hcc2 & Hcc3)]; [lia|].
      assert (Hckeq : ck = [191; 132] ++ rev (be_bytes 4 (crc32_ieee body))) by (unfold ck, checksum; rewrite Ek; reflexivity).
      assert (Hn6 : n = 6 + zlen body) by lia. destruct fuel as [|fuel]; [lia|].
      assert (Hbok : bytes_ok body) by (eapply at_bytes; eassumption).
      destruct (crc_step c cc idb szb (crc32_ieee body) body fuel depth s L c0 e0 up p) as (cov & rs & (L' & M2 & M2') & M3 & M4 & M5); rewrite <- ?Hn6, <- ?Hckeq; auto; try lia; try apply crc32_ieee_u32.
      cbv zeta in M2', M5. rewrite <- Hn6 in M2', M5. fold q in M2', M3, M5. rewrite Hof in M5. fold i0 in M5. change (mkInfo (Known c) false true true n (-1) (zlen szb) p (p + zlen idb) (q + n)) with i0 in M5. rewrite M5.
      assert (Hstat : crc_status true (CrcOn (crc32_ieee body) cov) 0 = 2 \/ (crc_status true (CrcOn (crc32_ieee body) cov) 0 = 0 /\ body = [])).
      { unfold crc_status. destruct M4 as [->|[-> ->]]; [|right; auto]. left. cbn [negb].
        replace (crc_matches false (crc32_ieee body) body) with true by (symmetry; apply crc_matches_iff; auto). reflexivity. }
      destruct (zlen body =? 0) eqn:Elast.
      * assert (body = []) as -> by (apply zlen_zero; lia). exists (crc_status true (CrcOn (crc32_ieee []) cov) 0), []. split; [reflexivity|].
        split; [destruct Hstat as [->|[-> _]]; auto|]. apply encs_empty. exact Hbody.
      * assert (Hbne : body <> []) by (intros ->; discriminate Elast).
        destruct (loop_back c ((c0, e0) :: up) ch body Hbody IH fuel depth s i0 0 rs (CrcOn (crc32_ieee body) cov) [] (q + n) L' (q + 6)) as (r & l' & G1 & G2 & G3); auto; try (change (e_end i0) with (q + n); unfold q in *; lia).
        change (e_end i0) with (q + n) in *. rewrite G1. cbn [bind]. rewrite G3. cbn [rev app used]. rewrite andb_true_r.
        exists (crc_status true (CrcOn (crc32_ieee body) cov) 0), l'. split; [destruct (negb (in_mem s)); reflexivity|]. split; [|exact G2].
        destruct Hstat as [->|[_ ?]]; [auto|contradiction].
Qed.

(** ** The checksum of arbitrary bytes *)
Lemma loop_eq fuel depth inp chain i chk rs cs acc r ipos :
  read_loop (S fuel) depth inp chain i chk rs cs acc r ipos =
  match r with
  | FBad => Bad
  | FNull u p => if 0 <? u then Null else Ok (ERR_NONE, Master (with_set i true) (crc_status true cs chk) (rev acc), if negb (in_mem inp) && used cs then ipos else p)
  | FElt h u p =>
      if 0 <? u then Ok (ERR_NONE, Master (with_set i true) (crc_status true cs chk) (rev acc), snd (i_seek inp (h_epos h) (if negb (in_mem inp) && used cs then ipos else p)))
      else if e_fin i && (e_end i <? h_end h) then Ok (ERR_NONE, Master (with_set i true) (crc_status true cs chk) (rev acc), if negb (in_mem inp) && used cs then ipos else p)
      else
        do t <- read_data fuel (Nat.pred depth) rs chain (of_hdr E h) p;
        let '(err, e, p) := t in
        if negb (err =? ERR_NONE) then do r <- find_on rs p chain; read_loop fuel depth inp chain i chk rs cs acc r ipos
        else
          do m <- (if crc_first cs && negb (Nat.eqb depth 0) && negb false && (eid_of E (einfo e) =? 191)
                   then meet_crc E inp i (einfo e) (crc_field junkcrc e) p else Ok (cs, rs, ipos, p));
          let '(cs', rs', ipos', p) := m in
          let kept := match cs, cs' with CrcNone, CrcOn _ _ => false | _, _ => true end in
          let acc := if kept then e :: acc else acc in
          do p <- skip_data E junk allow rs' chain (einfo e) p;
          if e_fin i && (e_end i - e_end (einfo e) <=? 0)
          then Ok (ERR_NONE, Master (with_set i true) (crc_status true cs' chk) (rev acc), if negb (in_mem inp) && used cs' then ipos' else p)
          else do r <- find_on rs' p chain; read_loop fuel depth inp chain i chk rs' cs' acc r ipos'
  end.
Proof. reflexivity. Qed.
Lemma loop_eq0 depth inp chain i chk rs cs acc r ipos :
  read_loop O depth inp chain i chk rs cs acc r ipos =
  match r with
  | FBad => Bad
  | FNull u p => if 0 <? u then Null else Ok (ERR_NONE, Master (with_set i true) (crc_status true cs chk) (rev acc), if negb (in_mem inp) && used cs then ipos else p)
  | FElt h u p =>
      if 0 <? u then Ok (ERR_NONE, Master (with_set i true) (crc_status true cs chk) (rev acc), snd (i_seek inp (h_epos h) (if negb (in_mem inp) && used cs then ipos else p)))
      else if e_fin i && (e_end i <? h_end h) then Ok (ERR_NONE, Master (with_set i true) (crc_status true cs chk) (rev acc), if negb (in_mem inp) && used cs then ipos else p)
      else Fuel
  end.
Proof. reflexivity. Qed.

Lemma ok_inj {A} (x y : A) : Ok x = Ok y -> x = y.
Proof. intros [= H]. exact H. Qed.

(** Once a checksum element was met, its verdict is what the master reports. *)
Lemma loop_status st cov : forall fuel depth inp chain i chk rs acc r ipos err e p,
  read_loop fuel depth inp chain i chk rs (CrcOn st cov) acc r ipos = Ok (err, e, p) ->
  err = ERR_NONE /\ exists i' ch, e = Master i' (crc_status true (CrcOn st cov) chk) ch.
Proof.
  assert (Hfin : forall i chk l (q : Z) err e p, Ok (ERR_NONE, Master i (crc_status true (CrcOn st cov) chk) l, q) = Ok (err, e, p) -> err = ERR_NONE /\ exists i' ch, e = Master i' (crc_status true (CrcOn st cov) chk) ch).
  { intros i chk l q err e p H. injection H as <- <- _. split; [reflexivity|]. eauto. }
  induction fuel as [|fuel IH]; intros depth inp chain i chk rs acc r ipos err e p.
  - rewrite loop_eq0. destruct r as [u q|h u q|]; [|..|discriminate]; swap 1 2.
    + destruct (0 <? u); [intros H; eapply Hfin; eauto|]. destruct (_ && _); [intros H; eapply Hfin; eauto|discriminate].
    + destruct (0 <? u); [discriminate|intros H; eapply Hfin; eauto].
  - rewrite loop_eq. destruct r as [u q|h u q|]; [|..|discriminate]; swap 1 2.
    + destruct (0 <? u); [intros H; eapply Hfin; eauto|]. destruct (e_fin i && (e_end i <? h_end h)); [intros H; eapply Hfin; eauto|].
      destruct (read_data fuel (Nat.pred depth) rs chain (of_hdr E h) q) as [| | |[[er e'] p']]; cbn [bind]; [discriminate..|]. destruct (negb (er =? ERR_NONE)).
      * destruct (find_on rs p' chain) as [| | |r']; cbn [bind]; [discriminate..|]. apply IH.
      * cbn [crc_first andb bind]. cbv zeta. cbv iota. destruct (skip_data E junk allow rs chain (einfo e') p') as [| | |p'']; cbn [bind]; [discriminate..|].
        destruct (e_fin i && (e_end i - e_end (einfo e') <=? 0)); [intros H; eapply Hfin; eauto|].
        destruct (find_on rs p'' chain) as [| | |r']; cbn [bind]; [discriminate..|]. apply IH.
    + destruct (0 <? u); [discriminate|intros H; eapply Hfin; eauto].
Qed.

(** A master of known size starting with a checksum element, followed by any bytes: if reading it ends
    normally, the status tells whether the stored value is the checksum of the bytes that follow. *)
Lemma read_status c cc idb szb stored body fuel depth s L c0 e0 up p err e p' : c_class (E c) = KMaster ->
  c_id (E cc) = 191 -> c_class (E cc) = KCrc -> resolves E c (Known cc) -> (0 < depth)%nat -> is_u32 stored ->
  vint_spec szb (6 + zlen body) -> 6 + zlen body <> vint_reserved (zlen szb) ->
  view s f L -> in_reach s p -> at_pos f p (idb ++ szb ++ ([191; 132] ++ rev (be_bytes 4 stored)) ++ body) ->
  p + zlen idb + zlen szb + (6 + zlen body) <= L -> body <> [] -> (2 <= fuel)%nat ->
  read_data fuel depth s ((c0, e0) :: up) (of_hdr E (hdr_at c p idb szb (6 + zlen body))) (p + zlen idb + zlen szb) = Ok (err, e, p') ->
  err = ERR_NONE /\ exists i ch, e = Master i (if stored =? crc32_ieee body then 2 else 1) ch.
Proof.
  intros Hcl H1 H2 H3 Hd Hst Hvs Hnr Hv Hr Hat HL Hbne Hfu Hread.
  assert (Hbok : bytes_ok body).
  { pose proof Hat as Ha. rewrite !app_assoc in Ha. apply at_app in Ha. eapply at_bytes; [exact Hf|apply Ha]. }
  assert (Hz : 0 < zlen body) by (destruct body; [contradiction|]; rewrite zlen_cons; pose proof (zlen_nonneg body); lia).
  assert (Hms : crc_status true (CrcOn stored (Some body)) 0 = if stored =? crc32_ieee body then 2 else 1).
  { unfold crc_status. cbn [negb]. destruct (stored =? crc32_ieee body) eqn:Es.
    - apply Z.eqb_eq in Es. replace (crc_matches false stored body) with true by (symmetry; apply crc_matches_iff; auto). reflexivity.
    - destruct (crc_matches false stored body) eqn:Em; [|reflexivity]. apply crc_matches_iff in Em; [lia|assumption]. }
  destruct fuel as [|[|fuel]]; [lia..|].
  destruct (crc_step c cc idb szb stored body fuel depth s L c0 e0 up p Hcl H1 H2 H3 Hd Hst Hvs Hnr Hv Hr Hat HL) as (cov & rs & _ & _ & Hcov & Heq).
    cbv zeta in Heq. rewrite Hread in Heq. replace (zlen body =? 0) with false in Heq by lia. destruct Hcov as [->|[_ ?]]; [|contradiction].
    destruct (find_on rs _ _) as [| | |r]; cbn [bind] in Heq; [discriminate..|]. symmetry in Heq. apply loop_status in Heq. destruct Heq as (-> & i' & ch & ->).
    rewrite Hms. eauto.
Qed.
End Rd.
