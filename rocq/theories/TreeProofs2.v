(** Rendering an element tree. *)
From Verif Require Import Base BaseProofs VintSpec EbmlIdSpec CrcSpec IntEltSpec Vint VintProofs EbmlId EbmlIdProofs IntElt IntEltProofs
  Crc CrcProofs EltHead Void VoidProofs Ebml Arr ArrProofs ArrProofs2 Stream StreamProofs FinderSpec Tree TreeSpec TreeProofs.

Lemma cstr_split b s : cstr b = Some s -> exists r, b = s ++ 0 :: r /\ ~ In 0 s.
Proof.
  revert s. induction b as [|c b IH]; intros s; cbn [cstr]; [discriminate|]. destruct (c =? 0) eqn:Ec.
  - intros H. apply some_inj in H. subst s. exists b. split; [|intros []]. cbn. f_equal. lia.
  - destruct (cstr b) as [t|]; [|discriminate]. intros H. apply some_inj in H. subst s.
    destruct (IH t eq_refl) as (r & -> & Hn). exists r. split; [reflexivity|]. intros [->|Hi]; [lia|auto].
Qed.

(** ** Streams *)
Definition o_put (o : ost) (bs : list Z) : ost :=
  match o with
  | OMem m => OMem (mkMem (patch (mptr m) (mpos m) bs) (mpos m + zlen bs) (mvoff m))
  | OFile d p => OFile (patch d p bs) (p + zlen bs)
  end.
(** [n] bytes can be written at the current position. *)
Definition room (o : ost) (n : Z) : Prop :=
  match o with
  | OMem m => 0 <= mpos m /\ mpos m + n <= zlen (mptr m) /\ 0 <= mvoff m /\ mvoff m + zlen (mptr m) < 2 ^ 62
  | OFile d p => 0 <= p <= zlen d /\ p + n < 2 ^ 62
  end.

Lemma patch_patch d p a b : 0 <= p <= zlen d -> patch (patch d p a) (p + zlen a) b = patch d p (a ++ b).
Proof.
  intros H. pose proof (zlen_nonneg a). pose proof (zlen_nonneg b). unfold patch. rewrite <- !app_assoc.
  assert (Hf : length (firstn (Z.to_nat p) d) = Z.to_nat p) by (rewrite firstn_length; unfold zlen in H; lia).
  assert (Ha : length a = Z.to_nat (zlen a)) by (unfold zlen; lia).
  rewrite (app_assoc (firstn _ d)). rewrite firstn_app.
  rewrite (firstn_all2 (firstn (Z.to_nat p) d ++ a)) by (rewrite app_length; lia).
  replace (Z.to_nat (p + zlen a) - length (firstn (Z.to_nat p) d ++ a))%nat with O by (rewrite app_length; lia).
  cbn [firstn]. rewrite app_nil_r. rewrite <- app_assoc. do 2 f_equal. f_equal.
  rewrite skipn_app. rewrite (skipn_all2 (firstn (Z.to_nat p) d ++ a)) by (rewrite app_length; lia). cbn [app].
  rewrite app_length. rewrite Hf, Ha.
  replace (Z.to_nat (p + zlen a + zlen b) - (Z.to_nat p + Z.to_nat (zlen a)))%nat with (Z.to_nat (zlen b)) by lia.
  rewrite skipn_skipn_z by lia. rewrite zlen_app. rewrite Z.add_assoc. reflexivity.
Qed.
Lemma zlen_patch d p bs : 0 <= p <= zlen d -> zlen (patch d p bs) = Z.max (zlen d) (p + zlen bs).
Proof.
  intros H. pose proof (zlen_nonneg bs). unfold patch. rewrite !zlen_app, zlen_firstn, zlen_skipn by lia. lia.
Qed.
Lemma patch_nil d p : 0 <= p -> patch d p [] = d.
Proof. intros H. unfold patch. change (zlen (@nil Z)) with 0. rewrite Z.add_0_r. cbn [app]. apply firstn_skipn. Qed.
Lemma patch_full d bs : zlen bs = zlen d -> patch d 0 bs = bs.
Proof. intros H. unfold patch. cbn [Z.to_nat firstn app]. rewrite skipn_all2 by (unfold zlen in *; lia). apply app_nil_r. Qed.

Lemma patch_split (d : list Z) p n : 0 <= p -> 0 <= n -> p + n <= zlen d -> exists a b c, d = a ++ b ++ c /\ zlen a = p /\ zlen b = n.
Proof.
  intros H1 H2 H3. exists (firstn (Z.to_nat p) d), (firstn (Z.to_nat n) (skipn (Z.to_nat p) d)), (skipn (Z.to_nat n) (skipn (Z.to_nat p) d)).
  rewrite firstn_skipn, firstn_skipn. rewrite !zlen_firstn, zlen_skipn by lia. split; [reflexivity|lia].
Qed.
Lemma patch_before d q a b : 0 <= q -> q + zlen a + zlen b <= zlen d -> patch (patch d (q + zlen a) b) q a = patch d q (a ++ b).
Proof.
  intros H1 H2. pose proof (zlen_nonneg a). pose proof (zlen_nonneg b).
  destruct (patch_split d q (zlen a + zlen b)) as (x & y & z & -> & Hx & Hy); try lia.
  destruct (patch_split y 0 (zlen a)) as (e & ya & yb & -> & He & Hya); try lia.
  apply zlen_zero in He. subst e. cbn [app] in *. rewrite zlen_app in Hy. subst q.
  rewrite <- app_assoc.
  replace (patch (x ++ ya ++ yb ++ z) (zlen x + zlen a) b) with (x ++ ya ++ b ++ z).
  2:{ rewrite (app_assoc x ya (yb ++ z)). rewrite <- Hya. rewrite <- (zlen_app x ya). rewrite patch_app by lia. rewrite <- app_assoc. reflexivity. }
  rewrite (patch_app x ya (b ++ z) a) by lia.
  rewrite (app_assoc ya yb z). rewrite patch_app by (rewrite !zlen_app; lia). rewrite <- app_assoc. reflexivity.
Qed.

Lemma u64_id x : 0 <= x < 2 ^ 64 -> u64 x = x.
Proof. intros. unfold u64. apply Z.mod_small. assumption. Qed.

Lemma o_write_ok o bs : room o (zlen bs) -> o_write o bs = Ok (ERR_NONE, zlen bs, o_put o bs).
Proof.
  pose proof (zlen_nonneg bs). destruct o as [m|d p]; cbn [room o_write o_put]; intros Hr.
  - unfold mem_write. cbn [negb]. rewrite u64_id by lia. replace (zlen (mptr m) <? zlen bs + mpos m) with false by lia.
    rewrite mem_put_eq by lia. reflexivity.
  - replace (Z.to_nat (p - zlen d)) with O by lia. cbn [repeat]. rewrite app_nil_r. reflexivity.
Qed.
Lemma room_put o n bs : room o n -> zlen bs <= n -> room (o_put o bs) (n - zlen bs).
Proof.
  pose proof (zlen_nonneg bs). destruct o as [m|d p]; cbn [room o_put mptr mpos mvoff]; intros Hr Hn.
  - rewrite zlen_patch by lia. lia.
  - rewrite zlen_patch by lia. lia.
Qed.
Lemma room_le o n k : room o n -> k <= n -> room o k.
Proof. destruct o as [m|d p]; cbn [room]; lia. Qed.
Lemma room_put' o n k bs : room o n -> 0 <= k -> zlen bs + k <= n -> room (o_put o bs) k.
Proof. intros H1 H0 H2. pose proof (zlen_nonneg bs). destruct o as [m|d p]; cbn [room o_put mptr mpos mvoff] in *; rewrite zlen_patch by lia; lia. Qed.
Lemma o_put_app o a b n : room o n -> zlen a + zlen b <= n -> o_put (o_put o a) b = o_put o (a ++ b).
Proof.
  intros Hr Hn. pose proof (zlen_nonneg a). pose proof (zlen_nonneg b). destruct o as [m|d p]; cbn [room o_put mptr mpos mvoff] in *;
    rewrite patch_patch by lia; rewrite zlen_app, Z.add_assoc; reflexivity.
Qed.
Lemma o_put_nil o : room o 0 -> o_put o [] = o.
Proof.
  destruct o as [m|d p]; cbn [room o_put]; intros H; rewrite patch_nil by lia; change (zlen (@nil Z)) with 0; rewrite Z.add_0_r; [destruct m|]; reflexivity.
Qed.
Lemma o_tell_put o bs : o_tell (o_put o bs) = o_tell o + zlen bs.
Proof. destruct o as [m|d p]; cbn [o_put o_tell mpos mvoff]; lia. Qed.
Lemma o_is_mem_put o bs : o_is_mem (o_put o bs) = o_is_mem o.
Proof. destruct o; reflexivity. Qed.
Lemma room_tell o n : room o n -> 0 <= n -> 0 <= o_tell o /\ o_tell o + n < 2 ^ 62.
Proof. destruct o as [m|d p]; cbn [room o_tell]; lia. Qed.

Lemma crc_of_ieee bs : bytes_ok bs -> crc_of true bs = crc32_ieee bs.
Proof. intros H. unfold crc_of, crc_finalize, crc32_ieee. cbn [negb]. rewrite crc_run_spec by assumption. reflexivity. Qed.
Lemma crc_render_be c : is_u32 c -> crc_render c = rev (be_bytes 4 c).
Proof.
  intros H. unfold crc_render, u8. rewrite !Z.shiftr_div_pow2 by lia. cbn [be_bytes app rev].
  rewrite !Z.div_div by lia. reflexivity.
Qed.

Section R.
Context (E : schema) (narrow : Z -> Z) (flt_is : Z -> Z -> bool) (wd : bool).
Notation omitted := (omitted E flt_is wd).
Notation psize := (psize E flt_is wd).
Notation fsize := (fsize E flt_is wd).
Notation writable := (writable E narrow flt_is wd).
Notation leaf_psize := (leaf_psize E).
Notation sized := (sized E flt_is wd).

Definition sinfo (i : info) (n : Z) : info := with_need (with_dsize i n) false.

Lemma head_ok_bytes i n : head_ok E i n -> exists idb szb, render_head (eid_of E i) n (e_szlen i) (e_fin i) = Some (idb ++ szb) /\
  id_encodes idb (eid_of E i) /\ coded i szb n /\ zlen idb = get_id_length (eid_of E i) /\ zlen szb = coded_size_length n (e_szlen i) (e_fin i).
Proof.
  intros ((k & Hk) & Hs & Hn). unfold coded. destruct (e_fin i).
  - destruct (render_head_ok _ _ n _ Hk Hn Hs) as (idb & sz & H1 & H2 & H3 & H4 & H5 & H6 & _). exists idb, sz.
    rewrite (get_id_length_ok _ _ Hk). repeat (split; [auto|]). assumption.
  - destruct (render_head_unknown _ _ n _ Hk Hs) as (idb & sz & H1 & H2 & H3 & H4 & H5). exists idb, sz.
    rewrite (get_id_length_ok _ _ Hk), coded_size_length_unknown by assumption. split; [assumption|]. split; [assumption|]. split; [split; [assumption|discriminate]|]. auto.
Qed.

Lemma leaf_bytes_ok i v : writable (Leaf i v) -> omitted (Leaf i v) = false ->
  exists b, leaf_bytes E narrow true (sinfo i (leaf_psize i v)) v = Ok (Some b) /\ zlen b = leaf_psize i v /\ payload E narrow i v b.
Proof.
  intros (Hd & Hv & H) Ho. destruct (H Ho) as (Hs & Hf & Hdz & (_ & Hsz & Hp) & _). cbn [TreeSpec.psize] in Hp. clear H Ho Hd.
  unfold leaf_bytes, payload, sinfo. cbn [e_kind e_szlen e_dsize e_defsz with_need with_dsize]. unfold val_ok, defsz_ok in *. unfold TreeSpec.leaf_psize in *.
  destruct (kind_class E (e_kind i)) eqn:Ek; destruct v as [x|x|[b|]|d|x|]; try contradiction.
  - destruct (uint_roundtrip x (e_defsz i) Hv Hdz) as (bs & H1 & H2 & H3 & H4 & _). destruct (uint_minimal x (e_defsz i) Hdz) as (k & (Hk & _) & Hk2).
    replace ((8 <? e_szlen i) || (update_size_uint x (e_defsz i) =? 0)) with false by lia. rewrite H1. cbn [opt_res bind]. exists bs.
    split; [reflexivity|]. split; [exact H3|]. split; [exact H2|]. split; [lia|exact H4].
  - destruct (sint_render x (e_defsz i) Hv Hdz) as (bs & H1 & H2 & H3 & H4 & H5).
    replace ((8 <? e_szlen i) || (update_size_sint x (e_defsz i) =? 0)) with false by lia. rewrite H1. cbn [opt_res bind]. exists bs.
    split; [reflexivity|]. split; [exact H3|]. split; [exact H2|]. split; [lia|exact H5].
  - destruct Hdz as [[Hm Hx]|[Hm Hx]]; rewrite Hm.
    + destruct (float_roundtrip true 8 x) as (H1 & H2 & H3 & _); [lia|assumption|]. cbn [Z.eqb Pos.eqb]. eexists. split; [reflexivity|]. split; [exact H2|]. split; [exact H1|]. split; [lia|]. left. auto.
    + destruct (float_roundtrip true 4 (narrow x)) as (H1 & H2 & H3 & _); [lia|assumption|]. cbn [Z.eqb Pos.eqb]. eexists. split; [reflexivity|]. split; [exact H2|]. split; [exact H1|]. split; [lia|]. right. auto.
  - destruct (Hv Hs) as (b' & s & Hb & Hc & Hok). injection Hb as <-. rewrite Hc in *. destruct (cstr_split _ _ Hc) as (r & -> & Hn0).
    exists s. split; [|split; [reflexivity|split; [exact Hok|exists r; auto]]].
    replace (Z.to_nat (e_defsz i - zlen s)) with O by lia. cbn [repeat].
    destruct (zlen s =? 0) eqn:E0; [assert (s = []) by (apply zlen_zero; lia); subst s; reflexivity|].
    rewrite mem_get_eq; [|lia|lia|rewrite zlen_app; pose proof (zlen_nonneg (0 :: r)); lia]. cbn [opt_res bind Z.to_nat skipn].
    rewrite app_nil_r. unfold zlen. rewrite Nat2Z.id, firstn_app, firstn_all, Nat.sub_diag. cbn [firstn]. rewrite app_nil_r. reflexivity.
  - destruct (Hv Hs) as (b' & s & Hb & Hc & _). discriminate.
  - destruct (Hv Hs) as (b' & s & Hb & Hc & Hok). injection Hb as <-. rewrite Hc in *. destruct (cstr_split _ _ Hc) as (r & -> & Hn0).
    exists s. split; [|split; [reflexivity|split; [exact Hok|exists r; auto]]].
    replace (Z.to_nat (e_defsz i - zlen s)) with O by lia. cbn [repeat].
    destruct (zlen s =? 0) eqn:E0; [assert (s = []) by (apply zlen_zero; lia); subst s; reflexivity|].
    rewrite mem_get_eq; [|lia|lia|rewrite zlen_app; pose proof (zlen_nonneg (0 :: r)); lia]. cbn [opt_res bind Z.to_nat skipn].
    rewrite app_nil_r. unfold zlen. rewrite Nat2Z.id, firstn_app, firstn_all, Nat.sub_diag. cbn [firstn]. rewrite app_nil_r. reflexivity.
  - destruct (Hv Hs) as (b' & s & Hb & Hc & _). discriminate.
  - exists d. auto.
  - destruct (sint_render x (e_defsz i) Hv ltac:(lia)) as (bs & H1 & H2 & H3 & H4 & H5). destruct (sint_minimal x (e_defsz i) Hv ltac:(lia)) as (k & (Hk & _) & Hk2).
    replace ((8 <? e_szlen i) || (update_size_sint x (e_defsz i) =? 0)) with false by lia. rewrite H1. cbn [opt_res bind]. exists bs.
    split; [reflexivity|]. split; [exact H3|]. split; [exact H2|]. split; [lia|exact H5].
  - rewrite void_render_data_ok by lia. cbn [opt_res bind]. eexists. split; [reflexivity|]. split; [apply VoidProofs.zlen_repeat; lia|].
    split; apply Forall_forall; intros z Hz; apply repeat_spec in Hz; subst z; [unfold is_byte; lia|reflexivity].
  - destruct (crc_render_read x Hv) as (H1 & H2 & _). eexists. split; [reflexivity|]. split; [lia|]. split; [exact H1|]. apply crc_render_be. exact Hv.
  - exists d. auto.
Qed.

(** ** The bytes rendered *)
Definition head (e : elt) : list Z :=
  match render_head (eid_of E (einfo e)) (psize e) (e_szlen (einfo e)) (e_fin (einfo e)) with Some h => h | None => [] end.
Definition leaf_out (i : info) (v : val) : list Z :=
  match leaf_bytes E narrow true (sinfo i (leaf_psize i v)) v with Ok (Some b) => b | _ => [] end.
Fixpoint out (e : elt) : list Z :=
  head e ++
  match e with
  | Leaf i v => leaf_out i v
  | Master i chk ch =>
      let body := (fix go (l : list elt) : list Z := match l with [] => [] | c :: l => (if omitted c then [] else out c) ++ go l end) ch in
      checksum chk body ++ body
  end.
Definition outs (l : list elt) : list Z := flat_map (fun c => if omitted c then [] else out c) l.
Lemma out_master i chk ch : out (Master i chk ch) = head (Master i chk ch) ++ checksum chk (outs ch) ++ outs ch.
Proof. reflexivity. Qed.

Lemma checksum_len chk body : zlen (checksum chk body) = if chk =? 0 then 0 else 6.
Proof.
  unfold checksum. destruct (chk =? 0); [reflexivity|]. rewrite zlen_app, <- crc_render_be by apply crc32_ieee_u32.
  destruct (crc_render_read (crc32_ieee body) (crc32_ieee_u32 _)) as (_ & -> & _). reflexivity.
Qed.
Lemma checksum_ok chk body : bytes_ok (checksum chk body).
Proof.
  unfold checksum. destruct (chk =? 0); [constructor|]. apply Forall_app. split; [apply bytes_ok_forallb; reflexivity|].
  apply Forall_rev. apply be_bytes_ok.
Qed.
Lemma head_len e : head_ok E (einfo e) (psize e) -> zlen (head e) = get_id_length (eid_of E (einfo e)) + coded_size_length (psize e) (e_szlen (einfo e)) (e_fin (einfo e)).
Proof.
  intros H. unfold head. destruct (head_ok_bytes _ _ H) as (idb & szb & -> & _ & _ & H1 & H2). rewrite zlen_app. lia.
Qed.
Lemma fsize_eq e : fsize e = get_id_length (eid_of E (einfo e)) + coded_size_length (psize e) (e_szlen (einfo e)) (e_fin (einfo e)) + psize e.
Proof. unfold TreeSpec.fsize, full_size. lia. Qed.

Lemma writable_head e : writable e -> omitted e = false -> head_ok E (einfo e) (psize e).
Proof. intros H Ho. apply (fsize_nonneg _ _ _ _ e H Ho). Qed.
Lemma omitted_master i chk ch : omitted (Master i chk ch) = false.
Proof. unfold TreeSpec.omitted. apply andb_false_r. Qed.

Lemma bytes_app a b : bytes_ok (a ++ b) <-> bytes_ok a /\ bytes_ok b.
Proof. apply Forall_app. Qed.
Lemma coded_ok i szb n : coded i szb n -> bytes_ok szb.
Proof. intros [H _]. apply H. Qed.

(** What is rendered is the encoding, of the announced length. *)
Lemma out_ok e : writable e -> omitted e = false -> zlen (out e) = fsize e /\ bytes_ok (out e) /\ enc E narrow flt_is wd e (out e).
Proof.
  revert e. apply (elt_ind2 (fun e => writable e -> omitted e = false -> zlen (out e) = fsize e /\ bytes_ok (out e) /\ enc E narrow flt_is wd e (out e))).
  - intros i v H Ho. pose proof (writable_head _ H Ho) as Hh. destruct (head_ok_bytes _ _ Hh) as (idb & szb & H1 & H2 & H3 & H4 & H5).
    destruct (leaf_bytes_ok i v H Ho) as (b & Hb1 & Hb2 & Hb3). cbn [out]. unfold leaf_out, head. rewrite Hb1, H1. cbn [einfo TreeSpec.psize] in *.
    split; [|split].
    + rewrite !zlen_app, fsize_eq. cbn [einfo TreeSpec.psize]. lia.
    + apply bytes_app. split; [|apply Hb3]. apply bytes_app. split; [apply H2|]. eapply coded_ok, H3.
    + rewrite <- app_assoc. constructor; [assumption| |assumption]. rewrite Hb2. exact H3.
  - intros i chk ch IH H Ho. pose proof (writable_head _ H Ho) as Hh. destruct (head_ok_bytes _ _ Hh) as (idb & szb & H1 & H2 & H3 & H4 & H5).
    apply writable_master in H. destruct H as (_ & _ & _ & _ & _ & Hch).
    assert (Hs : zlen (outs ch) = psum E flt_is wd ch /\ bytes_ok (outs ch) /\ encs E narrow flt_is wd ch (outs ch)).
    { clear -IH Hch. induction ch as [|c l IHl]; [split; [reflexivity|split; constructor]|].
      apply Forall_cons_iff in IH, Hch. destruct IH as [I1 I2], Hch as [C1 C2]. destruct (IHl I2 C2) as (L1 & L2 & L3).
      unfold outs. cbn [flat_map psum fold_right]. fold (outs l). fold (psum E flt_is wd l). destruct (omitted c) eqn:Ec; cbn [app].
      - split; [lia|]. split; [exact L2|]. apply encs_omit; assumption.
      - destruct (I1 C1 eq_refl) as (J1 & J2 & J3). split; [rewrite zlen_app; lia|]. split; [apply bytes_app; auto|]. apply encs_cons; assumption. }
    destruct Hs as (S1 & S2 & S3). rewrite out_master. unfold head. rewrite H1. cbn [einfo] in *.
    assert (Hz : zlen (checksum chk (outs ch) ++ outs ch) = psize (Master i chk ch)) by (rewrite zlen_app, checksum_len, psize_master; lia).
    split; [|split].
    + rewrite zlen_app, Hz, zlen_app, fsize_eq. cbn [einfo]. lia.
    + apply bytes_app. split; [apply bytes_app; split; [apply H2|eapply coded_ok, H3]|]. apply bytes_app. split; [apply checksum_ok|assumption].
    + rewrite <- app_assoc. constructor; [assumption| |assumption]. rewrite Hz. exact H3.
Qed.

Lemma outs_ok l : Forall writable l -> zlen (outs l) = psum E flt_is wd l /\ bytes_ok (outs l).
Proof.
  induction l as [|c l IHl]; intros H; [split; [reflexivity|constructor]|]. apply Forall_cons_iff in H. destruct H as [C1 C2]. destruct (IHl C2) as (L1 & L2).
  unfold outs. cbn [flat_map psum fold_right]. fold (outs l). fold (psum E flt_is wd l). destruct (omitted c) eqn:Ec; cbn [app]; [split; [lia|exact L2]|].
  destruct (out_ok c C1 Ec) as (J1 & J2 & _). split; [rewrite zlen_app; lia|apply bytes_app; auto].
Qed.

(** ** Sizing twice changes nothing *)
Lemma needsb_sized e : omitted e = false -> needsb E flt_is wd (sized e) = false.
Proof.
  revert e. apply (elt_ind2 (fun e => omitted e = false -> needsb E flt_is wd (sized e) = false)); [reflexivity|].
  intros i chk ch IH _. cbn [TreeProofs.sized needsb einfo e_need with_need andb orb]. induction ch as [|c l IHl]; [reflexivity|].
  apply Forall_cons_iff in IH. destruct IH as [I1 I2]. cbn [map]. rewrite (IHl I2), orb_false_r. destruct (omitted c) eqn:Ec; [|auto].
  destruct c as [j w|j k d]; [|rewrite omitted_master in Ec; discriminate]. cbn [needsb]. rewrite Ec. rewrite andb_false_r. reflexivity.
Qed.

Lemma writable_sized e : writable e -> omitted e = false -> writable (sized e).
Proof.
  revert e. apply (elt_ind2 (fun e => writable e -> omitted e = false -> writable (sized e))).
  - intros i v (Hd & Hv & H) Ho. destruct (H Ho) as (Hs & Hf & Hdz & Hh & _). cbn [TreeProofs.sized TreeSpec.writable].
    split; [exact Hd|]. split; [exact Hv|]. intros _. split; [exact Hs|]. split; [exact Hf|]. cbn [TreeSpec.psize] in *. rewrite leaf_psize_sized.
    split; [|split; [exact Hh|right; reflexivity]]. unfold defsz_ok in *. rewrite leaf_psize_sized.
    cbn [e_kind e_defsz e_dsize with_need with_dsize]. unfold TreeSpec.leaf_psize in *.
    destruct (kind_class E (e_kind i)); destruct v; try exact Hdz; try exact I; rewrite Z.max_id || idtac; try (replace (Z.max (Z.max (e_dsize i) (e_defsz i)) (e_defsz i)) with (Z.max (e_dsize i) (e_defsz i)) by lia; exact Hdz).
  - intros i chk ch IH H Ho. pose proof (writable_master _ _ _ _ _ _ _ H) as (H1 & H2 & H3 & H4 & H5 & H6).
    pose proof (psize_sized E flt_is wd (Master i chk ch)) as Hps. cbn [TreeProofs.sized] in *. cbn [TreeSpec.writable]. rewrite Hps.
    split; [exact H1|]. split; [exact H2|]. split; [exact H3|]. split; [right; reflexivity|]. split; [exact H5|].
    clear -IH H6. induction ch as [|c l IHl]; [exact I|]. apply Forall_cons_iff in IH, H6. destruct IH as [I1 I2], H6 as [C1 C2].
    cbn [map]. split; [|apply IHl; assumption]. destruct (omitted c) eqn:Ec; auto.
Qed.
Lemma sized_sized e : writable e -> omitted e = false -> sized (sized e) = sized e.
Proof.
  intros H Ho. apply sized_fix with (narrow := narrow); [apply writable_sized; assumption|rewrite omitted_sized; assumption|apply needsb_sized; assumption].
Qed.

(** ** The element after rendering at [p] *)
Definition pinfo (p : Z) (i : info) (n : Z) : info :=
  let sp := p + get_id_length (eid_of E i) in
  with_pos (sinfo i n) p sp (sp + coded_size_length n (e_szlen i) (e_fin i) + n).
Fixpoint placed (p : Z) (e : elt) : elt :=
  match e with
  | Leaf i v => Leaf (pinfo p i (leaf_psize i v)) v
  | Master i chk ch =>
      Master (pinfo p i (psize e)) chk
        ((fix go (p : Z) (l : list elt) : list elt :=
            match l with [] => [] | c :: l => if omitted c then c :: go p l else placed p c :: go (p + fsize c) l end)
           (p + zlen (head e) + (if chk =? 0 then 0 else 6)) ch)
  end.
Fixpoint placeds (p : Z) (l : list elt) : list elt :=
  match l with [] => [] | c :: l => if omitted c then c :: placeds p l else placed p c :: placeds (p + fsize c) l end.
Lemma placed_master p i chk ch : placed p (Master i chk ch) =
  Master (pinfo p i (psize (Master i chk ch))) chk (placeds (p + zlen (head (Master i chk ch)) + (if chk =? 0 then 0 else 6)) ch).
Proof. reflexivity. Qed.

Lemma einfo_sized e : einfo (sized e) = sinfo (einfo e) (psize e).
Proof. destruct e; reflexivity. Qed.

Lemma render_head_to_ok e keep o : head_ok E (einfo e) (psize e) -> room o (zlen (head e)) ->
  render_head_to E keep (sinfo (einfo e) (psize e)) o =
  Ok (ERR_NONE, zlen (head e), if keep then sinfo (einfo e) (psize e) else pinfo (o_tell o) (einfo e) (psize e), o_put o (head e)).
Proof.
  intros Hh Hr. unfold render_head_to. change (eid_of E (sinfo (einfo e) (psize e))) with (eid_of E (einfo e)).
  cbn [e_dsize e_szlen e_fin sinfo with_need with_dsize]. pose proof (head_len _ Hh) as Hl.
  destruct (head_ok_bytes _ _ Hh) as (idb & szb & H1 & _). unfold head in *. rewrite H1 in *. cbn [opt_res bind].
  rewrite o_write_ok by assumption. cbn [bind]. rewrite o_tell_put. unfold pinfo.
  replace (o_tell o + zlen (idb ++ szb) - zlen (idb ++ szb)) with (o_tell o) by lia.
  replace (o_tell o + zlen (idb ++ szb) - o_tell o) with (zlen (idb ++ szb)) by lia. reflexivity.
Qed.

Lemma render_crc_ok c o : is_u32 c -> room o 6 -> render_crc c o = Ok (ERR_NONE, 6, o_put o ([191; 132] ++ rev (be_bytes 4 c))).
Proof.
  intros Hc Hr. unfold render_crc. destruct (crc_render_read c Hc) as (H1 & H2 & _). rewrite <- crc_render_be by assumption.
  replace (render_head 191 4 0 true) with (Some [191; 132]) by reflexivity. cbn [opt_res bind].
  rewrite o_write_ok by (eapply room_le; [exact Hr|vm_compute; discriminate]). cbn [bind negb Z.eqb ERR_NONE].
  change (zlen [191; 132]) with 2.
  rewrite o_write_ok by (eapply room_put'; [exact Hr|lia|change (zlen [191; 132]) with 2; lia]). cbn [bind]. rewrite H2.
  rewrite (o_put_app _ _ _ 6 Hr) by (change (zlen [191; 132]) with 2; lia). reflexivity.
Qed.

Lemma is_default_ok e : typed E e -> is_default E flt_is e = Ok (TreeSpec.omitted E flt_is false e).
Proof. intros H. exact (left_out_ok E flt_is false e H). Qed.

Lemma default_off e : omitted e = false -> negb wd && TreeSpec.omitted E flt_is false (sized e) = false.
Proof. destruct wd; [reflexivity|]. cbn [negb andb]. rewrite omitted_sized. auto. Qed.

Lemma height_sized e : height (sized e) = height e.
Proof.
  revert e. apply (elt_ind2 (fun e => height (sized e) = height e)); [reflexivity|].
  intros i chk ch IH. cbn [TreeProofs.sized height]. f_equal. induction ch as [|c l IHl]; [reflexivity|].
  apply Forall_cons_iff in IH. destruct IH as [I1 I2]. cbn [map]. rewrite (IHl I2). destruct (omitted c); [reflexivity|]. rewrite I1. reflexivity.
Qed.
Lemma height_master i chk ch c : In c ch -> (height c < height (Master i chk ch))%nat.
Proof.
  cbn [height]. induction ch as [|d l IH]; [intros []|]. intros [->|H]; [lia|]. specialize (IH H). lia.
Qed.

Context (alloc : Z -> list Z) (Halloc : forall n, 0 <= n -> zlen (alloc n) = n).
Notation render := (render E narrow flt_is true alloc).

Definition kept (keep : bool) (p : Z) (e : elt) : elt :=
  if keep then with_info (placed p e) (sinfo (einfo e) (psize e)) else placed p e.

(** Element updated, head written, data to come. *)
Lemma mem_seek_set m p : 0 <= mvoff m -> mvoff m <= p <= zlen (mptr m) + mvoff m -> zlen (mptr m) + mvoff m < 2 ^ 62 ->
  mem_seek m p SeekSet = (p, mkMem (mptr m) (p - mvoff m) (mvoff m)).
Proof.
  intros H1 H2 H3. unfold mem_seek. replace (p <? 0) with false by lia. cbv zeta iota. replace (zlen (mptr m) + mvoff m <? p) with false by lia.
  rewrite u64_id by lia. reflexivity.
Qed.
Lemma mem_seek_cur m n : room (OMem m) n -> 0 <= n -> mem_seek m n SeekCur = (mpos m + mvoff m + n, mkMem (mptr m) (mpos m + n) (mvoff m)).
Proof.
  cbn [room]. intros H1 H2. unfold mem_seek. rewrite s64_small by (red; lia). replace (n + mpos m + mvoff m <? 0) with false by lia. cbv zeta iota.
  replace (zlen (mptr m) + mvoff m <? n + mpos m + mvoff m) with false by lia. rewrite u64_id by lia.
  f_equal; [lia|]. f_equal; lia.
Qed.

Lemma render_ok e : forall fuel keep o, (height e <= fuel)%nat -> writable e -> omitted e = false -> room o (fsize e) ->
  (keep = false \/ o_is_mem o = false \/ match e with Master _ chk _ => chk = 0 | _ => True end) ->
  render fuel wd keep (sized e) o = Ok (ERR_NONE, fsize e, kept keep (o_tell o) e, o_put o (out e)).
Proof.
  revert e. apply (elt_ind2 (fun e => forall fuel keep o, (height e <= fuel)%nat -> writable e -> omitted e = false -> room o (fsize e) ->
    (keep = false \/ o_is_mem o = false \/ match e with Master _ chk _ => chk = 0 | _ => True end) ->
    render fuel wd keep (sized e) o = Ok (ERR_NONE, fsize e, kept keep (o_tell o) e, o_put o (out e)))).
  - intros i v fuel keep o _ Hw Ho Hr _.
    pose proof (writable_sized _ Hw Ho) as Hws. pose proof (writable_typed _ _ _ _ _ Hws) as Hty.
    pose proof (writable_head _ Hw Ho) as Hh. pose proof (head_len _ Hh) as Hhl. pose proof (fsize_eq (Leaf i v)) as Hfs. cbn [einfo] in Hhl, Hfs.
    destruct (fsize_nonneg _ _ _ _ _ Hw Ho) as (Hp0 & _ & _).
    change (psize (Leaf i v)) with (leaf_psize i v) in Hhl, Hfs, Hp0.
    assert (Hset : e_set i = true) by (destruct Hw as (_ & _ & Hw); apply Hw, Ho).
    destruct (leaf_bytes_ok i v Hw Ho) as (b & Hb1 & Hb2 & Hb3).
    pose proof (default_off _ Ho) as Hd.
    destruct fuel; cbn [Tree.render]; rewrite is_default_ok by assumption; cbn [bind]; rewrite einfo_sized; cbn [e_set sinfo with_need with_dsize einfo]; rewrite Hset; cbn [orb negb];
      rewrite Hd; rewrite (needs_update_ok _ _ _ _ _ Hws); rewrite needsb_sized by assumption; cbn [bind]; rewrite einfo_sized;
      (rewrite render_head_to_ok; [|exact Hh|eapply room_le; [exact Hr|lia]]); cbn [bind]; cbn [Z.eqb ERR_NONE negb];
      cbn [TreeProofs.sized with_info];
      (replace (leaf_bytes E narrow true (if keep then sinfo (einfo (Leaf i v)) (psize (Leaf i v)) else pinfo (o_tell o) (einfo (Leaf i v)) (psize (Leaf i v))) v) with (Ok (Some b))
        by (rewrite <- Hb1; destruct keep; reflexivity)); cbn [bind];
      (rewrite o_write_ok; [|eapply room_put'; [exact Hr|apply zlen_nonneg|lia]]); cbn [bind];
      (rewrite (o_put_app _ _ _ _ Hr); [|lia]); cbn [out]; unfold leaf_out; rewrite Hb1;
      (replace (zlen (head (Leaf i v)) + zlen b) with (fsize (Leaf i v)) by (lia)); destruct keep; reflexivity.
  - intros i chk ch IH fuel keep o Hf Hw Ho Hr Hk.
    pose proof (writable_sized _ Hw Ho) as Hws. pose proof (writable_typed _ _ _ _ _ Hws) as Hty.
    pose proof (writable_head _ Hw Ho) as Hh. pose proof (head_len _ Hh) as Hhl. pose proof (fsize_eq (Master i chk ch)) as Hfs. cbn [einfo] in Hhl, Hfs.
    destruct (fsize_nonneg _ _ _ _ _ Hw Ho) as (Hp0 & _ & _).
    pose proof (writable_master _ _ _ _ _ _ _ Hw) as (Hset & _ & _ & _ & Hlen & Hch).
    pose proof (psize_master E flt_is wd i chk ch) as Hps.
    destruct (outs_ok ch Hch) as (Houts & Hbok). pose proof (default_off _ Ho) as Hd.
    destruct fuel as [|fuel]; [cbn [height] in Hf; lia|].
    cbn [Tree.render]. rewrite is_default_ok by assumption. cbn [bind]. rewrite einfo_sized. cbn [e_set sinfo with_need with_dsize einfo]. rewrite Hset. cbn [orb negb].
    rewrite Hd. rewrite (needs_update_ok _ _ _ _ _ Hws). rewrite needsb_sized by assumption. cbn [bind]. rewrite einfo_sized.
    rewrite render_head_to_ok; [|exact Hh|eapply room_le; [exact Hr|lia]]. cbn [bind]. cbn [Z.eqb ERR_NONE negb].
    cbn [TreeProofs.sized with_info].
    match goal with |- context [if chk =? 0 then bind (?f _ 0 _) _ else _] => set (inner := f) end.
    assert (Hin : forall l rd o, incl l ch -> room o (psum E flt_is wd l) ->
      inner (map (fun c => if omitted c then c else sized c) l) rd o = Ok (ERR_NONE, rd + psum E flt_is wd l, placeds (o_tell o) l, o_put o (outs l))).
    { clear Hw Ho Hr Hk Hws Hty Hh Hhl Hfs Hp0 Hps Houts Hbok Hd o.
      induction l as [|c l IHl]; intros rd o Hi Hr; [cbn; rewrite o_put_nil by exact Hr; rewrite Z.add_0_r; reflexivity|].
      assert (Hc : In c ch) by (apply Hi; left; reflexivity). assert (Hi' : incl l ch) by (intros x Hx; apply Hi; right; exact Hx).
      assert (Hwc : writable c) by (rewrite Forall_forall in Hch; auto). rewrite Forall_forall in IH. specialize (IH c Hc).
      assert (Hwl : Forall writable l) by (apply Forall_forall; intros x Hx; rewrite Forall_forall in Hch; auto).
      destruct (outs_ok l Hwl) as (Hol & _). pose proof (zlen_nonneg (outs l)) as Hol0.
      cbn [map psum fold_right placeds] in *. fold (psum E flt_is wd l) in *. unfold outs. cbn [flat_map]. fold (outs l).
      cbn [inner]. destruct (omitted c) eqn:Ec.
      - rewrite left_out_ok by (apply writable_typed with (narrow := narrow) (flt_is := flt_is) (wd := wd); assumption). rewrite Ec. cbn [bind]. fold inner.
        rewrite IHl by assumption. reflexivity.
      - destruct (out_ok c Hwc Ec) as (Hoc & _). pose proof (fsize_nonneg _ _ _ _ _ Hwc Ec) as (? & ? & _).
        rewrite left_out_ok by (apply writable_typed with (narrow := narrow) (flt_is := flt_is) (wd := wd); apply writable_sized; assumption). rewrite omitted_sized, Ec. cbn [bind]. fold inner.
        rewrite IH; [|pose proof (height_master i chk ch c Hc); lia|assumption|reflexivity|eapply room_le; [exact Hr|lia]|left; reflexivity].
        cbn [bind negb Z.eqb ERR_NONE]. rewrite IHl; [|assumption|eapply room_put'; [exact Hr|lia|lia]]. cbn [bind].
        rewrite (o_put_app _ _ _ _ Hr) by lia. rewrite o_tell_put, Hoc. unfold kept. rewrite Z.add_assoc. reflexivity. }
    set (i' := if keep then _ else _).
    assert (Hi' : e_dsize i' = psize (Master i chk ch)) by (unfold i'; destruct keep; reflexivity).
    assert (Hrh : room (o_put o (head (Master i chk ch))) (psize (Master i chk ch))) by (eapply room_put'; [exact Hr|lia|lia]).
    rewrite out_master. unfold checksum.
    assert (Hkept : forall p, kept keep p (Master i chk ch) = Master (if keep then sinfo (einfo (Master i chk ch)) (psize (Master i chk ch)) else pinfo p (einfo (Master i chk ch)) (psize (Master i chk ch))) chk
       (placeds (p + zlen (head (Master i chk ch)) + (if chk =? 0 then 0 else 6)) ch)) by (intros p; unfold kept; rewrite placed_master; destruct keep; reflexivity).
    rewrite Hkept. fold i'. destruct (chk =? 0) eqn:Ek.
    + rewrite Hin; [|apply incl_refl|eapply room_le; [exact Hrh|lia]]. cbn [bind].
      rewrite (o_put_app _ _ _ _ Hr) by lia. rewrite o_tell_put. cbn [app]. rewrite Z.add_0_r.
      replace (zlen (head (Master i chk ch)) + (0 + psum E flt_is wd ch)) with (fsize (Master i chk ch)) by lia. reflexivity.
    + set (hd := head (Master i chk ch)) in *. set (ps := psize (Master i chk ch)) in *. set (sm := psum E flt_is wd ch) in *.
      pose proof (zlen_nonneg (outs ch)) as Hz0. set (o1 := o_put o hd) in *.
      assert (Hcl : zlen ([191; 132] ++ rev (be_bytes 4 (crc32_ieee (outs ch)))) = 6).
      { pose proof (checksum_len chk (outs ch)) as Hc. unfold checksum in Hc. rewrite Ek in Hc. exact Hc. }
      set (ck := [191; 132] ++ rev (be_bytes 4 (crc32_ieee (outs ch)))) in *.
      destruct (o_is_mem o1) eqn:Em; cbn [negb].
      * (* memory stream *)
        destruct o as [m|d q]; [|discriminate]. assert (keep = false) as -> by (destruct Hk as [?|[?|?]]; [assumption|discriminate|lia]).
        set (m1 := mkMem (patch (mptr m) (mpos m) hd) (mpos m + zlen hd) (mvoff m)) in *.
        assert (Ho1 : o1 = OMem m1) by reflexivity. rewrite Ho1 in *. clear Em Ho1 o1.
        assert (Hr6 : room (OMem m1) 6) by (eapply room_le; [exact Hrh|lia]).
        cbn [o_seek_cur]. rewrite (mem_seek_cur m1 6) by (assumption || lia). cbn [fst snd]. cbn [room] in Hrh.
        rewrite Hin; [|apply incl_refl|cbn [room mptr mpos mvoff]; lia].
        cbn [bind negb Z.eqb ERR_NONE o_put mptr mpos mvoff]. replace (mpos m1 + mvoff m1 + 6 - mvoff m1) with (mpos m1 + 6) by lia.
        rewrite Hi'. set (P := patch (mptr m1) (mpos m1 + 6) (outs ch)).
        assert (HP : zlen P = zlen (mptr m1)) by (unfold P; rewrite zlen_patch by lia; lia).
        rewrite mem_get_eq by lia. cbn [opt_res bind].
        replace (firstn (Z.to_nat (ps - 6)) (skipn (Z.to_nat (mpos m1 + 6)) P)) with (outs ch).
        2:{ destruct (patch_split (mptr m1) (mpos m1 + 6) (zlen (outs ch))) as (x & y & z & Hx & Hy & Hz); try lia.
            unfold P. rewrite Hx, <- Hy, patch_app by lia. rewrite skipn_zlen. replace (ps - 6) with (zlen (outs ch)) by lia. rewrite firstn_zlen. reflexivity. }
        rewrite crc_of_ieee by assumption.
        assert (Hpd : position_data i' = mpos m1 + mvoff m1).
        { unfold position_data, i', pinfo. cbn [e_fin e_szlen e_spos e_dsize sinfo with_pos with_need with_dsize einfo]. fold ps. unfold m1. cbn [mpos mvoff o_tell].
          destruct (e_fin i) eqn:Ef; cbn [negb].
          - lia.
          - destruct Hlen as [?|[?|?]]; [lia|discriminate|]. replace (e_szlen i =? 0) with false by lia.
            rewrite coded_size_length_unknown in Hhl by (destruct Hh as (_ & Hh & _); exact Hh). lia. }
        rewrite Hpd. cbn [o_seek]. rewrite mem_seek_set by (cbn [mptr mvoff]; lia). cbn [snd mptr mvoff]. replace (mpos m1 + mvoff m1 - mvoff m1) with (mpos m1) by lia.
        rewrite render_crc_ok; [|apply crc32_ieee_u32|cbn [room mptr mpos mvoff]; lia]. cbn [bind]. fold ck.
        cbn [o_put o_seek mptr mpos mvoff].
        assert (Hpp : patch P (mpos m1) ck = patch (mptr m1) (mpos m1) (ck ++ outs ch)).
        { unfold P. replace (mpos m1 + 6) with (mpos m1 + zlen ck) by lia. apply patch_before; lia. }
        rewrite Hpp.
        assert (Hend : e_end i' = mpos m1 + mvoff m1 + ps).
        { unfold i', pinfo. cbn [e_end sinfo with_pos with_need with_dsize einfo]. fold ps. unfold m1. cbn [mpos mvoff o_tell]. lia. }
        rewrite Hend. rewrite mem_seek_set.
        2:{ cbn [mvoff]. lia. }
        2:{ cbn [mptr mvoff]. rewrite zlen_patch by lia. rewrite zlen_app. lia. }
        2:{ cbn [mptr mvoff]. rewrite zlen_patch by lia. rewrite zlen_app. lia. }
        cbn [snd mptr mpos mvoff]. replace (zlen hd + (0 + psum E flt_is wd ch + 6)) with (fsize (Master i chk ch)) by lia.
        assert (Hfin : OMem (mkMem (patch (mptr m1) (mpos m1) (ck ++ outs ch)) (mpos m1 + mvoff m1 + ps - mvoff m1) (mvoff m1)) = o_put (OMem m) (hd ++ ck ++ outs ch)).
        { rewrite <- (o_put_app (OMem m) hd (ck ++ outs ch) _ Hr) by (rewrite zlen_app; lia). unfold o_put. fold m1.
          rewrite zlen_app, Hcl. do 2 f_equal. lia. }
        cbn [room] in *. rewrite Hfin.
        replace (o_tell (OMem (mkMem (mptr m1) (mpos m1 + 6) (mvoff m1)))) with (o_tell (OMem m) + zlen hd + 6) by (cbn [o_tell mpos mvoff m1]; lia).
        reflexivity.
      * (* file: rendered to a buffer first *)
        rewrite Hi'. replace (ps - 6 <? 0) with false by lia.
        assert (Ht1 : o_tell o1 = o_tell o + zlen hd) by apply o_tell_put.
        pose proof (room_tell _ _ Hrh ltac:(lia)) as Htl.
        rewrite Hin; [|apply incl_refl|].
        2:{ cbn [room mptr mpos mvoff]. rewrite Halloc by lia. lia. }
        cbn [bind negb Z.eqb ERR_NONE o_put mptr]. cbn [mpos].
        rewrite patch_full by (rewrite Halloc by lia; lia). rewrite crc_of_ieee by assumption.
        rewrite render_crc_ok; [|apply crc32_ieee_u32|eapply room_le; [exact Hrh|lia]]. cbn [bind negb Z.eqb ERR_NONE]. fold ck.
        rewrite o_write_ok by (eapply room_put'; [exact Hrh|lia|lia]). cbn [bind].
        rewrite (o_put_app o1 ck _ _ Hrh) by lia. unfold o1. rewrite (o_put_app o hd _ _ Hr) by (rewrite zlen_app; lia).
        replace (zlen hd + (zlen (outs ch) + 6)) with (fsize (Master i chk ch)) by lia.
        cbn [o_tell mpos mvoff]. fold o1. rewrite Ht1. rewrite Z.add_0_l. reflexivity.
Qed.

(** Rendering a tree, whatever state its sizes are in. *)
Lemma render_top e fuel keep o : (height e <= fuel)%nat -> writable e -> omitted e = false -> room o (fsize e) ->
  (keep = false \/ o_is_mem o = false \/ match e with Master _ chk _ => chk = 0 | _ => True end) ->
  render fuel wd keep e o = Ok (ERR_NONE, fsize e, kept keep (o_tell o) e, o_put o (out e)).
Proof.
  intros Hf Hw Ho Hr Hk. rewrite <- (render_ok e fuel keep o) by assumption.
  pose proof (writable_sized _ Hw Ho) as Hws. pose proof (writable_typed _ _ _ _ _ Hws) as Hty. pose proof (writable_typed _ _ _ _ _ Hw) as Ht.
  assert (Hu : (if needsb E flt_is wd e then do u <- update_size E flt_is wd e; Ok (snd u) else Ok e) = Ok (sized e)).
  { destruct (needsb E flt_is wd e) eqn:En; [rewrite (update_size_ok _ _ _ _ e Hw Ho); reflexivity|]. rewrite (sized_fix _ _ _ _ e Hw Ho En). reflexivity. }
  assert (Hs : e_set (einfo (sized e)) = e_set (einfo e)) by (destruct e; reflexivity).
  assert (Hd : TreeSpec.omitted E flt_is false (sized e) = TreeSpec.omitted E flt_is false e) by (destruct e; reflexivity).
  assert (H1 : e_set (einfo e) = true) by (destruct e as [j w|j k d]; [destruct Hw as (_ & _ & Hw); apply Hw, Ho|apply Hw]).
  pose proof (default_off _ Ho) as H2. rewrite Hd in H2.
  destruct fuel; cbn [Tree.render]; rewrite !is_default_ok by assumption; rewrite (needs_update_ok _ _ _ _ _ Hws), (needs_update_ok _ _ _ _ _ Hw), needsb_sized by assumption; cbn [bind];
    rewrite Hu, Hs, Hd, H1, H2; reflexivity.
Qed.
End R.
