(** EBML_FindNextElement: the element at a given position is found, nothing before it is skipped. *)
From Verif Require Import Base BaseProofs Vint VintSpec VintProofs EbmlId EbmlIdSpec EbmlIdProofs Ebml Arr ArrProofs Finder FinderSpec FinderProofs FinderProofs2.

Lemma inv_nth file start s k : inv file start s -> 0 <= k < f_ri s ->
  nth_error (f_buf s) (Z.to_nat k) = nth_error file (Z.to_nat (base s + k)).
Proof.
  intros (H1 & H2 & H3 & H4 & H5 & H6 & H7 & H8) Hk. unfold base.
  assert (E : nth_error (slice file (f_pos s - f_ri s) (f_ri s)) (Z.to_nat k) = nth_error (firstn (Z.to_nat (f_ri s)) (f_buf s)) (Z.to_nat k)) by (rewrite H7; reflexivity).
  assert (Hf : forall (l : list Z) a b, (a < b)%nat -> nth_error (firstn b l) a = nth_error l a).
  { clear. induction l as [|x l IH]; intros a b H; [rewrite firstn_nil; destruct a; reflexivity|].
    destruct b; [lia|]. destruct a; [reflexivity|]. cbn. apply IH. lia. }
  unfold slice in E. rewrite !Hf in E by lia. rewrite nth_error_skipn_add in E. rewrite <- E. f_equal. lia.
Qed.

Definition hdr_facts (file : list Z) (p id n v m : Z) : Prop :=
  1 <= n <= 4 /\ 1 <= m <= 8 /\ p + n + m <= zlen file /\
  (exists b0, nth_error file (Z.to_nat p) = Some b0 /\ is_byte b0 /\ 1 <= b0 /\ 8 - Z.log2 b0 = n) /\
  (exists c0, nth_error file (Z.to_nat (p + n)) = Some c0 /\ is_byte c0 /\ 1 <= c0 /\ 8 - Z.log2 c0 = m).

Lemma slice_zlen file p n : 0 <= p -> 0 < n -> zlen (slice file p n) = n -> p + n <= zlen file.
Proof. intros Hp Hn H. unfold slice, zlen in *. rewrite firstn_length, skipn_length in H. lia. Qed.

Lemma slice_hd file p n b0 t : slice file p n = b0 :: t -> nth_error file (Z.to_nat p) = Some b0.
Proof.
  unfold slice. intros H. destruct (Z.to_nat n) as [|k]; [discriminate|].
  pose proof (nth_error_skipn_add (Z.to_nat p) 0 file) as Hn. rewrite Nat.add_0_r in Hn. rewrite <- Hn.
  destruct (skipn (Z.to_nat p) file); [discriminate|]. cbn in *. congruence.
Qed.

Lemma header_facts file p id n v m : 0 <= p -> header_at file p id n v m -> hdr_facts file p id n v m.
Proof.
  intros Hp (Hid & Hn & Hv & Hm).
  assert (Hn4 : 1 <= n <= 4) by (destruct Hid as (_ & (H & _) & _); lia).
  assert (Hm8 : 1 <= m <= 8) by (destruct Hv as (_ & H & _); lia).
  split; [exact Hn4|]. split; [exact Hm8|].
  split. { apply slice_zlen; [lia|lia|exact Hm]. }
  destruct (slice file p n) as [|b0 t] eqn:E1; [change (zlen (@nil Z)) with 0 in Hn; lia|].
  destruct (slice file (p + n) m) as [|c0 u] eqn:E2; [change (zlen (@nil Z)) with 0 in Hm; lia|].
  split.
  - exists b0. split; [eapply slice_hd; eauto|]. destruct Hid as (Hok & Hid). pose proof (id_first_byte b0 t id (conj Hok Hid)) as Hf.
    assert (Hbb : is_byte b0) by (inversion Hok; assumption). split; [exact Hbb|]. rewrite Hn in Hf.
    assert (0 < 2 ^ (8 - n)) by (apply Z.pow_pos_nonneg; lia). split; [lia|].
    assert (Z.log2 b0 = 8 - n); [|lia]. apply Z.log2_unique; [lia|]. replace (Z.succ (8 - n)) with (9 - n) by lia. exact Hf.
  - exists c0. split; [eapply slice_hd; eauto|]. pose proof (vint_first_byte c0 u v Hv) as [H1 H2]. destruct Hv as (Hok & _).
    assert (Hbb : is_byte c0) by (inversion Hok; assumption). split; [exact Hbb|]. split; [exact H1|]. lia.
Qed.

Lemma nth_lt file k : 0 <= k < zlen file -> exists b, rd_byte file k = Some b.
Proof.
  intros H. unfold rd_byte. destruct (nth_error file (Z.to_nat k)) eqn:E; [eauto|]. apply nth_error_None in E. unfold zlen in H. lia.
Qed.

(** [e] leaves room for [q]. *)
Definition room (e q : Z) : Prop := e = INVALID_FILEPOS \/ q <= e.

Lemma id_loop_before file start e p id n v m : bytes_ok file -> small_file file start -> 0 <= p -> hdr_facts file p id n v m -> room e (p + n + m) ->
  forall fuel s, inv file start s -> f_ri s <= 11 -> base s <= p -> (e <> INVALID_FILEPOS -> f_pos s <= e) -> zlen file - f_pos s < Z.of_nat fuel ->
  match id_loop fuel file start e s with
  | Some (IdFound s1) => inv file start s1 /\ base s1 <= p /\ f_ri s1 <= 11 /\ f_pidl s1 <= f_ri s1 /\ 1 <= f_pidl s1 <= 4 /\ (base s1 = p -> f_pidl s1 = n) /\
       (e <> INVALID_FILEPOS -> f_pos s1 <= e) /\ base s <= base s1
  | Some (IdLimit s1) => inv file start s1 /\ base s1 < p /\ f_pos s1 = e /\ f_ri s1 <= 11 /\ base s <= base s1 /\ f_pidl s1 = f_pidl s /\ f_ri s <= f_ri s1
  | Some (IdEof q) => base s < p /\ zlen file <= q /\ q < p + 11
  | _ => False
  end.
Proof.
  intros Hok Hsm Hp Hh Hroom. pose proof Hh as (Hn & Hm & Hz & (b & Hb1 & Hb2 & Hb3 & Hb4) & _).
  induction fuel as [|f IH]; intros s Hinv Hri Hbase Hle Hfuel.
  { exfalso. assert (f_pos s <= zlen file \/ f_pos s = start) by (destruct Hinv as (_ & _ & _ & _ & _ & [?|?] & _); auto).
    destruct Hinv as (_ & _ & ? & ? & _). unfold base in *. lia. }
  cbn [id_loop]. destruct (rd_0 _ _ _ Hinv) as (b0 & Hr & Hb). rewrite Hr.
  assert (Hri0 : 0 <= f_ri s) by apply Hinv.
  assert (Hpos0 : 0 <= base s) by (destruct Hinv as (_ & _ & ? & ? & _); unfold base; lia).
  rewrite scan_id_ok by (auto; lia).
  replace (Z.of_nat (Z.to_nat (Z.min (f_ri s) 4))) with (Z.min (f_ri s) 4) by lia.
  assert (Hsame : base s = p -> 1 <= f_ri s -> b0 = b).
  { intros E1 E2. pose proof (inv_nth file start s 0 Hinv ltac:(lia)) as H. change (Z.to_nat 0) with O in H. rewrite Z.add_0_r, E1, Hb1 in H.
    unfold rd in Hr. congruence. }
  destruct ((1 <=? b0) && (8 - Z.log2 b0 <=? Z.min (f_ri s) 4)) eqn:Em.
  - cbn [f_buf f_ri f_rs f_pidl f_pos]. unfold base; cbn [f_ri f_pos].
    assert (Hlr : 1 <= 8 - Z.log2 b0) by (destruct (byte_log2 b0 Hb ltac:(lia)); lia).
    split. { destruct Hinv as (H1 & H2 & H3 & H4 & H5 & H6 & H7 & H8). red; cbn [f_buf f_ri f_rs f_pidl f_pos].
      repeat (split; [assumption || lia|]). exact H8. }
    split; [exact Hbase|]. split; [exact Hri|]. split; [lia|]. split; [lia|]. split; [|split; [exact Hle|lia]].
    intros E. rewrite (Hsame E ltac:(lia)). exact Hb4.
  - assert (Hatp : base s = p -> f_ri s < n).
    { intros E. destruct (Z.lt_ge_cases (f_ri s) 1) as [|H1]; [lia|]. rewrite (Hsame E H1) in Em. lia. }
    rewrite (inv_rs _ _ _ Hinv Hsm).
    destruct (e =? start + (f_pos s - start)) eqn:El.
    { split; [exact Hinv|]. split; [|unfold base in *; lia]. destruct (Z.eq_dec (base s) p) as [E|]; [|lia]. specialize (Hatp E).
      red in Hroom. unfold base, INVALID_FILEPOS in *. lia. }
    assert (Hle2 : e <> INVALID_FILEPOS -> f_pos s + 1 <= e) by (intros Hx; specialize (Hle Hx); lia).
    destruct (4 <=? f_ri s) eqn:E4.
    + assert (Hlt : base s < p) by (destruct (Z.eq_dec (base s) p) as [E|]; [specialize (Hatp E); lia|lia]).
      destruct (shift_ok file start s Hinv ltac:(lia)) as (buf & Hs & Hinv1). rewrite Hs.
      destruct (rd_byte file (f_pos s)) as [c|] eqn:Eb.
      2:{ split; [exact Hlt|]. split; [|unfold base in *; lia]. destruct (Z.lt_ge_cases (f_pos s) (zlen file)) as [Hx|Hx]; [|exact Hx].
          destruct (nth_lt file (f_pos s)) as (x & Ex); [unfold base in *; lia|congruence]. }
      destruct (push_ok file start _ c Hok Hinv1 ltac:(cbn [f_ri]; lia) Eb) as (buf2 & Hpu & Hinv2).
      cbn [f_buf f_ri f_rs f_pidl f_pos] in Hpu, Hinv2. rewrite Hpu. rewrite (inv_rs _ _ _ Hinv Hsm) in Hinv2.
      specialize (IH _ Hinv2). cbn [f_ri f_pos] in IH. unfold base in IH at 1; cbn [f_ri f_pos] in IH.
      unfold base in *. specialize (IH ltac:(lia) ltac:(lia) Hle2 ltac:(lia)).
      destruct (id_loop f file start e _) as [[s1|s1|q|]|]; unfold base in *; cbn [f_ri f_pos f_pidl] in IH; [| | |contradiction|contradiction].
      * decompose [and] IH. repeat (split; [assumption || lia|]). lia.
      * decompose [and] IH. repeat (split; [assumption || lia|]). lia.
      * lia.
    + destruct (rd_byte file (f_pos s)) as [c|] eqn:Eb.
      2:{ assert (Hx : zlen file <= f_pos s). { destruct (Z.lt_ge_cases (f_pos s) (zlen file)) as [Hx|Hx]; [|exact Hx].
          destruct (nth_lt file (f_pos s)) as (x & Ex); [unfold base in *; lia|congruence]. }
          unfold base in *. lia. }
      destruct (push_ok file start _ c Hok Hinv ltac:(lia) Eb) as (buf2 & Hpu & Hinv2). rewrite Hpu. rewrite (inv_rs _ _ _ Hinv Hsm) in Hinv2.
      specialize (IH _ Hinv2). cbn [f_ri f_pos] in IH. unfold base in *. cbn [f_ri f_pos] in IH.
      specialize (IH ltac:(lia) ltac:(lia) Hle2 ltac:(lia)).
      destruct (id_loop f file start e _) as [[s1|s1|q|]|]; unfold base in *; cbn [f_ri f_pos f_pidl] in IH; [| | |contradiction|contradiction].
      * decompose [and] IH. repeat (split; [assumption || lia|]). lia.
      * decompose [and] IH. repeat (split; [assumption || lia|]). lia.
      * lia.
Qed.

Lemma size_loop_at file start e p id n v m : bytes_ok file -> small_file file start -> 0 <= p -> header_at file p id n v m -> room e (p + n + m) ->
  forall fuel s psl, inv file start s -> base s = p -> f_pidl s = n -> psl = f_ri s - n -> 0 <= psl -> Z.max 0 (8 - psl) < Z.of_nat fuel ->
  exists s2, size_loop fuel file start e s psl = Some (SzFound (mkSz v m (vint_reserved m)) s2) /\ inv file start s2 /\ base s2 = p /\ f_pidl s2 = n.
Proof.
  intros Hok Hsm Hp Hh Hroom. pose proof (header_facts _ _ _ _ _ _ Hp Hh) as (Hn & Hm & Hz & _ & (c & Hc1 & Hc2 & Hc3 & Hc4)).
  destruct Hh as (_ & _ & Hv & Hvl).
  induction fuel as [|f IH]; intros s psl Hinv Hb Hpl Hpsl H0 Hfuel; [lia|].
  pose proof Hinv as (H1 & H2 & H3 & H4 & H5 & H6 & H7 & H8).
  cbn [size_loop].
  assert (Hu : u64 psl = psl) by (unfold u64; apply Z.mod_small; lia). rewrite Hu.
  assert (Hbok : bytes_ok (skipn (Z.to_nat (f_pidl s)) (f_buf s))) by (apply bytes_ok_skipn; auto).
  assert (Hblen : zlen (skipn (Z.to_nat (f_pidl s)) (f_buf s)) = 16 - f_pidl s) by (unfold zlen in *; rewrite skipn_length; lia).
  destruct (Z.le_gt_cases m psl) as [Hge|Hlt].
  - assert (Es : skipn (Z.to_nat (f_pidl s)) (f_buf s) = slice file (p + n) m ++ skipn (Z.to_nat m) (skipn (Z.to_nat (f_pidl s)) (f_buf s))).
    { rewrite <- Hb, <- Hpl. unfold base. rewrite (slice_sub file (f_pos s - f_ri s) (f_buf s) (f_ri s) (f_pidl s) m) by (try lia; exact H7).
      rewrite firstn_skipn. reflexivity. }
    rewrite Es. rewrite (read_complete _ v) by (auto; lia). rewrite Hvl. cbn [sz_len].
    replace (m =? 0) with false by lia. cbn [negb]. exists s. auto.
  - destruct (read_coded_size (skipn (Z.to_nat (f_pidl s)) (f_buf s)) psl) as [r|] eqn:Er.
    2:{ exfalso. revert Er. apply read_in_bounds; [exact Hbok|lia]. }
    destruct (rd (f_buf s) (Z.to_nat (f_pidl s))) as [bz|] eqn:Ebz.
    2:{ apply nth_error_None in Ebz. unfold zlen in H1. lia. }
    assert (Hbz : 1 <= psl -> bz = c).
    { intros Hx. unfold rd in Ebz. rewrite (inv_nth file start s (f_pidl s) Hinv ltac:(lia)) in Ebz. rewrite Hb, Hpl, Hc1 in Ebz. congruence. }
    assert (Hr0 : sz_len r = 0).
    { destruct (Z.eq_dec (sz_len r) 0) as [|Hne]; [assumption|exfalso].
      destruct (read_sound _ _ _ Hbok Er Hne) as (bs & rest & Eb & Hv2 & Hl & Hle & _).
      assert (Hbs1 : 1 <= zlen bs) by (destruct Hv2 as (_ & ? & _); lia).
      destruct bs as [|x bs]; [change (zlen (@nil Z)) with 0 in Hbs1; lia|].
      pose proof (vint_first_byte _ _ _ Hv2) as [_ Hlog].
      assert (x = bz). { unfold rd in Ebz. pose proof (nth_error_skipn_add (Z.to_nat (f_pidl s)) 0 (f_buf s)) as Hnn. rewrite Nat.add_0_r in Hnn.
        rewrite <- Hnn, Eb in Ebz. cbn in Ebz. congruence. }
      rewrite Hbz in * by lia. subst x. lia. }
    rewrite Hr0. cbn [Z.eqb negb]. replace (8 <=? psl) with false by lia.
    replace ((0 <? psl) && (bz =? 0)) with false.
    2:{ symmetry. destruct (0 <? psl) eqn:Ex; [|reflexivity]. rewrite Hbz by lia. cbn [andb]. lia. }
    rewrite (inv_rs _ _ _ Hinv Hsm). replace (e =? start + (f_pos s - start)) with false by (red in Hroom; unfold base, INVALID_FILEPOS in *; lia).
    destruct (nth_lt file (f_pos s)) as (x & Ex); [unfold base in *; lia|]. rewrite Ex.
    destruct (push_ok file start s x Hok Hinv ltac:(unfold base in *; lia) Ex) as (buf & Hpu & Hinv2). rewrite Hpu. rewrite (inv_rs _ _ _ Hinv Hsm) in Hinv2.
    apply IH; [exact Hinv2| | | | |]; unfold base in *; cbn [f_pos f_ri f_pidl]; lia.
Qed.

(** What the finder makes of a header at [p]. *)
Definition judge (E : schema) (chain : list pctx) (allow : bool) (upper p id n v m : Z) : option fres :=
  let '(found, chain', upper') :=
    if v =? vint_reserved m then (true, chain, upper) else contain chain allow (p + v) upper in
  if found : bool then accept E chain' allow upper' id (mkSz v m (vint_reserved m)) (mkF [] 0 0 n p) else None.

Lemma accept_ext E chain allow upper id r s s' : base s = base s' -> f_pidl s = f_pidl s' ->
  accept E chain allow upper id r s = accept E chain allow upper id r s'.
Proof. unfold base, accept. intros H1 H2. rewrite H2. replace (f_pos s - f_ri s) with (f_pos s' - f_ri s') by lia. reflexivity. Qed.

Lemma accept_pos E chain allow upper id r s h u p : accept E chain allow upper id r s = Some (FElt h u p) -> h_epos h = base s.
Proof.
  unfold accept. destruct (create_using _ _ _ _ _ _) as [[k low]|]; [|discriminate]. cbv zeta.
  destruct (allow || _); [|discriminate]. destruct (validate_size _ _ _); [|discriminate]. intros H. apply some_inj in H.
  injection H as <- _ _. cbn [h_epos]. unfold base. lia.
Qed.

Definition nested_from (e : Z) (chain : list pctx) : Prop := Forall (fun x => snd x = INVALID_FILEPOS \/ e <= snd x) chain.

Lemma chain_end_skipn chain k e : nested_from e chain -> chain_end (skipn k chain) = INVALID_FILEPOS \/ e <= chain_end (skipn k chain).
Proof.
  intros H. unfold nested_from in H. rewrite Forall_forall in H. revert H. revert k. induction chain as [|[c x] up IH]; intros k H.
  { rewrite skipn_nil. left. reflexivity. }
  destruct k; [cbn [skipn chain_end]; apply (H (c, x)); left; reflexivity|]. cbn [skipn]. apply IH. intros y Hy. apply H. right. exact Hy.
Qed.

Lemma turn_before E file start orig upper0 allow s chain upper p id n v m res :
  bytes_ok file -> small_file file start -> ent file start s -> 0 <= p -> header_at file p id n v m ->
  room (chain_end chain) (p + n + m) -> (chain_end chain <> INVALID_FILEPOS -> f_pos s <= chain_end chain) ->
  judge E chain allow upper p id n v m = Some res -> base s <= p ->
  match turn E file start orig upper0 allow s chain upper with
  | Done (FElt h u q) => h_epos h < p \/ res = FElt h u q
  | Done (FNull _ _) => base s < p /\
      ~ (p + 12 <= zlen file /\ room (chain_end orig) (p + 12) /\ nested_from (p + 12) chain)
  | Again s' => base s' <= p
  | _ => False
  end.
Proof.
  intros Hok Hsm (Hinv & Hri & Hpi & Hpi0) Hp Hh Hroom Hle Hj Hbase.
  pose proof (header_facts _ _ _ _ _ _ Hp Hh) as Hf.
  pose proof (turn_ok E file start orig upper0 allow s chain upper Hok (conj Hinv (conj Hri (conj Hpi Hpi0)))) as Htok.
  revert Htok. unfold turn.
  assert (Hn4 : 1 <= n <= 4) by apply Hf.
  assert (Hpos0 : 0 <= base s) by (destruct Hinv as (_ & _ & ? & ? & _); unfold base; lia).
  pose proof (id_loop_before file start (chain_end chain) p id n v m Hok Hsm Hp Hf Hroom (S (length file)) s Hinv Hri Hbase Hle) as Hid.
  assert (Hri0 : 0 <= f_ri s) by apply Hinv.
  specialize (Hid ltac:(unfold base, zlen in *; lia)).
  (* reading cannot stop early when there is room *)
  assert (Hs2 : forall s2 chain' upper' found k, inv file start s2 -> base s <= base s2 -> base s2 < p -> chain' = skipn k chain ->
    (p + 12 <= zlen file -> f_pos s2 < p + 12) ->
    match turn_tail E orig upper0 allow s2 chain' upper' found with
    | Done (FElt h u q) => h_epos h < p \/ res = FElt h u q
    | Done (FNull _ _) => base s < p /\
        ~ (p + 12 <= zlen file /\ room (chain_end orig) (p + 12) /\ nested_from (p + 12) chain)
    | Again s' => base s' <= p
    | Done FBad => True
    | Stuck => True
    end).
  { intros s2 chain' upper' found k Hi2 Hbs Hb2 Hk Hp12. unfold turn_tail.
    destruct (id_from_buffer _ _) as [id2|]; [|exact I].
    destruct (match found with Some r => _ | None => None end) as [res2|] eqn:Eacc.
    { destruct found as [r|]; [|discriminate]. destruct (accept_elt _ _ _ _ _ _ _ _ Eacc) as (h & u & q & ->).
      left. rewrite (accept_pos _ _ _ _ _ _ _ _ _ _ Eacc). exact Hb2. }
    unfold at_limit.
    destruct (negb (chain_end chain' =? INVALID_FILEPOS) && (chain_end chain' <=? f_pos s2)) eqn:E1.
    { destruct (allow && negb (chain_end chain' =? f_pos s2)) eqn:E2; [left; cbn [h_epos]; unfold base in *; lia|].
      split; [unfold base in *; lia|]. intros (Hx & Hr2 & Hn1). specialize (Hp12 Hx).
      assert (Hce : chain_end chain' = INVALID_FILEPOS \/ p + 12 <= chain_end chain').
      { rewrite Hk. apply chain_end_skipn. exact Hn1. }
      unfold INVALID_FILEPOS in *. lia. }
    destruct (shift_buf _ _) as [buf|]; [|exact I].
    destruct ((chain_end orig =? INVALID_FILEPOS) || _) eqn:Eor; [unfold base in *; cbn [f_pos f_ri]; lia|].
    split; [unfold base in *; lia|]. intros (Hx & Hr2 & _). red in Hr2. specialize (Hp12 Hx).
    assert (0 <= f_pidl s2 <= 4) by apply Hi2. unfold base, INVALID_FILEPOS in *. lia. }
  destruct (id_loop (S (length file)) file start (chain_end chain) s) as [[s1|s1|q|]|]; [| | |contradiction|contradiction].
  3:{ intros _. split; [lia|]. intros (Hx & _). lia. }
  - destruct Hid as (Hi1 & Hb1 & Hri1 & Hpl1 & Hpn1 & Hatp & Hle1 & Hmono).
    destruct (Z.eq_dec (base s1) p) as [Ep|Np].
    + specialize (Hatp Ep).
      destruct (size_loop_at file start (chain_end chain) p id n v m Hok Hsm Hp Hh Hroom 9 s1 (f_ri s1 - f_pidl s1) Hi1 Ep Hatp ltac:(lia) ltac:(lia) ltac:(lia))
        as (s2 & Es & Hi2 & Hb2 & Hp2). rewrite Es. cbn [sz_val sz_unk sz_len]. intros _.
      unfold judge in Hj. replace (f_pos s2 + v - f_ri s2) with (p + v) by (unfold base in *; lia).
      destruct (if v =? vint_reserved m then (true, chain, upper) else contain chain allow (p + v) upper) as [[found chain'] upper'].
      destruct found; [|discriminate]. unfold turn_tail.
      assert (Eid : id_from_buffer (f_buf s2) (f_pidl s2) = Some id).
      { assert (Hr2 : f_pidl s2 <= f_ri s2).
        { pose proof (size_loop_ok file start (chain_end chain) Hok 9 s1 (f_ri s1 - f_pidl s1) Hi1 eq_refl ltac:(lia) ltac:(lia)) as (rz & Erz & Hz).
          rewrite Es in Erz. apply some_inj in Erz. subst rz. destruct Hz as (_ & (_ & _ & ? & ? & _) & _). lia. }
        destruct (id_from_buffer_gen (f_buf s2) (f_pidl s2)) as (id2 & E2 & H2');
          [apply Hi2|destruct Hi2; lia|lia|]. rewrite E2. f_equal. rewrite H2' by lia.
        destruct (inv_prefix file start s2 (f_pidl s2) Hi2 ltac:(lia)) as [Hpf _]. rewrite <- Hpf, Hb2, Hp2. destruct Hh as ((_ & _ & Hx) & _). exact Hx. }
      rewrite Eid. rewrite (accept_ext _ _ _ _ _ _ s2 (mkF [] 0 0 n p)); [|unfold base in *; cbn [f_pos f_ri]; lia|cbn [f_pidl]; lia].
      rewrite Hj. destruct (accept_elt _ _ _ _ _ _ _ _ Hj) as (h & u & q & ->). right. reflexivity.
    + destruct (size_loop_ok file start (chain_end chain) Hok 9 s1 (f_ri s1 - f_pidl s1) Hi1 eq_refl ltac:(lia) ltac:(lia)) as (rz & Erz & Hz).
      rewrite Erz. destruct rz as [r s2|s2|q|]; cbn beta iota in Hz; [| | |contradiction].
      * destruct Hz as (Hi2 & Hsr & Hpl & Hb2 & Hp2 & _).
        assert (Hq : f_pos s2 < p + 12) by (assert (f_ri s2 <= 12) by apply Hi2; unfold base in *; lia).
        destruct (sz_val r =? sz_unk r).
        -- intros Htok. specialize (Hs2 s2 chain upper (Some r) O Hi2 ltac:(unfold base in *; lia) ltac:(unfold base in *; lia) eq_refl ltac:(intros; exact Hq)).
           destruct (turn_tail _ _ _ _ _ _ _ _) as [[| |]| |]; auto.
        -- destruct (contain chain allow (f_pos s2 + sz_val r - f_ri s2) upper) as [[found chain'] upper'] eqn:Ec.
           destruct (contain_skipn _ _ _ _ _ _ _ Ec) as (k & _ & Hk & _). intros Htok.
           specialize (Hs2 s2 chain' upper' (if found then Some r else None) k Hi2 ltac:(unfold base in *; lia) ltac:(unfold base in *; lia) Hk ltac:(intros; exact Hq)).
           destruct (turn_tail _ _ _ _ _ _ _ _) as [[| |]| |]; auto.
      * destruct Hz as (Hi2 & Hpl & Hb2 & Hp2 & _).
        assert (Hq : f_pos s2 < p + 12) by (assert (f_ri s2 <= 12) by apply Hi2; unfold base in *; lia).
        intros Htok. specialize (Hs2 s2 chain upper None O Hi2 ltac:(unfold base in *; lia) ltac:(unfold base in *; lia) eq_refl ltac:(intros; exact Hq)).
        destruct (turn_tail _ _ _ _ _ _ _ _) as [[| |]| |]; auto.
      * intros _. split; [lia|]. intros (Hx & _). unfold base in *. lia.
  - destruct Hid as (Hi1 & Hb1 & He & Hri1 & Hmono & Hpl1 & Hrr).
    assert (Hq : f_pos s1 < p + 12) by (unfold base in *; lia).
    assert (Hlim : chain_end chain = start + f_rs s1) by (rewrite (inv_rs _ _ _ Hi1 Hsm); lia).
    pose proof (size_loop_limit file start (chain_end chain) 9 s1 (f_ri s1 - f_pidl s1) Hlim) as Hsame.
    destruct (size_loop 9 file start (chain_end chain) s1 (f_ri s1 - f_pidl s1)) as [[r s2|s2|q|]|]; [subst s2|subst s2|contradiction| |contradiction].
    + destruct (sz_val r =? sz_unk r).
      * intros Htok. specialize (Hs2 s1 chain upper (Some r) O Hi1 Hmono Hb1 eq_refl ltac:(intros; exact Hq)).
        destruct (turn_tail _ _ _ _ _ _ _ _) as [[| |]| |]; auto.
      * destruct (contain chain allow (f_pos s1 + sz_val r - f_ri s1) upper) as [[found chain'] upper'] eqn:Ec.
        destruct (contain_skipn _ _ _ _ _ _ _ Ec) as (k & _ & Hk & _). intros Htok.
        specialize (Hs2 s1 chain' upper' (if found then Some r else None) k Hi1 Hmono Hb1 Hk ltac:(intros; exact Hq)).
        destruct (turn_tail _ _ _ _ _ _ _ _) as [[| |]| |]; auto.
    + intros Htok. specialize (Hs2 s1 chain upper None O Hi1 Hmono Hb1 eq_refl ltac:(intros; exact Hq)).
      destruct (turn_tail _ _ _ _ _ _ _ _) as [[| |]| |]; auto.
    + intros Htok. exact Htok.
Qed.
