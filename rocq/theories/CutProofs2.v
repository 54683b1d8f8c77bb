(** Reading the elements of a file that ends too early. *)
From Verif Require Import Base BaseProofs VintSpec EbmlIdSpec CrcSpec IntEltSpec Vint VintProofs EbmlId EbmlIdProofs IntElt IntEltProofs
  Crc CrcProofs EltHead Void VoidSpec VoidProofs Ebml Arr ArrProofs ArrProofs2 Stream StreamProofs Finder FinderSpec FinderProofs FinderProofs2 FinderProofs3 FinderProofs4
  Tree TreeRead TreeSpec TreeProofs TreeProofs2 TreeProofs3 CutSpec CutProofs.

Lemma rd_view s f L p b : view s f L -> 0 <= p -> rd_byte (in_data s) p = Some b -> p < L /\ rd_byte f p = Some b.
Proof.
  intros Hv Hp Hb. pose proof (rd_byte_lt (in_data s) p b Hp Hb) as Hlt. rewrite (view_len _ _ _ Hv) in Hlt. split; [exact Hlt|].
  destruct Hv as [Hd _]. rewrite Hd in Hb. unfold rd_byte, rd in *.
  assert (G : forall n m (l : list Z), (n < m)%nat -> nth_error (firstn m l) n = nth_error l n).
  { clear. induction n as [|n IH]; intros [|m] [|x l] H; try lia; try reflexivity. cbn. apply IH. lia. }
  rewrite G in Hb by lia. exact Hb.
Qed.
Lemma rd_at f p b bs : at_pos f p (b :: bs) -> rd_byte f p = Some b.
Proof.
  intros (H1 & H2 & H3). rewrite zlen_cons in *. pose proof (zlen_nonneg bs). unfold rd_byte, rd. unfold slice in H3.
  destruct (skipn (Z.to_nat p) f) as [|x r] eqn:Es.
  - rewrite firstn_nil in H3. discriminate.
  - replace (Z.to_nat (zlen bs + 1)) with (S (Z.to_nat (zlen bs))) in H3 by lia. cbn [firstn] in H3. injection H3 as -> _.
    pose proof (nth_error_skipn_add (Z.to_nat p) 0 f) as Hn. rewrite Nat.add_0_r, Es in Hn. cbn in Hn. congruence.
Qed.

Lemma id_lead b bs id : id_encodes (b :: bs) id -> lead b (zlen (b :: bs)).
Proof.
  intros H. pose proof (id_first_byte _ _ _ H) as Hb. destruct H as (Hok & (Hn & _) & _). inversion Hok; subst.
  split; [assumption|]. assert (0 < 2 ^ (8 - zlen (b :: bs))) by (apply Z.pow_pos_nonneg; lia). split; [lia|].
  assert (Z.log2 b = 8 - zlen (b :: bs)); [|lia]. apply Z.log2_unique; [lia|]. replace (Z.succ (8 - zlen (b :: bs))) with (9 - zlen (b :: bs)) by lia. exact Hb.
Qed.
Lemma vint_lead b bs v : vint_spec (b :: bs) v -> lead b (zlen (b :: bs)).
Proof. intros H. pose proof (vint_first_byte _ _ _ H) as [H1 H2]. destruct H as (Hok & _). inversion Hok; subst. split; [assumption|]. split; [assumption|lia]. Qed.

Lemma i_read_short s f L p n : view s f L -> in_mem s = false -> 0 <= p <= L -> L < p + n -> exists bs, i_read s p n = Ok (ERR_END_OF_FILE, bs, L).
Proof.
  intros Hv Hm Hp Hn. unfold i_read. rewrite Hm. replace (n <? 0) with false by lia. cbn [orb andb]. pose proof (view_len _ _ _ Hv) as Hl.
  assert (Hz : zlen (firstn (Z.to_nat n) (skipn (Z.to_nat p) (in_data s))) = L - p).
  { unfold zlen in *. rewrite firstn_length, skipn_length. lia. }
  cbv zeta. rewrite Hz. replace (L - p <? n) with true by lia. eexists. do 3 f_equal. lia.
Qed.
Lemma f_seek s p cur : in_mem s = false -> 0 <= p -> i_seek s p cur = (p, p).
Proof. intros Hm Hp. unfold i_seek. rewrite Hm. replace (p <? 0) with false by lia. reflexivity. Qed.

Section Rd.
Context (E : schema) (narrow widen : Z -> Z) (flt_is : Z -> Z -> bool) (wd : bool).
Context (char_signed : bool) (junk : Z -> list Z) (junk0 junkcrc : Z) (allow : bool).
Context (Hjunk : forall p, zlen (junk p) = 16 /\ bytes_ok (junk p)).
Context (f : list Z) (Hf : bytes_ok f) (Hsmall : zlen f < 2 ^ 32).
Context (L : Z).
Notation find_on := (find_on E junk allow).
Notation enc := (enc E narrow flt_is wd).
Notation encs := (encs E narrow flt_is wd).
Notation omitted := (omitted E flt_is wd).
Notation same := (same E narrow widen flt_is wd f).
Notation sames := (sames E narrow widen flt_is wd f).
Notation readable := (readable E flt_is wd char_signed).
Notation left_of := (left_of E narrow widen flt_is wd f L).
Notation rest_of := (rest_of E narrow widen flt_is wd f L).
Notation placed := (placed E narrow flt_is wd f).
Notation read_data := (read_data E widen char_signed true junk junk0 junkcrc allow false).
Notation read_loop := (read_loop E widen char_signed true junk junk0 junkcrc allow false).
Notation hdr_at := (hdr_at).
Notation kids := (kids E flt_is wd char_signed).
Notation back := (back E narrow widen flt_is wd char_signed junk junk0 junkcrc allow f).

Lemma find_eof s p c0 e0 up : view s f L -> in_mem s = false -> 0 <= p -> L <= p -> e0 = -1 \/ p < e0 -> exists q, find_on s p ((c0, e0) :: up) = Ok (FNull 0 q) /\ L <= q.
Proof.
  intros Hv Hm Hp HL He. unfold TreeRead.find_on. rewrite Hm. cbn [andb]. pose proof (view_len _ _ _ Hv) as Hl. pose proof (view_bytes _ _ _ Hv Hf) as Hok. destruct (Hjunk p) as [Hj1 Hj2].
  unfold find_next.
  assert (Ha : adjust ((c0, e0) :: up) p 0 = ((c0, e0) :: up, 0)).
  { cbn [adjust]. destruct up; [reflexivity|]. unfold INVALID_FILEPOS. replace (negb (e0 =? -1) && (e0 <=? p)) with false by lia. reflexivity. }
  rewrite Ha. replace (2 * length (in_data s) + 4)%nat with (S (S (2 * length (in_data s) + 2))) by lia. rewrite fne_loop_turn. unfold turn. cbn [chain_end].
  assert (Hi : inv (in_data s) p (mkF (junk p) 0 0 0 p)).
  { red. cbn [f_buf f_ri f_rs f_pidl f_pos]. split; [exact Hj1|]. split; [exact Hj2|]. split; [lia|]. split; [lia|]. split; [lia|]. split; [left; reflexivity|]. split; [reflexivity|]. replace (p - p) with 0 by lia. reflexivity. }
  assert (Hsm : small_file (in_data s) p) by (unfold small_file; destruct Hv as [_ Hv]; lia).
  assert (Hno : forall b, rd_byte (in_data s) p = Some b -> lead b 1) by (intros b Hb; apply rd_byte_lt in Hb; lia).
  pose proof (id_start (in_data s) p e0 1 Hok Hsm Hp ltac:(lia) Hno ltac:(lia) (S (length (in_data s))) _ Hi ltac:(unfold base; cbn; lia) ltac:(cbn; lia) ltac:(cbn [f_pos]; unfold zlen in *; lia)) as K.
  replace (p + 1 <=? zlen (in_data s)) with false in K by lia. destruct K as (q & -> & Hq). exists q. split; [reflexivity|lia].
Qed.

Lemma find_cut s p c0 e0 up id idb szb n : view s f L -> in_mem s = false -> at_pos f p (idb ++ szb) -> L < p + zlen idb + zlen szb ->
  id_encodes idb id -> vint_spec szb n -> e0 = -1 \/ p + zlen idb + zlen szb <= e0 -> exists q, find_on s p ((c0, e0) :: up) = Ok (FNull 0 q) /\ L <= q.
Proof.
  intros Hv Hm Hat HL Hid Hsz He. unfold TreeRead.find_on. rewrite Hm. cbn [andb]. pose proof (view_len _ _ _ Hv) as Hl. pose proof (view_bytes _ _ _ Hv Hf) as Hok. destruct (Hjunk p) as [Hj1 Hj2].
  assert (Hp : 0 <= p) by apply Hat. apply at_app in Hat. destruct Hat as [Ha1 Ha2].
  assert (Hn1 : 1 <= zlen idb <= 4) by apply Hid. assert (Hm1 : 1 <= zlen szb <= 8) by apply Hsz.
  destruct (find_short E (junk p) (in_data s) p c0 e0 up allow (zlen idb) (zlen szb)) as (q & -> & Hq); auto; try lia.
  - unfold small_file. destruct Hv as [_ Hv]. lia.
  - intros b Hb. destruct (rd_view _ _ _ _ _ Hv Hp Hb) as [_ Hb']. destruct idb as [|x idb]; [change (zlen (@nil Z)) with 0 in Hn1; lia|].
    rewrite (rd_at _ _ _ _ Ha1) in Hb'. injection Hb' as <-. eapply id_lead. exact Hid.
  - intros b _ Hb. destruct (rd_view s f L (p + zlen idb) b Hv ltac:(lia) Hb) as [_ Hb']. destruct szb as [|x szb]; [change (zlen (@nil Z)) with 0 in Hm1; lia|].
    rewrite (rd_at _ _ _ _ Ha2) in Hb'. injection Hb' as <-. eapply vint_lead. exact Hsz.
  - exists q. split; [reflexivity|lia].
Qed.

Lemma find_head s p c0 e0 up c idb szb n :
  view s f L -> in_mem s = false -> at_pos f p (idb ++ szb) -> p + zlen idb + zlen szb <= L -> 0 <= n ->
  id_encodes idb (c_id (E c)) -> vint_spec szb n -> n <> vint_reserved (zlen szb) ->
  e0 = -1 \/ p + zlen idb + zlen szb + n <= e0 -> resolves E c0 (Known c) -> legal_size (c_class (E c)) (Some n) ->
  find_on s p ((c0, e0) :: up) = Ok (FElt (hdr_at c p idb szb n) 0 (p + zlen idb + zlen szb)).
Proof.
  intros Hv Hr Hat HL Hn Hid Hsz Hnr He Hres Hleg. pose proof (view_len _ _ _ Hv) as Hvl. pose proof (view_bytes _ _ _ Hv Hf) as Hvb.
  assert (Hp : 0 <= p) by apply Hat. pose proof (zlen_nonneg idb) as Hzi. pose proof (zlen_nonneg szb) as Hzs.
  apply at_app in Hat. destruct Hat as [(_ & _ & Ha1) (_ & _ & Ha2)].
  assert (Hz1 : 1 <= zlen szb) by apply Hsz.
  unfold TreeRead.find_on. rewrite Hr. cbn [andb]. destruct (Hjunk p) as [Hj1 Hj2].
  assert (Hchild : child_at E (in_data s) ((c0, e0) :: up) 0 p (c_id (E c)) (zlen idb) n (zlen szb)).
  { split.
    - unfold header_at. rewrite !(view_slice _ _ _ _ _ Hv) by lia. rewrite Ha1, Ha2. auto.
    - destruct Hres as (c' & Hc & Hex & Hun). injection Hc as <-. exists c0, e0. split; [reflexivity|]. split; [exact Hex|]. split; [|destruct He; [left; assumption|right; lia]].
      intros x Hx. rewrite (Hun x Hx). unfold size_of_vint. replace (n =? vint_reserved (zlen szb)) with false by lia. exact Hleg. }
  assert (Hop : open_ctx ((c0, e0) :: up) p 0).
  { split; [cbn [length]; lia|]. split; [intros; lia|]. right. unfold ctx_end. cbn [nth_error]. lia. }
  assert (Hin : ctx_end ((c0, e0) :: up) 0 = -1 \/ p <= ctx_end ((c0, e0) :: up) 0) by (unfold ctx_end; cbn [nth_error]; lia).
  destruct (child_first E (junk p) (in_data s) p ((c0, e0) :: up) 0 allow 0 p (c_id (E c)) (zlen idb) n (zlen szb)) as (r & Er & Hrr); auto; try lia.
  { unfold small_file. destruct Hv as [_ Hv]. lia. }
  rewrite Er. destruct r as [u q|h u q|]; [lia| |contradiction].
  destruct Hrr as [Hge [Hlt|(x & c1 & e1 & Hnth & Hnm & Hh)]]; [lia|]. cbv zeta in Hh. injection Hnth as <- <-.
  destruct Hres as (c' & Hc & Hex & Hun). injection Hc as <-. specialize (Hun x Hnm).
  destruct Hh as (-> & -> & ->). unfold TreeProofs3.hdr_at. rewrite Hun. replace (n =? vint_reserved (zlen szb)) with false by lia. reflexivity.
Qed.

Definition cutr (e : elt) : Prop := forall fuel depth s c0 e0 up p bs,
  in_mem s = false -> view s f L -> at_pos f p bs -> p <= L < p + zlen bs -> enc e bs -> readable depth e -> (need e <= fuel)%nat ->
  e0 = -1 \/ p + zlen bs <= e0 -> resolves E c0 (e_kind (einfo e)) ->
  (exists q, find_on s p ((c0, e0) :: up) = Ok (FNull 0 q) /\ L <= q /\ rest_of e p None) \/
  (exists h q err e' pos, find_on s p ((c0, e0) :: up) = Ok (FElt h 0 q) /\ h_end h = p + zlen bs /\
     read_data fuel depth s ((c0, e0) :: up) (of_hdr E h) q = Ok (err, e', pos) /\ L <= pos /\
     ((err <> ERR_NONE /\ pos = L /\ rest_of e p None) \/
      (err = ERR_NONE /\ rest_of e p (Some e') /\ e_fin (einfo e') = true /\ e_end (einfo e') = p + zlen bs /\ eid_of E (einfo e') <> 191))).

Lemma find_null_end fuel depth inp chain i chk rs cs acc q ipos : used cs = false ->
  read_loop fuel depth inp chain i chk rs cs acc (FNull 0 q) ipos = Ok (ERR_NONE, Master (with_set i true) chk (rev acc), q).
Proof. intros H. destruct cs; try discriminate; destruct fuel; cbn; rewrite andb_false_r; reflexivity. Qed.

Lemma skip_file s chain i pos : in_mem s = false -> e_fin i = true -> 0 <= e_end i -> skip_data E junk allow s chain i pos = Ok (e_end i).
Proof. intros Hm Hi He. unfold skip_data. rewrite Hi. rewrite f_seek by assumption. reflexivity. Qed.

Lemma placed_of e bs p : enc e bs -> at_pos f p bs -> e_fin (einfo e) = true -> exists h n, placed e p h n /\ h + n = zlen bs.
Proof.
  intros He Ha Hfin. pose proof He as He0. destruct He as [i v idb szb data Hid Hcod Hp|i chk ch idb szb body Hid Hcod Hb]; cbn [einfo] in Hfin; unfold coded in Hcod; rewrite Hfin in Hcod; destruct Hcod as [Hvs _].
  - exists (zlen idb + zlen szb), (zlen data). split; [|rewrite !zlen_app; lia]. exists idb, szb, data. destruct Ha as (A1 & A2 & A3). repeat (split; [assumption || reflexivity || (repeat split; assumption)|]). reflexivity.
  - exists (zlen idb + zlen szb), (zlen (checksum chk body ++ body)). split; [|rewrite !zlen_app; lia]. exists idb, szb, (checksum chk body ++ body). destruct Ha as (A1 & A2 & A3). repeat (split; [assumption || reflexivity || (repeat split; assumption)|]). reflexivity.
Qed.

Lemma loop_cut c up : forall l body, encs l body -> Forall cutr l -> forall fuel depth s i chk cs acc ipos q,
  in_mem s = false -> used cs = false -> e_fin i = true -> e_end i = q + zlen body -> view s f L -> at_pos f q body -> q <= L < q + zlen body ->
  kids c depth l -> (needs l <= fuel)%nat ->
  exists r l' pos, find_on s q ((c, e_end i) :: up) = Ok r /\ left_of l q l' /\
    read_loop fuel depth s ((c, e_end i) :: up) i chk s cs acc r ipos = Ok (ERR_NONE, Master (with_set i true) chk (rev acc ++ l'), pos) /\ L <= pos.
Proof.
  intros l body Henc. induction Henc as [|d l b Ho Hl IH|d l b1 b2 Ho Hd Hl IH]; intros Hb fuel depth s i chk cs acc ipos q Hm Hu Hfin Hend Hv Hat HL Hk Hn.
  - change (zlen (@nil Z)) with 0 in HL. lia.
  - apply Forall_cons_iff in Hb. destruct Hb as [_ Hb]. apply Forall_cons_iff in Hk. destruct Hk as [_ Hk].
    cbn [needs fold_right] in Hn. fold (needs l) in Hn.
    destruct (IH Hb fuel depth s i chk cs acc ipos q) as (r & l' & pos & H1 & H2 & H3); auto; [lia|].
    exists r, l', pos. split; [exact H1|]. split; [apply left_omit; assumption|exact H3].
  - apply Forall_cons_iff in Hb. destruct Hb as [Hb1 Hb]. apply Forall_cons_iff in Hk. destruct Hk as [Hk1 Hk]. destruct (Hk1 Ho) as [Hres Hrd].
    cbn [needs fold_right] in Hn. fold (needs l) in Hn. destruct fuel as [|fuel]; [lia|].
    rewrite zlen_app in *. pose proof (zlen_nonneg b1). pose proof (zlen_nonneg b2). apply at_app in Hat. destruct Hat as [Ha1 Ha2].
    assert (Hq0 : 0 <= q) by apply Ha1. assert (HLf : 0 <= L <= zlen f) by apply Hv.
    destruct (Z.lt_ge_cases L (q + zlen b1)) as [Hcut|Hwhole].
    + destruct (Hb1 fuel (Nat.pred depth) s c (e_end i) up q b1) as [(q' & F1 & F2 & F3)|(h & q' & err & e' & pos & F1 & F2 & F3 & F4 & F5)]; auto; try lia.
      * exists (FNull 0 q'), [], q'. split; [exact F1|]. split; [exact (left_cut _ _ _ _ _ _ _ d l q None Ho F3)|]. rewrite find_null_end by assumption. rewrite app_nil_r. split; [reflexivity|exact F2].
      * assert (Hstep : forall P, P = (fun r => exists l' pos, left_of (d :: l) q l' /\ read_loop (S fuel) depth s ((c, e_end i) :: up) i chk s cs acc r ipos = Ok (ERR_NONE, Master (with_set i true) chk (rev acc ++ l'), pos) /\ L <= pos) -> P (FElt h 0 q')).
        2:{ specialize (Hstep _ eq_refl). destruct Hstep as (l' & pos' & S1 & S2). exists (FElt h 0 q'), l', pos'. auto. }
        intros P ->. cbv beta. rewrite loop_step. rewrite Hfin. replace (e_end i <? h_end h) with false by lia. cbn [andb]. rewrite F3. cbn [bind].
        destruct F5 as [(G1 & -> & G3)|(-> & G2 & G3 & G4 & G5)].
        -- replace (err =? ERR_NONE) with false by lia. cbn [negb].
           destruct (find_eof s L c (e_end i) up) as (q2 & K1 & K2); auto; try lia. rewrite K1. cbn [bind]. rewrite find_null_end by assumption.
           exists [], q2. split; [exact (left_cut _ _ _ _ _ _ _ d l q None Ho G3)|]. rewrite app_nil_r. split; [reflexivity|exact K2].
        -- cbn [Z.eqb ERR_NONE negb]. replace (eid_of E (einfo e') =? 191) with false by lia. rewrite andb_false_r. cbn [bind]. cbv zeta.
           replace (match cs with CrcNone => match cs with CrcOn _ _ => false | _ => true end | _ => true end) with true by (destruct cs; reflexivity).
           rewrite skip_file by (assumption || lia). cbn [bind]. rewrite G4.
           exists [e']. assert (Hst : crc_status true cs chk = chk) by (destruct cs; try discriminate; reflexivity). rewrite Hst, Hu, andb_false_r.
           destruct (e_end i - (q + zlen b1) <=? 0) eqn:Elast; cbn [andb].
           ++ exists (q + zlen b1). split; [exact (left_cut _ _ _ _ _ _ _ d l q (Some e') Ho G2)|]. cbn [rev]. split; [reflexivity|lia].
           ++ destruct (find_eof s (q + zlen b1) c (e_end i) up) as (q2 & K1 & K2); auto; try lia. rewrite K1. cbn [bind]. rewrite find_null_end by assumption.
              exists q2. split; [exact (left_cut _ _ _ _ _ _ _ d l q (Some e') Ho G2)|]. cbn [rev]. split; [reflexivity|exact K2].
    + destruct (read_back E narrow widen flt_is wd char_signed junk junk0 junkcrc allow Hjunk f Hf Hsmall d fuel (Nat.pred depth) s L c (e_end i) up q b1) as (h & q' & e' & F1 & F2 & F3 & F4 & F5 & F6 & F7 & F8); auto; try lia.
      { intros Hx. congruence. }
      destruct (placed_of d b1 q Hd Ha1) as (hh & nn & Hpl & Hhn); [destruct d; apply Hrd|].
      assert (Hstep : forall P, P = (fun r => exists l' pos, left_of (d :: l) q l' /\ read_loop (S fuel) depth s ((c, e_end i) :: up) i chk s cs acc r ipos = Ok (ERR_NONE, Master (with_set i true) chk (rev acc ++ l'), pos) /\ L <= pos) -> P (FElt h 0 q')).
      2:{ specialize (Hstep _ eq_refl). destruct Hstep as (l' & pos' & S1 & S2). exists (FElt h 0 q'), l', pos'. auto. }
      intros P ->. cbv beta. rewrite loop_step. rewrite Hfin. replace (e_end i <? h_end h) with false by lia. cbn [andb]. rewrite F3. cbn [bind].
      cbn [Z.eqb ERR_NONE negb]. replace (eid_of E (einfo e') =? 191) with false by lia. rewrite andb_false_r. cbn [bind]. cbv zeta.
      replace (match cs with CrcNone => match cs with CrcOn _ _ => false | _ => true end | _ => true end) with true by (destruct cs; reflexivity).
      rewrite skip_file by (assumption || lia). cbn [bind]. rewrite F6. replace (e_end i - (q + zlen b1) <=? 0) with false by lia. cbn [andb].
      destruct (IH Hb fuel depth s i chk cs (e' :: acc) ipos (q + zlen b1)) as (r & l' & pos & G1 & G2 & G3 & G4); auto; try lia.
      rewrite G1. cbn [bind]. rewrite G3. exists (e' :: l'), pos. split.
      * apply left_whole with (h := hh) (n := nn); auto; try lia. replace (q + hh + nn) with (q + zlen b1) by lia. exact G2.
      * cbn [rev]. rewrite <- app_assoc. split; [reflexivity|exact G4].
Qed.

Lemma read_leaf_cut i v c idb szb data fuel depth s chain p :
  e_kind i = Known c -> payload E narrow i v data -> val_ok E i v -> sint_plain E char_signed i v ->
  kind_class E (e_kind i) <> KMaster -> kind_class E (e_kind i) <> KCrc -> e_fin i = true ->
  view s f L -> in_mem s = false -> at_pos f p (idb ++ szb ++ data) -> p + zlen idb + zlen szb <= L < p + zlen (idb ++ szb ++ data) ->
  id_encodes idb (c_id (E c)) -> coded i szb (zlen data) ->
  exists err e' pos, read_data fuel depth s chain (of_hdr E (hdr_at c p idb szb (zlen data))) (p + zlen idb + zlen szb) = Ok (err, e', pos) /\ L <= pos /\
    ((err <> ERR_NONE /\ pos = L /\ rest_of (Leaf i v) p None) \/
     (err = ERR_NONE /\ rest_of (Leaf i v) p (Some e') /\ e_fin (einfo e') = true /\ e_end (einfo e') = p + zlen (idb ++ szb ++ data) /\ e_kind (einfo e') = Known c)).
Proof.
  intros Hk Hp Hv Hpl N1 N2 Hfin Hvw Hm Hat HL Hid Hcod.
  assert (Henc : enc (Leaf i v) (idb ++ szb ++ data)) by (constructor; [unfold eid_of; rewrite Hk; exact Hid|exact Hcod|exact Hp]).
  pose proof Hat as Hat0. apply at_app in Hat. destruct Hat as [Ha1 Ha]. apply at_app in Ha. destruct Ha as [Ha2 Ha3].
  pose proof (zlen_nonneg idb). pose proof (zlen_nonneg szb). pose proof (zlen_nonneg data).
  assert (HvL : 0 <= L <= zlen f) by apply Hvw. assert (Hp0 : 0 <= p) by apply Hat0.
  unfold coded in Hcod. rewrite Hfin in Hcod. destruct Hcod as [Hvs Hnr]. specialize (Hnr eq_refl).
  assert (Hsz : zlen f < 2 ^ 32) by exact Hsmall. assert (Hzd : zlen data <= zlen f) by (destruct Ha3 as (? & ? & _); lia).
  pose proof (pos_data_hdr E narrow widen flt_is junk Hjunk c p idb szb (zlen data) Hvs Hnr ltac:(lia)) as Hpd.
  assert (Hplaced : placed (Leaf i v) p (zlen idb + zlen szb) (zlen data)).
  { exists idb, szb, data. split; [exact Henc|]. split; [destruct Hat0 as (A1 & A2 & A3); repeat split; assumption|]. split; [cbn [einfo]; unfold eid_of; rewrite Hk; exact Hid|]. auto. }
  rewrite !zlen_app in *.
  assert (Hcl : kind_class E (e_kind i) = c_class (E c)) by (rewrite Hk; reflexivity).
  assert (Hof : of_hdr E (hdr_at c p idb szb (zlen data)) = Leaf (mkInfo (Known c) false (class_need (c_class (E c))) true (zlen data) (class_defsz (c_class (E c))) (zlen szb) p (p + zlen idb) (p + zlen idb + zlen szb + zlen data)) (class_val (c_class (E c)))).
  { unfold of_hdr, TreeProofs3.hdr_at. cbn [h_kind kind_class h_fin h_dsize h_szlen h_epos h_spos h_end]. rewrite Hcl in N1. destruct (c_class (E c)); try reflexivity. contradiction. }
  rewrite Hof in *. cbn [einfo] in Hpd. set (i0 := mkInfo _ _ _ _ _ _ _ _ _ _) in *.
  assert (Hrd : read_data fuel depth s chain (Leaf i0 (class_val (c_class (E c)))) (p + zlen idb + zlen szb) = read_leaf E widen char_signed junk junk0 allow false s chain i0 (class_val (c_class (E c))) (p + zlen idb + zlen szb))
    by (destruct fuel; reflexivity).
  rewrite Hrd. clear Hrd. unfold read_leaf. cbv zeta. change (kind_class E (e_kind i0)) with (c_class (E c)).
  destruct (i_read_short s f L (p + zlen idb + zlen szb) (zlen data) Hvw Hm ltac:(lia) ltac:(lia)) as (bs & Hsh).
  destruct (c_class (E c)) eqn:Ec; try contradiction.
  all: try (destruct (leaf_val_ok E narrow widen flt_is wd char_signed junk junk0 Hjunk i v data Hp Hv Hpl N1 N2) as (Hso & _); [rewrite Hcl; discriminate|]; rewrite Hcl in Hso;
    change (position_data (with_set i0 false)) with (position_data i0); rewrite Hpd, (f_seek _ _ _ Hm) by lia;
    replace (p + zlen idb + zlen szb =? INVALID_FILEPOS) with false by (unfold INVALID_FILEPOS; lia);
    change (e_dsize (with_set i0 false)) with (zlen data); rewrite Hso; cbn [negb];
    rewrite Hsh; cbn [bind]; change (ERR_END_OF_FILE =? ERR_NONE) with false; cbn [negb];
    eexists _, _, _; split; [reflexivity|]; split; [lia|]; left; split; [discriminate|]; split; [reflexivity|];
    apply rest_value with (h := zlen idb + zlen szb) (n := zlen data); [exact Hplaced|rewrite Hcl; discriminate|lia]).
  (* Void *)
  rewrite skip_file by (try assumption; try reflexivity; cbn [e_end i0]; lia). cbn [bind]. eexists _, _, _. split; [reflexivity|]. split; [cbn [e_end i0]; lia|]. right. split; [reflexivity|].
  unfold payload in Hp. rewrite Hcl in Hp. destruct v; try (destruct Hp as [_ Hp]; contradiction).
  split; [|cbn [einfo e_fin e_end e_kind i0]; repeat split; lia].
  apply rest_void with (h := zlen idb + zlen szb) (n := zlen data); [exact Hplaced|exact Hcl|lia|].
  repeat split; cbn [einfo e_kind e_epos e_end e_dsize i0]; [symmetry; exact Hk|lia].
Qed.

Lemma read_cut e : cutr e.
Proof.
  revert e. apply (elt_ind2 cutr).
  - intros i v fuel depth s c0 e0 up p bs Hm Hv Hat HL Henc Hrd Hn He Hres.
    inversion Henc as [i1 v1 idb szb data Hid Hcod Hp E1 E2|]; subst i1 v1 bs.
    destruct Hrd as (Hfin & Hval & Hpl & N1 & N2 & N3). cbn [einfo] in *. pose proof Hres as (c & Hkc & _).
    assert (Hid' : id_encodes idb (c_id (E c))) by (unfold eid_of in Hid; rewrite Hkc in Hid; exact Hid).
    pose proof Hcod as Hcod'. unfold coded in Hcod'. rewrite Hfin in Hcod'. destruct Hcod' as [Hvs Hnr]. specialize (Hnr eq_refl).
    pose proof (zlen_nonneg data) as Hzd.
    assert (Hath : at_pos f p (idb ++ szb)) by (rewrite app_assoc in Hat; apply at_app in Hat; apply Hat).
    assert (Hlen : zlen (idb ++ szb ++ data) = zlen idb + zlen szb + zlen data) by (rewrite !zlen_app; lia).
    destruct (Z.lt_ge_cases L (p + zlen idb + zlen szb)) as [Hh|Hh].
    + left. destruct (find_cut s p c0 e0 up (c_id (E c)) idb szb (zlen data)) as (q & Q1 & Q2); auto; try lia.
      exists q. split; [exact Q1|]. split; [exact Q2|]. apply rest_head with (h := zlen idb + zlen szb) (n := zlen data); [|lia].
      exists idb, szb, data. split; [exact Henc|]. split; [destruct Hat as (A1 & A2 & A3); repeat split; assumption|]. split; [exact Hid|]. auto.
    + right. destruct (read_leaf_cut i v c idb szb data fuel depth s ((c0, e0) :: up) p) as (err & e' & pos & R1 & R2 & R3); auto; try lia.
      exists (hdr_at c p idb szb (zlen data)), (p + zlen idb + zlen szb), err, e', pos. split.
      { apply find_head; auto; try lia; [rewrite <- Hkc; exact Hres|]. pose proof (payload_legal E narrow widen flt_is junk Hjunk _ _ _ Hp) as Hl. rewrite Hkc in Hl. exact Hl. }
      split; [cbn [h_end TreeProofs3.hdr_at]; lia|]. split; [exact R1|]. split; [exact R2|].
      destruct R3 as [R3|(R3 & R4 & R5 & R6 & R7)]; [left; exact R3|right]. repeat (split; [assumption|]). unfold eid_of in *. rewrite R7. rewrite Hkc in N3. exact N3.
  - intros i chk ch IH fuel depth s c0 e0 up p bs Hm Hv Hat HL Henc Hrd Hn He Hres.
    pose proof (readable_master E flt_is wd char_signed _ _ _ _ Hrd) as (Hfin & c & Hkc & Hcl & Hid191 & Hck & Hkids).
    inversion Henc as [|i1 chk1 ch1 idb szb body Hid Hcod Hbody E1 E2]; subst i1 chk1 ch1 bs. cbn [einfo] in *.
    assert (Hid' : id_encodes idb (c_id (E c))) by (unfold eid_of in Hid; rewrite Hkc in Hid; exact Hid).
    pose proof (checksum_len chk body) as Hcklen. set (ck := checksum chk body) in *. set (n := zlen (ck ++ body)) in *.
    assert (Hnz : n = zlen ck + zlen body) by apply zlen_app.
    pose proof (zlen_nonneg ck) as Z1. pose proof (zlen_nonneg body) as Z2. pose proof (zlen_nonneg idb) as Z3. pose proof (zlen_nonneg szb) as Z4.
    pose proof Hcod as Hcod'. unfold coded in Hcod'. rewrite Hfin in Hcod'. destruct Hcod' as [Hvs Hnr]. specialize (Hnr eq_refl).
    assert (HLf : 0 <= L <= zlen f) by apply Hv.
    assert (Hlen : zlen (idb ++ szb ++ ck ++ body) = zlen idb + zlen szb + n) by (rewrite !zlen_app; lia).
    assert (Hplaced : placed (Master i chk ch) p (zlen idb + zlen szb) n).
    { exists idb, szb, (ck ++ body). split; [exact Henc|]. split; [destruct Hat as (A1 & A2 & A3); repeat split; assumption|]. split; [exact Hid|]. auto. }
    rewrite Hlen in *. pose proof Hat as Hat1. rewrite app_assoc in Hat1. apply at_app in Hat1. destruct Hat1 as [Hath Hatd].
    assert (Hp0 : 0 <= p) by apply Hath. rewrite zlen_app in Hatd. set (q := p + zlen idb + zlen szb). replace (p + (zlen idb + zlen szb)) with q in Hatd by (unfold q; lia).
    assert (Hnf : n <= zlen f) by (destruct Hatd as (? & ? & _); unfold n, q in *; lia).
    pose proof (pos_data_hdr E narrow widen flt_is junk Hjunk c p idb szb n Hvs Hnr ltac:(lia)) as Hpd. fold q in Hpd.
    destruct (Z.lt_ge_cases L q) as [Hh|Hh].
    { left. destruct (find_cut s p c0 e0 up (c_id (E c)) idb szb n) as (q1 & Q1 & Q2); auto; try (unfold q in *; lia).
      exists q1. split; [exact Q1|]. split; [exact Q2|]. apply rest_head with (h := zlen idb + zlen szb) (n := n); [exact Hplaced|unfold q in *; lia]. }
    right.
    assert (Hof : of_hdr E (hdr_at c p idb szb n) = Master (mkInfo (Known c) false true true n (-1) (zlen szb) p (p + zlen idb) (q + n)) 0 []).
    { unfold of_hdr, TreeProofs3.hdr_at. cbn [h_kind kind_class h_fin h_dsize h_szlen h_epos h_spos h_end]. rewrite Hcl. reflexivity. }
    rewrite Hof in Hpd. cbn [einfo] in Hpd. set (i0 := mkInfo _ _ _ _ _ _ _ _ _ _) in *.
    assert (Hgoal : exists ch' pos, read_data fuel depth s ((c0, e0) :: up) (Master i0 0 []) q = Ok (ERR_NONE, Master (with_set i0 true) 0 ch', pos) /\ L <= pos /\ rest_of (Master i chk ch) p (Some (Master (with_set i0 true) 0 ch'))).
    2:{ destruct Hgoal as (ch' & pos & G1 & G2 & G3). exists (hdr_at c p idb szb n), q, ERR_NONE, (Master (with_set i0 true) 0 ch'), pos.
        split. { unfold q. apply find_head; auto; try (unfold q in *; lia); [rewrite <- Hkc; exact Hres|rewrite Hcl; exact I]. }
        split; [cbn [h_end TreeProofs3.hdr_at]; lia|]. rewrite Hof. split; [exact G1|]. split; [exact G2|]. right. split; [reflexivity|]. split; [exact G3|]. split; [reflexivity|].
        split; [cbn [einfo with_set e_end i0]; unfold q; lia|]. change (c_id (E c) <> 191). unfold eid_of in Hid191. rewrite Hkc in Hid191. exact Hid191. }
    assert (Hkept : forall ch', kept (Master i chk ch) (Master (with_set i0 true) 0 ch') p (zlen idb + zlen szb) n).
    { intros ch'. repeat split; cbn [einfo with_set e_kind e_epos e_end e_dsize i0]; [symmetry; exact Hkc|unfold q; lia]. }
    rewrite need_master in Hn. destruct fuel as [|fuel]; [lia|].
    apply at_app in Hatd. destruct Hatd as [Hatc Hatb]. rewrite Hcklen in Hatb.
    rewrite read_master_eq. cbv zeta. change (e_dsize (with_set i0 false)) with n. change (e_fin (with_set i0 false)) with true. rewrite andb_true_r.
    replace (n <=? 0) with false by (unfold q in *; lia).
    change (position_data (with_set i0 false)) with (position_data i0). rewrite Hpd, (f_seek _ _ _ Hm) by (unfold q; lia).
    replace (q =? INVALID_FILEPOS) with false by (unfold INVALID_FILEPOS, q; lia). change (e_kind (with_set i0 false)) with (Known c). cbv iota beta.
    change (e_end (with_set i0 false)) with (q + n). change (with_set i0 false) with i0.
    destruct (chk =? 0) eqn:Ek.
    + rewrite Z.add_0_r in Hatb.
      destruct (loop_cut c ((c0, e0) :: up) ch body Hbody IH fuel depth s i0 0 CrcNone [] q q) as (r & l' & pos & G1 & G2 & G3 & G4); auto; try (change (e_end i0) with (q + n); unfold q in *; lia).
      change (e_end i0) with (q + n) in *. rewrite G1. cbn [bind]. rewrite G3. exists l', pos. cbn [rev app]. split; [reflexivity|]. split; [exact G4|].
      apply rest_master with (h := zlen idb + zlen szb) (n := n); auto; try (unfold q in *; lia). rewrite Z.add_assoc. exact G2.
    + destruct Hck as [?|(Hdep & cc & Hcc1 & Hcc2 & Hcc3)]; [lia|].
      set (stored := crc32_ieee body) in *. assert (Hst : is_u32 stored) by apply crc32_ieee_u32.
      assert (Hckeq : ck = [191; 132] ++ rev (be_bytes 4 stored)) by (unfold ck, checksum; rewrite Ek; reflexivity).
      destruct fuel as [|fuel]; [lia|].
      assert (Hata : at_pos f q ([191] ++ [132])) by (rewrite Hckeq in Hatc; change ([191; 132] ++ rev (be_bytes 4 stored)) with (([191] ++ [132]) ++ rev (be_bytes 4 stored)) in Hatc; apply at_app in Hatc; apply Hatc).
      assert (Hi191 : id_encodes [191] (c_id (E cc))) by (rewrite Hcc1; split; [apply bytes_ok_forallb; reflexivity|]; split; [|reflexivity]; split; vm_compute; split; congruence).
      assert (Hv132 : vint_spec [132] 4) by (split; [apply bytes_ok_forallb; reflexivity|]; split; [vm_compute; split; discriminate|]; split; [vm_compute; split; congruence|reflexivity]).
      destruct (Z.lt_ge_cases L (q + 2)) as [H2|H2].
      { destruct (find_cut s q c (q + n) ((c0, e0) :: up) (c_id (E cc)) [191] [132] 4) as (q2 & K1 & K2); auto; change (zlen [191]) with 1; change (zlen [132]) with 1; try lia.
        rewrite K1. cbn [bind]. rewrite find_null_end by reflexivity. exists [], q2. split; [reflexivity|]. split; [exact K2|].
        apply rest_sum_cut with (h := zlen idb + zlen szb) (n := n); auto; unfold q in *; lia. }
      assert (Hfc : find_on s q ((c, q + n) :: (c0, e0) :: up) = Ok (FElt (hdr_at cc q [191] [132] 4) 0 (q + 1 + 1))).
      { apply (find_head s q c (q + n) ((c0, e0) :: up) cc [191] [132] 4); auto; change (zlen [191]) with 1; change (zlen [132]) with 1; try lia.
        - vm_compute. discriminate.
        - rewrite Hcc2. reflexivity. }
      rewrite Hfc. cbn [bind]. rewrite loop_step.
      change (e_fin i0) with true. change (e_end i0) with (q + n). replace (q + n <? h_end (hdr_at cc q [191] [132] 4)) with false by (cbn [h_end TreeProofs3.hdr_at]; change (zlen [191]) with 1; change (zlen [132]) with 1; lia).
      cbn [andb].
      destruct (Z.lt_ge_cases L (q + 6)) as [H6|H6].
      * assert (Hof2 : of_hdr E (hdr_at cc q [191] [132] 4) = Leaf (mkInfo (Known cc) false false true 4 (-1) 1 q (q + 1) (q + 1 + 1 + 4)) (VCrc CRC32_NEGL)).
        { unfold of_hdr, TreeProofs3.hdr_at. cbn [h_kind kind_class h_fin h_dsize h_szlen h_epos h_spos h_end]. rewrite Hcc2. reflexivity. }
        rewrite Hof2. set (i2 := mkInfo (Known cc) _ _ _ _ _ _ _ _ _).
        destruct (i_read_short s f L (q + 1 + 1) 4 Hv Hm ltac:(unfold q in *; lia) ltac:(lia)) as (bs & Hsh).
        assert (Hrd2 : read_data fuel (Nat.pred depth) s ((c, q + n) :: (c0, e0) :: up) (Leaf i2 (VCrc CRC32_NEGL)) (q + 1 + 1) = Ok (ERR_END_OF_FILE, Leaf i2 (VCrc CRC32_NEGL), L)).
        { replace (read_data fuel (Nat.pred depth) s ((c, q + n) :: (c0, e0) :: up) (Leaf i2 (VCrc CRC32_NEGL)) (q + 1 + 1)) with
            (read_leaf E widen char_signed junk junk0 allow false s ((c, q + n) :: (c0, e0) :: up) i2 (VCrc CRC32_NEGL) (q + 1 + 1)) by (destruct fuel; reflexivity).
          unfold read_leaf. cbv zeta. change (kind_class E (e_kind i2)) with (c_class (E cc)). rewrite Hcc2, Hsh. reflexivity. }
        rewrite Hrd2. cbn [bind]. change (ERR_END_OF_FILE =? ERR_NONE) with false. cbn [negb].
        destruct (find_eof s L c (q + n) ((c0, e0) :: up)) as (q2 & K1 & K2); auto; try lia. rewrite K1. cbn [bind]. rewrite find_null_end by reflexivity.
        exists [], q2. split; [reflexivity|]. split; [exact K2|]. apply rest_sum_cut with (h := zlen idb + zlen szb) (n := n); auto; unfold q in *; lia.
      * rewrite (read_crc_back E narrow widen flt_is char_signed junk junk0 junkcrc allow Hjunk f cc fuel (Nat.pred depth) s L _ _ _ q stored) by (auto; try (intros Hx; congruence); rewrite <- ?Hckeq; auto).
        cbn [bind]. cbn [Z.eqb ERR_NONE negb].
        set (ic := mkInfo (Known cc) _ _ _ _ _ _ _ _ _). cbn [einfo crc_field crc_first]. change (eid_of E ic) with (c_id (E cc)). rewrite Hcc1.
        replace (Nat.eqb depth 0) with false by (symmetry; apply Nat.eqb_neq; lia). cbn [negb andb Z.eqb Pos.eqb].
        unfold meet_crc. change (e_fin i0) with true. cbn [negb]. rewrite Hm. change (e_end ic) with (q + 1 + 1 + 4). change (e_end i0) with (q + n).
        replace (q + 1 + 1 + 4) with (q + 6) by lia. rewrite (f_seek _ _ _ Hm) by (unfold q; lia).
        destruct (i_read_short s f L (q + 6) (q + n - (q + 6)) Hv Hm ltac:(unfold q in *; lia) ltac:(unfold q in *; lia)) as (bs & Hsh). rewrite Hsh. cbn [bind].
        change (ERR_END_OF_FILE =? ERR_NONE) with false. cbn [negb bind]. cbv zeta. cbv iota.
        rewrite skip_file by (try assumption; try reflexivity; change (e_end ic) with (q + 1 + 1 + 4); unfold q; lia). cbn [bind]. change (e_end ic) with (q + 1 + 1 + 4).
        replace (q + 1 + 1 + 4) with (q + 6) by lia. replace (q + n - (q + 6) <=? 0) with false by (unfold q in *; lia).
        destruct (loop_cut c ((c0, e0) :: up) ch body Hbody IH fuel depth s i0 0 CrcOff [Leaf ic (VCrc stored)] L (q + 6)) as (r & l' & pos & G1 & G2 & G3 & G4); auto; try (change (e_end i0) with (q + n); unfold q in *; lia).
        change (e_end i0) with (q + n) in *. rewrite G1. cbn [bind]. rewrite G3. exists (Leaf ic (VCrc stored) :: l'), pos. cbn [rev app]. split; [reflexivity|]. split; [exact G4|].
        apply rest_sum with (h := zlen idb + zlen szb) (n := n); auto; try (unfold q in *; lia).
        { cbn [e_epos ic]. unfold q. lia. }
        { rewrite Z.add_assoc. exact G2. }
Qed.
End Rd.
