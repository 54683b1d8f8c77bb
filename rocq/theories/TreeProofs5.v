(** Reading arbitrary bytes: termination and memory safety. *)
From Verif Require Import Base BaseProofs VintSpec EbmlIdSpec CrcSpec IntEltSpec Vint VintProofs EbmlId EbmlIdProofs IntElt IntEltProofs
  Crc CrcProofs EltHead Void VoidSpec VoidProofs Ebml Arr ArrProofs ArrProofs2 Stream StreamProofs Finder FinderSpec FinderProofs FinderProofs2 FinderProofs3 FinderProofs4
  Tree TreeRead TreeSpec TreeProofs3.

(** Some context of the chain has no end. *)
Definition endless (chain : list pctx) : Prop := exists i, (i < length chain)%nat /\ ctx_end chain i = -1.
Lemma endless_cons p chain : endless chain -> endless (p :: chain).
Proof. intros (i & H1 & H2). exists (S i). split; [cbn [length]; lia|exact H2]. Qed.
Lemma endless_open chain start : endless chain -> exists k, open_ctx chain start k /\ (ctx_end chain k = -1 \/ start <= ctx_end chain k).
Proof.
  intros (i & Hi & He). induction chain as [|[c e] chain IH] in i, Hi, He |- *; [cbn in Hi; lia|].
  destruct (Z.eq_dec e (-1)) as [->|Hne].
  { exists O. split; [|left; reflexivity]. split; [cbn; lia|]. split; [intros; lia|]. right; left; reflexivity. }
  destruct (Z_lt_le_dec start e) as [Hlt|Hle].
  { exists O. split; [|right; unfold ctx_end; cbn [nth_error]; lia]. split; [cbn; lia|]. split; [intros; lia|]. right; right; exact Hlt. }
  destruct i as [|i]; [unfold ctx_end in He; cbn [nth_error] in He; lia|].
  destruct (IH i) as (k & (K1 & K2 & K3) & K4); [cbn [length] in Hi; lia|exact He|].
  exists (S k). split; [|exact K4]. split; [cbn [length]; lia|]. split; [|destruct K3 as [K3|K3]; [left; cbn [length]; lia|right; exact K3]].
  intros [|j] Hj; [unfold ctx_end; cbn [nth_error]; lia|]. apply (K2 j). lia.
Qed.

Section Safe.
Context (E : schema) (widen : Z -> Z) (char_signed : bool) (junk : Z -> list Z) (junk0 junkcrc : Z) (allow nodata : bool).
Context (Hjunk : forall p, zlen (junk p) = 16 /\ bytes_ok (junk p)).
(** No master has the ID of the CRC-32 element. *)
Context (H191 : forall c, c_id (E c) = 191 -> c_class (E c) <> KMaster).
Context (N : Z) (HN : N < 2 ^ 32).
Notation find_on := (find_on E junk allow).
Notation read_data := (read_data E widen char_signed true junk junk0 junkcrc allow nodata).
Notation read_loop := (read_loop E widen char_signed true junk junk0 junkcrc allow nodata).
Notation skip_data := (skip_data E junk allow).

Definition good (s : ist) : Prop := bytes_ok (in_data s) /\ zlen (in_data s) <= N.
Definition hdr_ok (h : hdr) (q : Z) : Prop :=
  h_epos h + 1 <= h_spos h /\ q = h_spos h + h_szlen h /\ 1 <= h_szlen h <= 8 /\
  (if h_fin h then 0 <= h_dsize h /\ h_end h = q + h_dsize h else exists c, h_kind h = Known c /\ c_class (E c) = KMaster).
(** What the finder returns for a search from [st]. *)
Definition found (s : ist) (st : Z) (r : fres) : Prop :=
  match r with
  | FElt h u q => st <= h_epos h /\ hdr_ok h q /\ q <= zlen (in_data s) /\ 0 <= u
  | FNull u q => st <= q
  | FBad => False
  end.

Lemma find_good s pos chain : good s -> 0 <= pos -> in_reach s pos -> endless chain -> exists r, find_on s pos chain = Ok r /\ found s pos r.
Proof.
  intros [Hb Hl] Hp Hr He. unfold TreeRead.find_on. rewrite reach_cond by assumption. destruct (Hjunk pos) as [J1 J2].
  destruct (endless_open chain pos He) as (k & K1 & K2).
  destruct (find_next_total E (junk pos) (in_data s) pos chain 0 allow Hb J1 J2 Hp) as (r & Hr1 & Hr2).
  { destruct He as (i & Hi & _). intros ->. cbn in Hi. lia. }
  rewrite Hr1. pose proof (find_next_sound E (junk pos) (in_data s) pos chain 0 allow k r Hb J1 J2 Hp ltac:(unfold small_file; lia) K1 K2 Hr1) as Hs.
  destruct r as [u q|h u q|]; [|..|contradiction]; eexists; (split; [reflexivity|]).
  - cbn [found]. lia.
  - destruct Hs as [(id & n & v & m & j & kd & low & A1 & A2 & A3 & A4 & A5 & A6 & A7 & A8 & A9 & A10 & A11 & A12 & A13 & A14 & B1 & B2 & B3 & B4 & B5 & B6 & B7 & B8 & B9 & B10) _].
    destruct A6 as (_ & Hm & Hv & _). rewrite A7 in Hm. cbn [found]. split; [exact A1|]. split; [|split; [exact A2|lia]].
    unfold hdr_ok. rewrite A9, A11. split; [lia|]. split; [lia|]. split; [exact Hm|]. rewrite A14, A13.
    destruct (h_fin h) eqn:Ef; [split; lia|].
    rewrite ?Ef in B10. destruct (h_kind h) as [c|d]; [|discriminate B10]. exists c. split; [reflexivity|]. cbn [kind_class] in B10.
    destruct (c_class (E c)); try discriminate B10. reflexivity.
Qed.

(** The fields an element made from a header keeps while it is read. *)
Definition like (h : hdr) (i : info) : Prop :=
  e_kind i = h_kind h /\ e_fin i = h_fin h /\ e_end i = h_end h /\ e_spos i = h_spos h /\ e_szlen i = h_szlen h /\ e_dsize i = h_dsize h.
Lemma of_hdr_like h : like h (einfo (of_hdr E h)).
Proof. unfold of_hdr. destruct (kind_class E (h_kind h)); repeat split. Qed.
Lemma like_set h i b : like h i -> like h (with_set i b).
Proof. intros H. exact H. Qed.
Lemma like_pos h q i : hdr_ok h q -> like h i -> h_epos h + 2 <= position_data i.
Proof.
  intros (H1 & H2 & H3 & H4) (L1 & L2 & L3 & L4 & L5 & L6). unfold position_data. rewrite L2, L4, L5, L6. destruct (h_fin h); cbn [negb].
  - pose proof (csl_range (h_dsize h) (h_szlen h) ltac:(lia) ltac:(lia)). lia.
  - replace (h_szlen h =? 0) with false by lia. lia.
Qed.

(** Streams and positions a read may go on from. *)
Lemma seek_ge s p cur lo : 0 <= lo <= p -> lo <= cur -> lo <= zlen (in_data s) -> let '(sk, q) := i_seek s p cur in lo <= q /\ sk <> INVALID_FILEPOS.
Proof.
  intros H1 H2 H3. unfold i_seek. destruct (in_mem s).
  - replace (p <? 0) with false by lia. unfold INVALID_FILEPOS. destruct (zlen (in_data s) <? p) eqn:El; lia.
  - replace (p <? 0) with false by lia. unfold INVALID_FILEPOS. lia.
Qed.
Lemma read_ge s p n : 0 <= n -> in_reach s p -> exists err bs, i_read s p n = Ok (err, bs, p + zlen bs) /\ (err = ERR_NONE -> zlen bs = n) /\
  (err = ERR_NONE -> n = 0 \/ p + n <= zlen (in_data s)).
Proof.
  intros Hn Hr. unfold i_read. rewrite reach_cond by assumption. rewrite orb_false_r. replace (n <? 0) with false by lia. eexists _, _. split; [reflexivity|].
  set (bs := firstn _ _). assert (Hb : zlen bs <= n) by (unfold bs, zlen; rewrite firstn_length; lia). split.
  - destruct (zlen bs <? n) eqn:El; [discriminate|lia].
  - destruct (zlen bs <? n) eqn:El; [discriminate|]. intros _. destruct (Z.eq_dec n 0); [left; assumption|right].
    assert (zlen bs = n) as Hbn by lia. unfold bs, zlen in Hbn. rewrite firstn_length, skipn_length in Hbn. unfold zlen. lia.
Qed.

(** An outcome at or after [lo], with an element of header [h]; a NULL dereference is not excluded. *)
Definition fine (h : hdr) (lo : Z) (r : res (Z * elt * Z)) : Prop :=
  match r with Ok (err, e, p) => like h (einfo e) /\ lo <= p | Null => True | _ => False end.

Lemma skip_fine s chain h q i pos lo : good s -> hdr_ok h q -> like h i -> endless chain -> 0 <= lo -> lo <= pos -> lo <= q -> in_reach s lo -> q <= zlen (in_data s) ->
  exists p, skip_data s chain i pos = Ok p /\ lo <= p.
Proof.
  intros Hg Hh Hi He H0 Hp Hq Hr Hqs. pose proof Hi as (L1 & L2 & L3 & L4 & L5 & L6). unfold TreeRead.skip_data. rewrite L2. destruct (h_fin h) eqn:Ef.
  - rewrite L3. destruct Hh as (_ & _ & _ & Hh). rewrite Ef in Hh. pose proof (seek_ge s (h_end h) pos lo ltac:(lia) Hp ltac:(lia)) as Hs. destruct (i_seek s (h_end h) pos) as [sk p]. exists p. split; [reflexivity|apply Hs].
  - destruct (find_good s pos chain Hg ltac:(lia)) as (r & -> & Hf); [intros Hm; specialize (Hr Hm); lia|exact He|]. cbn [bind]. destruct r as [u p|h' u p|]; cbn [found] in Hf; [eexists; split; [reflexivity|lia]| |contradiction].
    destruct Hf as (F1 & F2 & F3 & _). pose proof (like_pos h' p _ F2 (of_hdr_like h')) as Hpd. pose proof F2 as (G1 & G2 & G3 & _).
    pose proof (seek_ge s (position_data (einfo (of_hdr E h'))) p lo ltac:(lia) ltac:(lia) ltac:(lia)) as Hs. destruct (i_seek s _ p) as [sk p']. eexists. split; [reflexivity|apply Hs].
Qed.

Lemma leaf_fine s chain h q pos : good s -> hdr_ok h q -> q <= zlen (in_data s) -> endless chain -> 0 <= h_epos h -> h_epos h + 2 <= pos -> in_reach s (h_epos h + 2) ->
  forall i v, like h i -> kind_class E (e_kind i) <> KMaster ->
  fine h (h_epos h + 2) (read_leaf E widen char_signed junk junk0 allow nodata s chain i v pos).
Proof.
  intros Hg Hh Hqs He H0 Hp Hr i v Hi Hk. set (lo := h_epos h + 2) in *. pose proof Hh as (G1 & G2 & G3 & G4). pose proof Hi as (L1 & L2 & L3 & L4 & L5 & L6).
  assert (Hfin : h_fin h = true).
  { destruct (h_fin h); [reflexivity|]. destruct G4 as (c & Hc1 & Hc2). rewrite L1, Hc1 in Hk. contradiction. }
  rewrite Hfin in G4. unfold read_leaf. cbv zeta.
  assert (Hgen : forall i, like h i -> fine h lo
    (if nodata then Ok (ERR_NONE, Leaf i v, pos)
     else let '(sk, p) := i_seek s (position_data i) pos in
          if sk =? INVALID_FILEPOS then Ok (ERR_READ, Leaf i v, p)
          else if negb (leaf_size_ok (kind_class E (e_kind i)) (e_dsize i)) then Ok (ERR_INVALID_DATA, Leaf i v, p)
          else do r <- i_read s p (e_dsize i);
               let '(err, bs, p) := r in
               if negb (err =? ERR_NONE) then Ok (err, Leaf i v, p)
               else match leaf_val widen char_signed junk0 (kind_class E (e_kind i)) bs with
                    | Some v => Ok (ERR_NONE, Leaf (with_set i true) v, p)
                    | None => Ok (ERR_INVALID_DATA, Leaf i v, p)
                    end)).
  { clear i Hi Hk L1 L2 L3 L4 L5 L6. intros i Hi. pose proof Hi as (L1 & L2 & L3 & L4 & L5 & L6).
    destruct nodata; [split; [exact Hi|exact Hp]|]. pose proof (like_pos h q i Hh Hi) as Hpd.
    pose proof (seek_ge s (position_data i) pos lo ltac:(lia) Hp ltac:(lia)) as Hs. destruct (i_seek s (position_data i) pos) as [sk p]. destruct Hs as [Hs Hsk].
    destruct (sk =? INVALID_FILEPOS); [split; [exact Hi|exact Hs]|]. destruct (negb (leaf_size_ok _ _)); [split; [exact Hi|exact Hs]|].
    destruct (read_ge s p (e_dsize i) ltac:(lia)) as (err & bs & -> & _); [intros Hm; specialize (Hr Hm); lia|]. cbn [bind]. pose proof (zlen_nonneg bs).
    destruct (negb (err =? ERR_NONE)); [split; [exact Hi|lia]|]. destruct (leaf_val _ _ _ _ _); (split; [exact Hi|lia]). }
  specialize (Hgen (with_set i false) (like_set h i false Hi)).
  change (e_kind (with_set i false)) with (e_kind i) in Hgen.
  destruct (kind_class E (e_kind i)) eqn:Ek; rewrite ?Ek in Hgen; try exact Hgen.
  - destruct (skip_fine s chain h q i pos lo Hg Hh Hi He ltac:(lia) Hp ltac:(lia) Hr Hqs) as (p & -> & Hp'). cbn [bind]. split; [exact Hi|exact Hp'].
  - destruct (read_ge s pos 4 ltac:(lia)) as (err & bs & -> & Hb & _); [intros Hm; specialize (Hr Hm); lia|]. cbn [bind]. pose proof (zlen_nonneg bs).
    destruct (err =? ERR_NONE) eqn:Ee; [|split; [exact Hi|lia]]. specialize (Hb ltac:(lia)).
    destruct bs as [|b0 [|b1 [|b2 [|b3 [|b4 bs]]]]]; try (exfalso; rewrite ?zlen_cons in Hb; change (zlen (@nil Z)) with 0 in Hb; pose proof (zlen_nonneg bs); lia); try (exfalso; vm_compute in Hb; discriminate Hb).
    cbn [crc_read opt_res bind]. split; [exact Hi|lia].
Qed.

Lemma loop_eq_n fuel depth inp chain i chk rs cs acc r ipos :
  read_loop (S fuel) depth inp chain i chk rs cs acc r ipos =
  match r with
  | FBad => Bad
  | FNull u p => if 0 <? u then Null else Ok (ERR_NONE, Master (with_set i true) (crc_status true cs chk) (rev acc), if negb (in_mem inp) && used cs then ipos else p)
  | FElt h u p =>
      if 0 <? u then Ok (ERR_NONE, Master (with_set i true) (crc_status true cs chk) (rev acc), snd (i_seek inp (h_epos h) (if negb (in_mem inp) && used cs then ipos else p)))
      else if e_fin i && (e_end i <? h_end h) then Ok (ERR_NONE, Master (with_set i true) (crc_status true cs chk) (rev acc), if negb (in_mem inp) && used cs then ipos else p)
      else
        do t <- read_data fuel (Nat.pred depth) rs chain (of_hdr E h) p;
        let '(err, e, p) := t in
        if negb (err =? ERR_NONE) then do r <- find_on rs p chain; read_loop fuel depth inp chain i chk rs cs acc r ipos
        else
          do m <- (if crc_first cs && negb (Nat.eqb depth 0) && negb nodata && (eid_of E (einfo e) =? 191)
                   then meet_crc E inp i (einfo e) (crc_field junkcrc e) p else Ok (cs, rs, ipos, p));
          let '(cs', rs', ipos', p) := m in
          let kept := match cs, cs' with CrcNone, CrcOn _ _ => false | _, _ => true end in
          let acc := if kept then e :: acc else acc in
          do p <- skip_data rs' chain (einfo e) p;
          if e_fin i && (e_end i - e_end (einfo e) <=? 0)
          then Ok (ERR_NONE, Master (with_set i true) (crc_status true cs' chk) (rev acc), if negb (in_mem inp) && used cs' then ipos' else p)
          else do r <- find_on rs' p chain; read_loop fuel depth inp chain i chk rs' cs' acc r ipos'
  end.
Proof. reflexivity. Qed.
Lemma loop_eq_0 depth inp chain i chk rs cs acc r ipos :
  read_loop O depth inp chain i chk rs cs acc r ipos =
  match r with
  | FBad => Bad
  | FNull u p => if 0 <? u then Null else Ok (ERR_NONE, Master (with_set i true) (crc_status true cs chk) (rev acc), if negb (in_mem inp) && used cs then ipos else p)
  | FElt h u p =>
      if 0 <? u then Ok (ERR_NONE, Master (with_set i true) (crc_status true cs chk) (rev acc), snd (i_seek inp (h_epos h) (if negb (in_mem inp) && used cs then ipos else p)))
      else if e_fin i && (e_end i <? h_end h) then Ok (ERR_NONE, Master (with_set i true) (crc_status true cs chk) (rev acc), if negb (in_mem inp) && used cs then ipos else p)
      else Fuel
  end.
Proof. reflexivity. Qed.
Lemma master_eq fuel depth s chain i chk l pos :
  read_data (S fuel) depth s chain (Master i chk l) pos =
  let i := with_set i false in
  if (e_dsize i <=? 0) && e_fin i then Ok (ERR_NONE, Master (with_set i true) chk [], pos)
  else
    let '(sk, pos) := i_seek s (position_data i) pos in
    if sk =? INVALID_FILEPOS then Ok (ERR_END_OF_FILE, Master i chk [], pos)
    else match e_kind i with
    | Dummy _ => Bad
    | Known c => do r <- find_on s pos ((c, e_end i) :: chain); read_loop fuel depth s ((c, e_end i) :: chain) i chk s CrcNone [] r pos
    end.
Proof. reflexivity. Qed.

(** Checksums are only looked for in a file, one level down. *)
Definition crc_mode (depth : nat) (inp : ist) : Prop := depth = O \/ (depth = 1%nat /\ in_mem inp = false).

(** A checksum element met in a file. *)
Lemma meet_fine inp hc i ic stored p lo : good inp -> in_mem inp = false -> like hc ic -> h_fin hc = true -> 0 <= lo -> lo <= h_end hc -> lo <= p ->
  (e_fin i = true -> h_end hc <= e_end i) ->
  exists cs rs ip p', meet_crc E inp i ic stored p = Ok (cs, rs, ip, p') /\ lo <= ip /\
    ((rs = inp /\ used cs = false) \/
     (used cs = true /\ e_fin i = true /\
      (e_end i = h_end hc \/ exists d, rs = mkIn true (h_end hc) d /\ bytes_ok d /\ h_end hc <= zlen d <= zlen (in_data inp)))).
Proof.
  intros Hg Hm (L1 & L2 & L3 & L4 & L5 & L6) Hf H0 He Hp Hi. unfold meet_crc. destruct (e_fin i) eqn:Ef; cbn [negb].
  2:{ exists CrcOff, inp, p, p. split; [reflexivity|]. split; [exact Hp|]. left. split; reflexivity. }
  specialize (Hi eq_refl). rewrite Hm, L3. unfold i_seek. rewrite Hm. replace (h_end hc <? 0) with false by lia. cbv iota beta.
  destruct (read_ge inp (h_end hc) (e_end i - h_end hc) ltac:(lia)) as (err & bs & -> & Hb1 & Hb2); [intros Hm'; congruence|]. cbn [bind]. pose proof (zlen_nonneg bs).
  destruct (err =? ERR_NONE) eqn:Ee; cbn [negb].
  - specialize (Hb1 ltac:(lia)). specialize (Hb2 ltac:(lia)). eexists _, _, _, _. split; [reflexivity|]. split; [lia|]. right. split; [reflexivity|]. split; [reflexivity|].
    destruct Hb2 as [Hb2|Hb2]; [left; lia|right]. eexists. split; [reflexivity|]. split; [apply bytes_ok_firstn, Hg|]. rewrite zlen_firstn by lia. lia.
  - eexists _, _, _, _. split; [reflexivity|]. split; [lia|]. left. split; reflexivity.
Qed.

Lemma used_mode cs : crc_first cs = true -> cs = CrcNone.
Proof. destruct cs; try discriminate. reflexivity. Qed.

Lemma read_safe : forall fuel,
  (forall depth s chain h q, good s -> hdr_ok h q -> q <= zlen (in_data s) -> 0 <= h_epos h -> endless chain -> in_reach s (h_epos h + 2) -> crc_mode depth s ->
     zlen (in_data s) - (h_epos h + 2) + 1 <= Z.of_nat fuel -> fine h (h_epos h + 2) (read_data fuel depth s chain (of_hdr E h) q)) /\
  (forall depth inp chain h i chk rs cs acc r ipos st lo, good inp -> good rs -> zlen (in_data rs) <= zlen (in_data inp) -> (used cs = false -> rs = inp) ->
     like h i -> endless chain -> 0 <= lo <= st -> lo <= ipos -> in_reach rs st -> found rs st r -> crc_mode depth inp ->
     zlen (in_data rs) - st <= Z.of_nat fuel -> fine h lo (read_loop fuel depth inp chain i chk rs cs acc r ipos)).
Proof.
  induction fuel as [|fuel [IHd IHl]]; split.
  - intros depth s chain h q Hg Hh Hq H0 He Hr Hm Hfu. destruct Hh as (G1 & G2 & G3 & _). lia.
  - intros depth inp chain h i chk rs cs acc r ipos st lo Hgi Hgr Hz Hus Hi He Hlo Hip Hr Hf Hm Hfu. rewrite loop_eq_0. destruct r as [u p|h' u p|]; cbn [found] in Hf; [|..|contradiction].
    + destruct (0 <? u); [exact I|]. split; [exact Hi|]. destruct (negb (in_mem inp) && used cs); lia.
    + exfalso. destruct Hf as (F1 & (G1 & G2 & G3 & _) & F3 & _). lia.
  - intros depth s chain h q Hg Hh Hq H0 He Hr Hm Hfu.
    pose proof (of_hdr_like h) as Hlike. pose proof (like_pos h q _ Hh Hlike) as Hpd. pose proof Hh as (G1 & G2 & G3 & G4).
    destruct (of_hdr E h) as [i v|i chk l] eqn:Eof.
    + assert (Hk : kind_class E (e_kind i) <> KMaster).
      { unfold of_hdr in Eof. destruct (kind_class E (h_kind h)) eqn:Ek; try discriminate Eof; injection Eof as <- _; cbn [e_kind]; rewrite Ek; discriminate. }
      exact (leaf_fine s chain h q q Hg Hh Hq He H0 ltac:(lia) Hr i v Hlike Hk).
    + assert (Hk : exists c, h_kind h = Known c).
      { unfold of_hdr in Eof. destruct (h_kind h) as [c|d] eqn:Ek; [eauto|]. cbn [kind_class] in Eof. discriminate Eof. }
      destruct Hk as (c & Hk). cbn [einfo] in *. rewrite master_eq. cbv zeta. pose proof Hlike as (L1 & L2 & L3 & L4 & L5 & L6).
      destruct ((e_dsize (with_set i false) <=? 0) && e_fin (with_set i false)); [split; [exact Hlike|lia]|].
      change (position_data (with_set i false)) with (position_data i).
      pose proof (seek_ge s (position_data i) q (h_epos h + 2) ltac:(lia) ltac:(lia) ltac:(lia)) as Hs. destruct (i_seek s (position_data i) q) as [sk p]. destruct Hs as [Hs Hsk].
      destruct (sk =? INVALID_FILEPOS) eqn:Esk; [lia|]. change (e_kind (with_set i false)) with (e_kind i). rewrite L1, Hk. change (e_end (with_set i false)) with (e_end i).
      assert (Hrp : in_reach s p) by (intros Hme; specialize (Hr Hme); lia).
      destruct (find_good s p ((c, e_end i) :: chain) Hg ltac:(lia) Hrp (endless_cons _ _ He)) as (r & -> & Hf). cbn [bind].
      apply IHl with (st := p); auto; try lia. apply endless_cons. exact He.
  - intros depth inp chain h i chk rs cs acc r ipos st lo Hgi Hgr Hz Hus Hi He Hlo Hip Hr Hf Hm Hfu. rewrite loop_eq_n. destruct r as [u p|h' u p|]; cbn [found] in Hf; [|..|contradiction].
    + destruct (0 <? u); [exact I|]. split; [exact Hi|]. destruct (negb (in_mem inp) && used cs); lia.
    + destruct Hf as (F1 & Hh' & F3 & F4). pose proof Hh' as (G1 & G2 & G3 & G4).
      assert (Hcur : lo <= if negb (in_mem inp) && used cs then ipos else p) by (destruct (negb (in_mem inp) && used cs); lia).
      destruct (0 <? u).
      { split; [exact Hi|]. pose proof (seek_ge inp (h_epos h') _ lo ltac:(lia) Hcur ltac:(lia)) as Hs. destruct (i_seek inp (h_epos h') _) as [sk x]. apply Hs. }
      destruct (e_fin i && (e_end i <? h_end h')) eqn:Eend; [split; [exact Hi|exact Hcur]|].
      assert (Hr2 : in_reach rs (h_epos h' + 2)) by (intros Hme; specialize (Hr Hme); lia).
      assert (Hm0 : crc_mode (Nat.pred depth) rs) by (left; destruct Hm as [->|[-> _]]; reflexivity).
      pose proof (IHd (Nat.pred depth) rs chain h' p Hgr Hh' F3 ltac:(lia) He Hr2 Hm0 ltac:(lia)) as Hd.
      destruct (read_data fuel (Nat.pred depth) rs chain (of_hdr E h') p) as [| | |[[err e] p1]]; cbn [fine] in Hd; [contradiction..|exact I|]. cbn [bind]. destruct Hd as [Hle Hp1].
      assert (Hnext : forall rs' cs' acc' ipos' p', good rs' -> zlen (in_data rs') <= zlen (in_data rs) -> (used cs' = false -> rs' = inp) -> lo <= ipos' -> h_epos h' + 2 <= p' -> in_reach rs' p' ->
        fine h lo (do r <- find_on rs' p' chain; read_loop fuel depth inp chain i chk rs' cs' acc' r ipos')).
      { intros rs' cs' acc' ipos' p' N1 N2 N3 N4 N5 N6. destruct (find_good rs' p' chain N1 ltac:(lia) N6 He) as (r & -> & Hf). cbn [bind].
        apply IHl with (st := p'); auto; lia. }
      destruct (negb (err =? ERR_NONE)).
      { apply Hnext; auto; try lia. intros Hme. specialize (Hr2 Hme). lia. }
      destruct (crc_first cs && negb (Nat.eqb depth 0) && negb nodata && (eid_of E (einfo e) =? 191)) eqn:Ecrc.
      * (* a checksum element *)
        rewrite !andb_true_iff in Ecrc. destruct Ecrc as (((C1 & C2) & _) & C4). apply used_mode in C1. subst cs. specialize (Hus eq_refl). subst rs.
        assert (Hfile : in_mem inp = false) by (destruct Hm as [->|[_ Hm]]; [discriminate C2|exact Hm]).
        pose proof Hle as (L1 & L2 & L3 & L4 & L5 & L6).
        assert (Hfin : h_fin h' = true).
        { destruct (h_fin h'); [reflexivity|]. destruct G4 as (c & Hc1 & Hc2). apply Z.eqb_eq in C4. unfold eid_of in C4. rewrite L1, Hc1 in C4. cbn [kind_id] in C4. exfalso. exact (H191 c C4 Hc2). }
        rewrite Hfin in G4.
        destruct (meet_fine inp h' i (einfo e) (crc_field junkcrc e) p1 (h_epos h' + 2) Hgi Hfile Hle Hfin ltac:(lia) ltac:(lia) Hp1) as (cs' & rs' & ip & p2 & -> & Hip' & Hcase).
        { intros Hfi. rewrite Hfi in Eend. cbn [andb] in Eend. lia. }
        cbn [bind]. cbv zeta. unfold TreeRead.skip_data. rewrite L2, Hfin, L3. cbn [bind]. destruct Hcase as [[-> Hu]|(Hu & Hif & Hcase)].
        -- unfold i_seek. rewrite Hfile. replace (h_end h' <? 0) with false by lia. cbn [snd].
           destruct (e_fin i && (e_end i - h_end h' <=? 0)).
           ++ split; [exact Hi|]. rewrite Hu. cbn [negb andb]. lia.
           ++ apply Hnext; auto; try lia. intros Hme. congruence.
        -- rewrite Hif. cbn [andb]. destruct (e_end i - h_end h' <=? 0) eqn:Ed.
           ++ split; [exact Hi|]. rewrite Hfile, Hu. cbn [negb andb]. lia.
           ++ destruct Hcase as [Hcase|(d & -> & Hd1 & Hd2)]; [lia|]. unfold i_seek. cbn [in_mem in_data].
              replace (h_end h' <? 0) with false by lia. replace (zlen d <? h_end h') with false by lia. cbn [snd].
              apply Hnext; auto; try lia.
              ** split; [exact Hd1|cbn [in_data]; destruct Hgi; lia].
              ** cbn [in_data]. lia.
              ** rewrite Hu. discriminate.
              ** intros _. cbn [in_lo]. lia.
      * cbn [bind]. cbv zeta.
        destruct (skip_fine rs chain h' p (einfo e) p1 (h_epos h' + 2) Hgr Hh' Hle He ltac:(lia) Hp1 ltac:(lia) Hr2 F3) as (p2 & -> & Hp2). cbn [bind].
        destruct (e_fin i && (e_end i - e_end (einfo e) <=? 0)).
        -- split; [exact Hi|]. destruct (negb (in_mem inp) && used cs); lia.
        -- apply Hnext; auto; try lia. intros Hme. specialize (Hr2 Hme). lia.
Qed.
End Safe.
