(** Reading files that end too early. *)
From Verif Require Import Base BaseProofs VintSpec EbmlIdSpec CrcSpec IntEltSpec Vint VintProofs EbmlId EbmlIdProofs IntElt IntEltProofs
  Crc CrcProofs EltHead Void VoidSpec VoidProofs Ebml Arr ArrProofs ArrProofs2 Stream StreamProofs Finder FinderSpec FinderProofs FinderProofs2 FinderProofs3 FinderProofs4
  Tree TreeRead TreeSpec TreeProofs TreeProofs2 TreeProofs3.

(** A first byte that announces [n] bytes. *)
Definition lead (b n : Z) : Prop := is_byte b /\ 1 <= b /\ 8 - Z.log2 b = n.

(** The first byte there is announces [n] bytes: it is found with them, or the file ends. *)
Lemma id_start file start e n : bytes_ok file -> small_file file start -> 0 <= start -> 1 <= n <= 4 -> (forall b, rd_byte file start = Some b -> lead b n) -> (e = -1 \/ start + n <= e) ->
  forall fuel s, inv file start s -> base s = start -> f_ri s <= n -> Z.max 0 (zlen file - f_pos s) < Z.of_nat fuel ->
  if start + n <=? zlen file then exists s1, id_loop fuel file start e s = Some (IdFound s1) /\ inv file start s1 /\ base s1 = start /\ f_pidl s1 = n /\ f_ri s1 = n
  else exists q, id_loop fuel file start e s = Some (IdEof q) /\ zlen file <= q.
Proof.
  intros Hok Hsm H0 Hn Hl He. induction fuel as [|fl IH]; intros s Hi Hb Hr Hfu; [lia|].
  cbn [id_loop]. destruct (rd_0 _ _ _ Hi) as (b0 & Hr0 & Hbb). rewrite Hr0. rewrite scan_id_ok by (auto; lia).
  assert (Hri0 : 0 <= f_ri s) by apply Hi. replace (Z.of_nat (Z.to_nat (Z.min (f_ri s) 4))) with (f_ri s) by lia.
  assert (Hsame : 1 <= f_ri s -> lead b0 n).
  { intros E2. apply Hl. pose proof (inv_nth file start s 0 Hi ltac:(lia)) as H. change (Z.to_nat 0) with O in H. rewrite Z.add_0_r, Hb in H. unfold rd_byte. rewrite <- H. exact Hr0. }
  unfold base in *. destruct ((1 <=? b0) && (8 - Z.log2 b0 <=? f_ri s)) eqn:Em.
  - assert (Hq1 : 1 <= f_ri s) by (destruct (byte_log2 b0 Hbb ltac:(lia)); lia). destruct (Hsame ltac:(lia)) as (_ & L1 & L2). assert (Hq2 : f_ri s = n) by lia.
    pose proof Hi as (H1 & H2 & H3 & H4 & H5 & H6 & H7 & H8). replace (start + n <=? zlen file) with true by lia. eexists. split; [reflexivity|]. rewrite L2. cbn [f_pidl f_ri f_pos].
    split; [|lia]. red. cbn [f_buf f_ri f_rs f_pidl f_pos]. repeat (split; [assumption || lia|]). exact H8.
  - assert (Hlt : f_ri s < n). { destruct (Z.eq_dec (f_ri s) n) as [Eq|]; [|lia]. destruct (Hsame ltac:(lia)) as (_ & L1 & L2). lia. }
    rewrite (inv_rs _ _ _ Hi Hsm). replace (e =? start + (f_pos s - start)) with false by lia. replace (4 <=? f_ri s) with false by lia.
    destruct (rd_byte file (f_pos s)) as [c|] eqn:Eb.
    + destruct (push_ok file start s c Hok Hi ltac:(lia) Eb) as (buf & Hpu & Hi2). rewrite Hpu. rewrite (inv_rs _ _ _ Hi Hsm) in Hi2.
      apply rd_byte_lt in Eb; [|pose proof Hi as (_ & _ & ? & _); lia]. apply (IH _ Hi2); cbn [f_ri f_pos]; lia.
    + assert (zlen file <= f_pos s) by (destruct (Z.lt_ge_cases (f_pos s) (zlen file)) as [Hx|Hx]; [destruct (nth_lt file (f_pos s)) as (x & Ex); [pose proof Hi as (_ & _ & ? & _); lia|congruence]|exact Hx]).
      replace (start + n <=? zlen file) with false by lia. eexists. split; [reflexivity|lia].
Qed.

(** A size whose bytes are not all there. *)
Lemma size_short file start e n m : bytes_ok file -> small_file file start -> 0 <= start -> 1 <= n <= 4 -> 1 <= m <= 8 -> (forall b, rd_byte file (start + n) = Some b -> lead b m) -> (e = -1 \/ start + n + m <= e) ->
  zlen file < start + n + m ->
  forall fuel s psl, inv file start s -> base s = start -> f_pidl s = n -> psl = f_ri s - n -> 0 <= psl < m -> Z.max 0 (8 - psl) < Z.of_nat fuel ->
  exists q, size_loop fuel file start e s psl = Some (SzEof q) /\ zlen file <= q.
Proof.
  intros Hok Hsm H0 Hn Hm Hl He Hz. induction fuel as [|f IH]; intros s psl Hi Hb Hpl Hpsl Hp0 Hfuel; [lia|].
  pose proof Hi as (H1 & H2 & H3 & H4 & H5 & H6 & H7 & H8). cbn [size_loop]. unfold base in *.
  assert (Hu : u64 psl = psl) by (unfold u64; apply Z.mod_small; lia). rewrite Hu.
  assert (Hbok : bytes_ok (skipn (Z.to_nat (f_pidl s)) (f_buf s))) by (apply bytes_ok_skipn; auto).
  assert (Hblen : zlen (skipn (Z.to_nat (f_pidl s)) (f_buf s)) = 16 - f_pidl s) by (unfold zlen in *; rewrite skipn_length; lia).
  destruct (read_coded_size (skipn (Z.to_nat (f_pidl s)) (f_buf s)) psl) as [r|] eqn:Er.
  2:{ exfalso. revert Er. apply read_in_bounds; [exact Hbok|lia]. }
  destruct (rd (f_buf s) (Z.to_nat (f_pidl s))) as [bz|] eqn:Ebz.
  2:{ apply nth_error_None in Ebz. unfold zlen in H1. lia. }
  assert (Hbz : 1 <= psl -> lead bz m).
  { intros Hx. apply Hl. unfold rd in Ebz. rewrite (inv_nth file start s (f_pidl s) Hi ltac:(lia)) in Ebz. unfold base in Ebz. rewrite Hpl in Ebz. unfold rd_byte. rewrite <- Ebz. do 2 f_equal. lia. }
  assert (Hr0 : sz_len r = 0).
  { destruct (Z.eq_dec (sz_len r) 0) as [|Hne]; [assumption|exfalso].
    destruct (read_sound _ _ _ Hbok Er Hne) as (bs & rest & Eb & Hv2 & Hlb & Hle & _).
    assert (Hbs1 : 1 <= zlen bs) by (destruct Hv2 as (_ & ? & _); lia).
    destruct bs as [|x bs]; [change (zlen (@nil Z)) with 0 in Hbs1; lia|].
    pose proof (vint_first_byte _ _ _ Hv2) as [_ Hlog].
    assert (x = bz). { unfold rd in Ebz. pose proof (nth_error_skipn_add (Z.to_nat (f_pidl s)) 0 (f_buf s)) as Hnn. rewrite Nat.add_0_r in Hnn.
      rewrite <- Hnn, Eb in Ebz. cbn in Ebz. congruence. }
    destruct (Hbz ltac:(lia)) as (_ & L1 & L2). subst x. lia. }
  rewrite Hr0. cbn [Z.eqb negb]. replace (8 <=? psl) with false by lia.
  replace ((0 <? psl) && (bz =? 0)) with false.
  2:{ symmetry. destruct (0 <? psl) eqn:Ex; [|reflexivity]. destruct (Hbz ltac:(lia)) as (_ & L1 & _). cbn [andb]. lia. }
  rewrite (inv_rs _ _ _ Hi Hsm). replace (e =? start + (f_pos s - start)) with false by lia.
  destruct (rd_byte file (f_pos s)) as [x|] eqn:Ex.
  - pose proof (rd_byte_lt file (f_pos s) x ltac:(lia) Ex). destruct (push_ok file start s x Hok Hi ltac:(lia) Ex) as (buf & Hpu & Hi2). rewrite Hpu. rewrite (inv_rs _ _ _ Hi Hsm) in Hi2.
    apply (IH _ (psl + 1) Hi2); cbn [f_pos f_ri f_pidl]; lia.
  - eexists. split; [reflexivity|]. destruct (Z.lt_ge_cases (f_pos s) (zlen file)) as [Hx|Hx]; [destruct (nth_lt file (f_pos s)) as (y & Ey); [lia|congruence]|exact Hx].
Qed.

(** An identifier and size that are not all there: no element. *)
Lemma find_short E junk file start c0 e0 up allow n m : bytes_ok file -> zlen junk = 16 -> bytes_ok junk -> small_file file start -> 0 <= start -> 1 <= n <= 4 -> 1 <= m <= 8 ->
  (forall b, rd_byte file start = Some b -> lead b n) -> (forall b, start + n < zlen file -> rd_byte file (start + n) = Some b -> lead b m) -> e0 = -1 \/ start + n + m <= e0 -> zlen file < start + n + m ->
  exists q, find_next E junk file start ((c0, e0) :: up) 0 allow = Some (FNull 0 q) /\ zlen file <= q.
Proof.
  intros Hok Hj1 Hj2 Hsm H0 Hn Hm Hl1 Hl2 He Hz. unfold find_next.
  assert (Ha : adjust ((c0, e0) :: up) start 0 = ((c0, e0) :: up, 0)).
  { cbn [adjust]. destruct up; [reflexivity|]. unfold INVALID_FILEPOS. replace (negb (e0 =? -1) && (e0 <=? start)) with false by lia. reflexivity. }
  rewrite Ha. replace (2 * length file + 4)%nat with (S (S (2 * length file + 2))) by lia. rewrite fne_loop_turn. unfold turn. cbn [chain_end].
  assert (Hi : inv file start (mkF junk 0 0 0 start)).
  { red. cbn [f_buf f_ri f_rs f_pidl f_pos]. split; [exact Hj1|]. split; [exact Hj2|]. split; [lia|]. split; [lia|]. split; [lia|]. split; [left; reflexivity|]. split; [reflexivity|]. replace (start - start) with 0 by lia. reflexivity. }
  pose proof (id_start file start e0 n Hok Hsm H0 Hn Hl1 ltac:(lia) (S (length file)) _ Hi ltac:(unfold base; cbn; lia) ltac:(cbn; lia) ltac:(cbn [f_pos]; unfold zlen; lia)) as K.
  destruct (start + n <=? zlen file) eqn:Ec.
  - destruct K as (s1 & -> & Hi1 & Hb1 & Hp1 & Hr1). rewrite Hr1, Hp1.
    destruct (size_short file start e0 n m Hok Hsm H0 Hn Hm) with (fuel := 9%nat) (s := s1) (psl := n - n) as (q & -> & Hq); auto; try lia.
    { intros b Hb. apply Hl2; [|exact Hb]. apply rd_byte_lt in Hb; lia. }
    exists q. split; [reflexivity|exact Hq].
  - destruct K as (q & -> & Hq). exists q. split; [reflexivity|exact Hq].
Qed.
