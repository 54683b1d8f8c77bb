From Verif Require Import Base BaseProofs VoidProofs Arr ArrSpec ArrProofs ArrProofs2 Stream StreamSpec.

Lemma firstn_all_z {A} (l : list A) n : zlen l <= n -> firstn (Z.to_nat n) l = l.
Proof. intros H. apply firstn_all2. unfold zlen in H. lia. Qed.
Lemma zlen_firstn {A} (l : list A) n : 0 <= n -> zlen (firstn (Z.to_nat n) l) = Z.min n (zlen l).
Proof. intros H. unfold zlen. rewrite firstn_length. lia. Qed.
Lemma zlen_skipn {A} (l : list A) n : 0 <= n -> zlen (skipn (Z.to_nat n) l) = Z.max 0 (zlen l - n).
Proof. intros H. unfold zlen. rewrite skipn_length. lia. Qed.
Lemma skipn_skipn_z {A} (l : list A) i j : 0 <= i -> 0 <= j -> skipn (Z.to_nat j) (skipn (Z.to_nat i) l) = skipn (Z.to_nat (i + j)) l.
Proof.
  intros Hi Hj. rewrite Z2Nat.inj_add by lia. generalize (Z.to_nat i) as n. generalize (Z.to_nat j) as m. intros m n.
  revert l; induction n as [|n IH]; intros l; [reflexivity|]. destruct l; [cbn; now rewrite skipn_nil|]. cbn. apply IH.
Qed.
Lemma mem_get_eq m pos n : 0 <= pos -> 0 <= n -> pos + n <= zlen m -> mem_get m pos n = Some (firstn (Z.to_nat n) (skipn (Z.to_nat pos) m)).
Proof. intros. unfold mem_get. replace ((pos <? 0) || (n <? 0) || (zlen m <? pos + n)) with false by lia. reflexivity. Qed.
Lemma mem_put_eq m pos bs : 0 <= pos -> pos + zlen bs <= zlen m ->
  mem_put m pos bs = Some (firstn (Z.to_nat pos) m ++ bs ++ skipn (Z.to_nat (pos + zlen bs)) m).
Proof. intros. unfold mem_put. replace ((pos <? 0) || (zlen m <? pos + zlen bs)) with false by lia. reflexivity. Qed.
Lemma mem_put_len m pos bs m' : mem_put m pos bs = Some m' -> zlen m' = zlen m.
Proof.
  unfold mem_put. destruct ((pos <? 0) || (zlen m <? pos + zlen bs)) eqn:E; [discriminate|]. intros H; apply some_inj in H; subst.
  pose proof (zlen_nonneg bs). rewrite !zlen_app, zlen_firstn, zlen_skipn by lia. lia.
Qed.

(** ** Memory stream *)
Lemma mem_step_file m op o c' cur' : 0 <= mpos m <= zlen (mptr m) -> 0 <= mvoff m -> zlen (mptr m) + mvoff m < 2 ^ 63 ->
  op_small (zlen (mptr m) + mvoff m) op ->
  file_step (mvoff m) (mptr m) (mpos m) op = Some (o, c', cur') ->
  mem_step m op = Some (o, mkMem c' cur' (mvoff m)) /\ 0 <= cur' <= zlen c' /\ zlen c' = zlen (mptr m).
Proof.
  intros Hp Hv Hl Hs. destruct op as [n|bs|t mode]; cbn [file_step mem_step op_small] in *.
  - destruct (n <? 0) eqn:En; [lia|]. intros H; apply some_inj in H. injection H as <- <- <-. unfold mem_read.
    destruct (zlen (mptr m) <? mpos m) eqn:E0; [lia|]. unfold file_take.
    assert (Hz : zlen (firstn (Z.to_nat n) (skipn (Z.to_nat (mpos m)) (mptr m))) = Z.min n (zlen (mptr m) - mpos m)).
    { rewrite zlen_firstn, zlen_skipn by lia. lia. }
    rewrite Hz. destruct (zlen (mptr m) - mpos m <? n) eqn:E1.
    + replace (Z.min n (zlen (mptr m) - mpos m) <? n) with true by lia. rewrite mem_get_eq by lia.
      replace (Z.min n (zlen (mptr m) - mpos m)) with (zlen (mptr m) - mpos m) by lia.
      rewrite (firstn_all_z _ n), firstn_all_z by (rewrite zlen_skipn by lia; lia). repeat split; lia.
    + replace (Z.min n (zlen (mptr m) - mpos m) <? n) with false by lia. rewrite mem_get_eq by lia.
      replace (Z.min n (zlen (mptr m) - mpos m)) with n by lia. repeat split; lia.
  - unfold mem_write. cbn [negb]. pose proof (zlen_nonneg bs).
    replace (u64 (zlen bs + mpos m)) with (zlen bs + mpos m) by (unfold u64; rewrite Z.mod_small; lia).
    destruct (zlen (mptr m) <? mpos m + zlen bs) eqn:E.
    + intros H0; apply some_inj in H0. injection H0 as <- <- <-.
      replace (zlen (mptr m) <? zlen bs + mpos m) with true by lia. destruct m as [mp mk mv]; cbn [mptr mpos mvoff] in *. repeat split; lia.
    + intros H0; apply some_inj in H0. injection H0 as <- <- <-.
      replace (zlen (mptr m) <? zlen bs + mpos m) with false by lia. rewrite mem_put_eq by lia.
      rewrite !zlen_app, zlen_firstn, zlen_skipn by lia. repeat split; lia.
  - set (abs := match mode with SeekSet => t | SeekCur => t + mvoff m + mpos m | SeekEnd => t + mvoff m + zlen (mptr m) end).
    destruct (Z.max 0 (Z.min abs (mvoff m + zlen (mptr m))) <? mvoff m) eqn:E; [discriminate|].
    intros H; apply some_inj in H. injection H as <- <- <-. unfold mem_seek.
    assert (Ha : match mode with SeekSet => t | SeekCur => s64 (t + mpos m + mvoff m) | SeekEnd => s64 (t + zlen (mptr m) + mvoff m) end = abs).
    { subst abs. destruct mode; [reflexivity| |]; unfold s64, s_wrap; change (64 - 1) with 63; lia. }
    rewrite Ha. clearbody abs.
    replace (if zlen (mptr m) + mvoff m <? (if abs <? 0 then 0 else abs) then zlen (mptr m) + mvoff m else if abs <? 0 then 0 else abs)
      with (Z.max 0 (Z.min abs (mvoff m + zlen (mptr m)))).
    2:{ pose proof (zlen_nonneg (mptr m)). destruct (abs <? 0) eqn:?; destruct (_ <? _) eqn:? in |- *; lia. }
    set (v := Z.max 0 (Z.min abs (mvoff m + zlen (mptr m)))) in *.
    replace (u64 (v - mvoff m)) with (v - mvoff m) by (unfold u64; rewrite Z.mod_small; lia). repeat split; lia.
Qed.
Lemma mem_run_file ops : forall m os c' cur', 0 <= mpos m <= zlen (mptr m) -> 0 <= mvoff m -> zlen (mptr m) + mvoff m < 2 ^ 63 ->
  Forall (op_small (zlen (mptr m) + mvoff m)) ops ->
  file_run (mvoff m) (mptr m) (mpos m) ops = Some (os, c', cur') ->
  mem_run m ops = Some (os, mkMem c' cur' (mvoff m)) /\ 0 <= cur' <= zlen c' /\ zlen c' = zlen (mptr m).
Proof.
  induction ops as [|op ops IH]; intros m os c' cur' Hp Hv Hl Hs; cbn [file_run mem_run].
  - intros H; apply some_inj in H. injection H as <- <- <-. destruct m; cbn in *. auto.
  - inversion Hs as [|? ? Hs1 Hs2]; subst. destruct (file_step (mvoff m) (mptr m) (mpos m) op) as [[[o c1] cur1]|] eqn:E; [|discriminate].
    destruct (mem_step_file m op o c1 cur1 Hp Hv Hl Hs1 E) as (-> & Hc & Hz).
    destruct (file_run (mvoff m) c1 cur1 ops) as [[[os1 c2] cur2]|] eqn:E2; [|discriminate].
    intros H; apply some_inj in H. injection H as <- <- <-.
    destruct (IH (mkMem c1 cur1 (mvoff m)) os1 c2 cur2) as (-> & Hc2 & Hz2); cbn [mptr mpos mvoff] in *; try assumption; try lia.
    { rewrite Hz. assumption. }
    repeat split; lia.
Qed.
(** With no virtual offset every history is inside the contract. *)
Lemma file_run_total_zero ops : forall c cur, 0 <= cur <= zlen c -> Forall (fun op => match op with FRead n => 0 <= n | _ => True end) ops ->
  exists r, file_run 0 c cur ops = Some r.
Proof.
  induction ops as [|op ops IH]; intros c cur Hc Hr; cbn [file_run]; [eauto|]. inversion Hr as [|? ? H1 H2]; subst.
  assert (H : exists o c' cur', file_step 0 c cur op = Some (o, c', cur') /\ 0 <= cur' <= zlen c').
  { destruct op as [n|bs|t mode]; cbn [file_step].
    - destruct (n <? 0) eqn:?; [lia|]. do 3 eexists; split; [reflexivity|]. unfold file_take. rewrite zlen_firstn, zlen_skipn by lia. lia.
    - pose proof (zlen_nonneg bs). destruct (zlen c <? cur + zlen bs) eqn:?; do 3 eexists; (split; [reflexivity|]); [lia|].
      rewrite !zlen_app, zlen_firstn, zlen_skipn by lia. lia.
    - set (a := match mode with SeekSet => t | SeekCur => t + 0 + cur | SeekEnd => t + 0 + zlen c end). clearbody a.
      destruct (Z.max 0 (Z.min a (0 + zlen c)) <? 0) eqn:?; [lia|]. do 3 eexists; split; [reflexivity|]. lia. }
  destruct H as (o & c' & cur' & -> & Hc'). destruct (IH c' cur' Hc' H2) as [[[os c2] k2] ->]. eauto.
Qed.
(** Seeking before the virtual offset. *)
Lemma mem_seek_before_offset m t : 0 <= t < mvoff m -> mvoff m < 2 ^ 63 -> zlen (mptr m) < 2 ^ 63 ->
  exists m', mem_seek m t SeekSet = (t, m') /\ zlen (mptr m') < mpos m' /\ forall n, mem_read m' n = None.
Proof.
  intros Ht Hv Hz. unfold mem_seek. pose proof (zlen_nonneg (mptr m)). destruct (t <? 0) eqn:?; [lia|].
  destruct (zlen (mptr m) + mvoff m <? t) eqn:?; [lia|]. eexists; split; [reflexivity|]. cbn [mptr mpos].
  assert (Hu : u64 (t - mvoff m) = t - mvoff m + 2 ^ 64) by (unfold u64; rewrite <- (Z.mod_add _ 1) by lia; rewrite Z.mod_small; lia).
  rewrite Hu. split; [lia|]. intros n. unfold mem_read. cbn [mptr mpos]. destruct (zlen (mptr m) <? t - mvoff m + 2 ^ 64) eqn:?; [reflexivity|lia].
Qed.

(** ** Buffered reads *)
Section Reading.
Context {U : Type} (content : U -> list Z) (urd : U -> Z -> Z * list Z * U) (Hrd : reader_ok content urd).

Lemma ahead_zlen (b : bufs U) : buf_ok b -> zlen (ahead b) = Z.max 0 (brsize b - brpos b).
Proof. intros (H1 & H2 & H3 & H4). unfold ahead. rewrite zlen_skipn, zlen_firstn by lia. lia. Qed.

Definition finished (size : Z) (r : option (Z * list Z * bufs U)) (b : bufs U) (out : list Z) : Prop :=
  exists e more b', r = Some (e, out ++ more, b') /\ buf_ok b' /\ bwpos b' = bwpos b /\
    zlen out + zlen more <= Z.max size (zlen out) /\ ahead b ++ content (bu b) = more ++ ahead b' ++ content (bu b').

Lemma copy_eq (b : bufs U) left : buf_ok b -> brpos b < brsize b -> 0 <= left <= brsize b - brpos b ->
  exists bs, mem_get (bbuf b) (brpos b) left = Some bs /\ zlen bs = left /\
    ahead b = bs ++ ahead (mkBuf (bu b) (brpos b + left) (brsize b) (bwpos b) (bbuf b)).
Proof.
  intros (H1 & H2 & H3 & H4) Hlt Hle. rewrite mem_get_eq by lia. eexists; split; [reflexivity|].
  split; [rewrite zlen_firstn, zlen_skipn by lia; lia|]. unfold ahead. cbn [brpos brsize bbuf].
  rewrite <- (firstn_skipn (Z.to_nat left) (skipn (Z.to_nat (brpos b)) (firstn (Z.to_nat (brsize b)) (bbuf b)))) at 1.
  f_equal.
  - rewrite skipn_firstn_comm, firstn_firstn. f_equal. lia.
  - apply skipn_skipn_z; lia.
Qed.

Lemma buf_read_loop_ok fuel : forall b size out err, buf_ok b -> size - zlen out <= Z.of_nat fuel ->
  finished size (buf_read_loop urd fuel b size out err) b out.
Proof.
  induction fuel as [|f IH]; intros b size out err Hok Hf.
  - cbn [buf_read_loop]. destruct (size - zlen out <=? 0) eqn:E; [|lia]. unfold finished, buf_read_end.
    eexists; exists []; exists b. rewrite app_nil_r. cbn [app zlen length]. split; [reflexivity|]. split; [assumption|].
    split; [reflexivity|]. split; [cbn; lia|reflexivity].
  - cbn [buf_read_loop]. destruct (size - zlen out <=? 0) eqn:E.
    { unfold finished, buf_read_end. eexists; exists []; exists b. rewrite app_nil_r. split; [reflexivity|]. split; [assumption|].
      split; [reflexivity|]. split; [cbn; lia|reflexivity]. }
    set (left := size - zlen out) in *.
    (* the copying step *)
    assert (Hcopy : forall b2 err2, buf_ok b2 -> brpos b2 < brsize b2 ->
      finished size (let l := if brsize b2 - brpos b2 <? left then brsize b2 - brpos b2 else left in
        match mem_get (bbuf b2) (brpos b2) l with
        | None => None
        | Some bs => buf_read_loop urd f (mkBuf (bu b2) (brpos b2 + l) (brsize b2) (bwpos b2) (bbuf b2)) size (out ++ bs) err2
        end) b2 out).
    { intros b2 err2 Hok2 Hlt. cbv zeta. set (l := if brsize b2 - brpos b2 <? left then brsize b2 - brpos b2 else left).
      assert (Hl : 0 < l <= brsize b2 - brpos b2 /\ l <= left) by (subst l; destruct (_ <? _) eqn:?; lia).
      destruct (copy_eq b2 l Hok2 Hlt ltac:(lia)) as (bs & -> & Hz & Ha).
      set (b3 := mkBuf (bu b2) (brpos b2 + l) (brsize b2) (bwpos b2) (bbuf b2)) in *.
      assert (Hok3 : buf_ok b3) by (unfold buf_ok, b3 in *; cbn [bbuf brpos brsize bwpos]; lia).
      destruct (IH b3 size (out ++ bs) err2 Hok3 ltac:(rewrite zlen_app; lia)) as (e & more & b' & -> & Hok' & Hw & Hzz & Heq).
      exists e, (bs ++ more), b'. rewrite app_assoc. split; [reflexivity|]. split; [assumption|]. split; [assumption|].
      rewrite !zlen_app in *. split; [lia|]. rewrite Ha, <- !app_assoc. f_equal. exact Heq. }
    destruct (brsize b <=? brpos b) eqn:E1.
    + assert (Hah : ahead b = []).
      { pose proof (ahead_zlen b Hok) as H. destruct (ahead b); [reflexivity|]. rewrite zlen_cons in H. pose proof (zlen_nonneg l). lia. }
      destruct (BUFSTREAM_SIZE <? left) eqn:E2.
      * pose proof (Hrd (bu b) left ltac:(lia)) as H. destruct (urd (bu b) left) as [[e bs] u]. destruct H as [Hz Hc].
        exists e, bs. eexists. split; [reflexivity|]. destruct Hok as (K1 & K2 & K3 & K4). split; [unfold buf_ok; cbn; auto|].
        split; [reflexivity|]. split; [lia|]. rewrite Hah. cbn [app].
        assert (Ha' : ahead (mkBuf u (brpos b) (brsize b) (bwpos b) (bbuf b)) = []) by (rewrite <- Hah; reflexivity).
        rewrite Ha'. cbn [app bu]. exact Hc.
      * pose proof (Hrd (bu b) BUFSTREAM_SIZE ltac:(unfold BUFSTREAM_SIZE; lia)) as H.
        destruct (urd (bu b) BUFSTREAM_SIZE) as [[e bs] u]. destruct H as [Hz Hc].
        destruct Hok as (K1 & K2 & K3 & K4). pose proof (zlen_nonneg bs).
        destruct (mem_put (bbuf b) 0 bs) as [nb|] eqn:Ep; [|rewrite mem_put_eq in Ep by lia; discriminate].
        set (b2 := mkBuf u 0 (zlen bs) (bwpos b) nb).
        assert (Hok2 : buf_ok b2).
        { unfold buf_ok, b2; cbn [bbuf brpos brsize bwpos]. rewrite (mem_put_len _ _ _ _ Ep). lia. }
        assert (Ha2 : ahead b2 = bs).
        { unfold ahead, b2; cbn [bbuf brpos brsize]. rewrite mem_put_eq in Ep by lia. apply some_inj in Ep. subst nb.
          cbn [Z.to_nat firstn skipn app]. apply firstn_zlen. }
        destruct (zlen bs <=? 0) eqn:E3.
        { unfold buf_read_end. eexists; exists []; exists b2. rewrite app_nil_r. split; [reflexivity|]. split; [assumption|].
          split; [reflexivity|]. split; [cbn; lia|]. rewrite Hah, Ha2. destruct bs; [|rewrite zlen_cons in *; pose proof (zlen_nonneg bs); lia].
          cbn [app bu b2]. exact Hc. }
        destruct (Hcopy b2 e Hok2 ltac:(unfold b2; cbn [brpos brsize]; lia)) as (e' & more & b' & Hr & Hok' & Hw & Hzz & Heq).
        exists e', more, b'. split; [exact Hr|]. split; [assumption|]. split; [assumption|]. split; [assumption|].
        rewrite Hah, Hc. cbn [app]. rewrite <- Heq, Ha2. reflexivity.
    + apply Hcopy; [assumption|lia].
Qed.
(** C38: nothing lost, duplicated or reordered, for any well-behaved underlying stream. *)
Lemma buf_read_ok b size : buf_ok b -> 0 <= size ->
  exists e bs b', buf_read urd b size = Some (e, bs, b') /\ buf_ok b' /\ zlen bs <= size /\
    ahead b ++ content (bu b) = bs ++ ahead b' ++ content (bu b').
Proof.
  intros Hok Hs. destruct (buf_read_loop_ok (Z.to_nat size) b size [] ERR_NONE Hok ltac:(cbn; lia)) as (e & bs & b' & H & Hok' & _ & Hz & Heq).
  exists e, bs, b'. split; [exact H|]. split; [assumption|]. split; [cbn in Hz; lia|assumption].
Qed.
Lemma buf_reads_ok sizes : forall b, buf_ok b -> Forall (fun n => 0 <= n) sizes ->
  exists r b', buf_reads urd b sizes = Some (r, b') /\ buf_ok b' /\
    ahead b ++ content (bu b) = concat (map snd r) ++ ahead b' ++ content (bu b').
Proof.
  induction sizes as [|n ns IH]; intros b Hok Hs; cbn [buf_reads].
  - exists [], b. auto.
  - inversion Hs as [|? ? Hn Hns]; subst. destruct (buf_read_ok b n Hok Hn) as (e & bs & b1 & -> & Hok1 & _ & Heq).
    destruct (IH b1 Hok1 Hns) as (r & b2 & -> & Hok2 & Heq2). exists ((e, bs) :: r), b2. split; [reflexivity|]. split; [assumption|].
    cbn [map concat snd]. rewrite Heq, Heq2, <- app_assoc. reflexivity.
Qed.
End Reading.

(** Over a plain file: identical to reading the file directly. *)
Lemma plain_reader_ok : reader_ok (fun u => u) plain_read.
Proof.
  intros u n Hn. unfold plain_read. split; [rewrite zlen_firstn by lia; lia|]. symmetry; apply firstn_skipn.
Qed.
Definition complete (size : Z) (total : list Z) (r : option (Z * list Z * bufs (list Z))) (n0 : Z) : Prop :=
  exists e out b', r = Some (e, out, b') /\
   zlen out = Z.max n0 (Z.min size (n0 + zlen total)) /\ e = (if zlen out <? size then ERR_END_OF_FILE else ERR_NONE).
Lemma buf_read_plain_count fuel : forall b size out err, buf_ok b -> size - zlen out <= Z.of_nat fuel ->
  (err = ERR_NONE \/ (err = ERR_END_OF_FILE)) ->
  complete size (ahead b ++ bu b) (buf_read_loop plain_read fuel b size out err) (zlen out).
Proof.
  induction fuel as [|f IH]; intros b size out err Hok Hf He.
  - cbn [buf_read_loop]. destruct (size - zlen out <=? 0) eqn:E; [|lia]. unfold complete, buf_read_end.
    do 3 eexists; split; [reflexivity|]. split; [lia|]. replace (size <=? zlen out) with true by lia. replace (zlen out <? size) with false by lia. reflexivity.
  - cbn [buf_read_loop]. destruct (size - zlen out <=? 0) eqn:E.
    { unfold complete, buf_read_end. do 3 eexists; split; [reflexivity|]. split; [lia|].
      replace (size <=? zlen out) with true by lia. replace (zlen out <? size) with false by lia. reflexivity. }
    set (left := size - zlen out) in *.
    assert (Hcopy : forall b2 err2, buf_ok b2 -> brpos b2 < brsize b2 -> (err2 = ERR_NONE \/ err2 = ERR_END_OF_FILE) ->
      complete size (ahead b2 ++ bu b2) (let l := if brsize b2 - brpos b2 <? left then brsize b2 - brpos b2 else left in
        match mem_get (bbuf b2) (brpos b2) l with
        | None => None
        | Some bs => buf_read_loop plain_read f (mkBuf (bu b2) (brpos b2 + l) (brsize b2) (bwpos b2) (bbuf b2)) size (out ++ bs) err2
        end) (zlen out)).
    { intros b2 err2 Hok2 Hlt He2. cbv zeta. set (l := if brsize b2 - brpos b2 <? left then brsize b2 - brpos b2 else left).
      assert (Hl : 0 < l <= brsize b2 - brpos b2 /\ l <= left) by (subst l; destruct (_ <? _) eqn:?; lia).
      destruct (copy_eq b2 l Hok2 Hlt ltac:(lia)) as (bs & -> & Hz & Ha).
      set (b3 := mkBuf (bu b2) (brpos b2 + l) (brsize b2) (bwpos b2) (bbuf b2)) in *.
      assert (Hok3 : buf_ok b3) by (unfold buf_ok, b3 in *; cbn [bbuf brpos brsize bwpos]; lia).
      destruct (IH b3 size (out ++ bs) err2 Hok3 ltac:(rewrite zlen_app; lia) He2) as (e & o & b' & -> & Hzz & He').
      exists e, o, b'. split; [reflexivity|]. split; [|assumption]. rewrite Hzz, Ha, !zlen_app. unfold b3; cbn [bu].
      pose proof (zlen_nonneg (bu b2)). pose proof (zlen_nonneg (ahead (mkBuf (bu b2) (brpos b2 + l) (brsize b2) (bwpos b2) (bbuf b2)))). lia. }
    destruct (brsize b <=? brpos b) eqn:E1.
    + assert (Hah : ahead b = []).
      { pose proof (ahead_zlen b Hok) as H. destruct (ahead b); [reflexivity|]. rewrite zlen_cons in H. pose proof (zlen_nonneg l). lia. }
      rewrite Hah. cbn [app]. pose proof (zlen_nonneg (bu b)).
      destruct (BUFSTREAM_SIZE <? left) eqn:E2.
      * unfold plain_read. do 3 eexists; split; [reflexivity|]. rewrite zlen_app, zlen_firstn by lia. split; [lia|].
        destruct (zlen (bu b) <? left) eqn:E3; destruct (zlen out + Z.min left (zlen (bu b)) <? size) eqn:E4; try reflexivity; lia.
      * destruct (plain_read (bu b) BUFSTREAM_SIZE) as [[e bs] u] eqn:Er.
        assert (Her : (if zlen (bu b) <? BUFSTREAM_SIZE then ERR_END_OF_FILE else ERR_NONE) = e) by exact (f_equal (fun r => fst (fst r)) Er).
        assert (Hbs : firstn (Z.to_nat BUFSTREAM_SIZE) (bu b) = bs) by exact (f_equal (fun r => snd (fst r)) Er).
        assert (Hu : skipn (Z.to_nat BUFSTREAM_SIZE) (bu b) = u) by exact (f_equal snd Er).
        destruct Hok as (K1 & K2 & K3 & K4). pose proof (zlen_nonneg bs).
        assert (Hzb : zlen bs = Z.min BUFSTREAM_SIZE (zlen (bu b))) by (rewrite <- Hbs, zlen_firstn by (unfold BUFSTREAM_SIZE; lia); reflexivity).
        destruct (mem_put (bbuf b) 0 bs) as [nb|] eqn:Ep; [|rewrite mem_put_eq in Ep by lia; discriminate].
        set (b2 := mkBuf u 0 (zlen bs) (bwpos b) nb).
        assert (Hok2 : buf_ok b2).
        { unfold buf_ok, b2; cbn [bbuf brpos brsize bwpos]. rewrite (mem_put_len _ _ _ _ Ep). lia. }
        assert (Ha2 : ahead b2 = bs).
        { unfold ahead, b2; cbn [bbuf brpos brsize]. rewrite mem_put_eq in Ep by lia. apply some_inj in Ep. subst nb.
          cbn [Z.to_nat firstn skipn app]. apply firstn_zlen. }
        destruct (zlen bs <=? 0) eqn:E3.
        { unfold complete, buf_read_end. do 3 eexists; split; [reflexivity|]. unfold BUFSTREAM_SIZE in *.
          split; [lia|]. replace (size <=? zlen out) with false by lia. replace (zlen out <? size) with true by lia.
          rewrite <- Her. replace (zlen (bu b) <? 4096) with true by lia. reflexivity. }
        assert (He2 : e = ERR_NONE \/ e = ERR_END_OF_FILE) by (rewrite <- Her; destruct (zlen (bu b) <? BUFSTREAM_SIZE); [right|left]; reflexivity).
        pose proof (Hcopy b2 e Hok2 ltac:(unfold b2; cbn [brpos brsize]; lia) He2) as Hc.
        assert (Hall : ahead b2 ++ bu b2 = bu b) by (rewrite Ha2; unfold b2; cbn [bu]; rewrite <- Hbs, <- Hu; apply firstn_skipn).
        rewrite Hall in Hc. exact Hc.
    + apply Hcopy; [assumption|lia|assumption].
Qed.
Lemma buf_read_plain b size : buf_ok b -> 0 <= size ->
  exists b', buf_read plain_read b size = Some (fst (fst (plain_read (ahead b ++ bu b) size)), snd (fst (plain_read (ahead b ++ bu b) size)), b') /\
    buf_ok b' /\ ahead b' ++ bu b' = snd (plain_read (ahead b ++ bu b) size).
Proof.
  intros Hok Hs. destruct (buf_read_ok _ _ plain_reader_ok b size Hok Hs) as (e & bs & b' & Hr & Hok' & Hz & Heq).
  destruct (buf_read_plain_count (Z.to_nat size) b size [] ERR_NONE Hok ltac:(cbn; lia) ltac:(auto)) as (e2 & out & b2 & Hr2 & Hc & He).
  unfold buf_read in Hr. rewrite Hr in Hr2. apply some_inj in Hr2. injection Hr2 as <- <- <-.
  set (T := ahead b ++ bu b) in *. change (zlen (@nil Z)) with 0 in Hc. pose proof (zlen_nonneg T).
  assert (Hbs : bs = firstn (Z.to_nat size) T /\ ahead b' ++ bu b' = skipn (Z.to_nat size) T).
  { assert (Hle : zlen bs = Z.min size (zlen T)) by lia. rewrite Heq. destruct (Z.le_gt_cases size (zlen T)).
    - replace size with (zlen bs) by lia. rewrite firstn_zlen, skipn_zlen. auto.
    - assert (ahead b' ++ bu b' = []).
      { assert (Hzz : zlen T = zlen bs + zlen (ahead b' ++ bu b')) by (rewrite Heq at 1; apply zlen_app). destruct (ahead b' ++ bu b'); [reflexivity|].
        rewrite zlen_cons in Hzz. pose proof (zlen_nonneg l). lia. }
      rewrite H1, app_nil_r. rewrite firstn_all_z by lia. split; [reflexivity|]. symmetry. apply skipn_all2. unfold zlen in *. lia. }
  exists b'. change (snd (plain_read T size)) with (skipn (Z.to_nat size) T).
  change (snd (fst (plain_read T size))) with (firstn (Z.to_nat size) T).
  change (fst (fst (plain_read T size))) with (if zlen T <? size then ERR_END_OF_FILE else ERR_NONE). destruct Hbs as [Hb1 Hb2].
  split; [unfold buf_read; rewrite Hr; f_equal; f_equal; f_equal; [|assumption]|split; assumption].
  rewrite He. destruct (zlen bs <? size) eqn:E1; destruct (zlen T <? size) eqn:E2; try reflexivity; lia.
Qed.
Lemma buf_reads_plain sizes : forall b, buf_ok b -> Forall (fun n => 0 <= n) sizes ->
  exists b', buf_reads plain_read b sizes = Some (fst (plain_reads (ahead b ++ bu b) sizes), b') /\
    ahead b' ++ bu b' = snd (plain_reads (ahead b ++ bu b) sizes).
Proof.
  induction sizes as [|n ns IH]; intros b Hok Hs; cbn [buf_reads plain_reads].
  - exists b. auto.
  - inversion Hs as [|? ? Hn Hns]; subst. destruct (buf_read_plain b n Hok Hn) as (b1 & -> & Hok1 & Heq).
    destruct (plain_read (ahead b ++ bu b) n) as [[e bs] u'] eqn:Ep. cbn [fst snd] in *.
    destruct (IH b1 Hok1 Hns) as (b2 & -> & Heq2). rewrite Heq in *. destruct (plain_reads u' ns) as [r u2]. exists b2. auto.
Qed.

(** ** Buffered writes *)
Section Writing.
Context {U : Type} (stored : U -> list Z) (uwr : U -> list Z -> Z * Z * U).
Context (Hwr : writer_ok stored uwr) (Hat : writer_atomic uwr).

Lemma buf_flush_ok (b : bufs U) : buf_ok b ->
  exists e b', buf_flush uwr b = Some (e, b') /\ buf_ok b' /\ stored (bu b') ++ behind b' = stored (bu b) ++ behind b /\
    (e = ERR_NONE -> bwpos b' = 0) /\ (bwpos b' = 0 \/ bwpos b' = bwpos b).
Proof.
  intros Hok. pose proof Hok as (H1 & H2 & H3 & H4). unfold buf_flush. destruct (0 <? bwpos b) eqn:E.
  - rewrite mem_get_eq by lia. cbn [Z.to_nat skipn]. set (bs := firstn (Z.to_nat (bwpos b)) (bbuf b)).
    assert (Hbs : zlen bs = bwpos b) by (subst bs; rewrite zlen_firstn by lia; lia).
    pose proof (Hwr (bu b) bs) as Hw. pose proof (Hat (bu b) bs) as Ha.
    destruct (uwr (bu b) bs) as [[e n] u]. destruct Hw as (Hn & Hst & He).
    eexists e, _. split; [reflexivity|]. split; [unfold buf_ok; cbn [bbuf brpos brsize bwpos]; destruct (e =? ERR_NONE); lia|].
    cbn [bu bwpos]. unfold behind. cbn [bwpos bbuf]. fold bs. destruct (e =? ERR_NONE) eqn:E2.
    + rewrite Hst. split; [|split; [auto|auto]]. cbn [Z.to_nat firstn]. rewrite app_nil_r. f_equal.
      apply firstn_all_z. rewrite (He ltac:(lia)). lia.
    + rewrite Hst. split; [|split; [intros ->; discriminate|auto]]. rewrite (Ha ltac:(lia)). cbn [Z.to_nat firstn]. rewrite app_nil_r. reflexivity.
  - exists ERR_NONE, b. split; [reflexivity|]. split; [exact Hok|]. repeat split; auto; lia.
Qed.

Lemma firstn_app_zz {A} (a b : list A) n : 0 <= n -> firstn (Z.to_nat (zlen a + n)) (a ++ b) = a ++ firstn (Z.to_nat n) b.
Proof.
  intros Hn. rewrite firstn_app. f_equal; [apply firstn_all_z; lia|]. f_equal. unfold zlen. lia.
Qed.

Lemma buf_write_loop_ok fuel : forall b rest pos, buf_ok b -> zlen rest <= Z.of_nat fuel ->
  exists e n b', buf_write_loop uwr fuel b rest pos = Some (e, pos + n, b') /\ buf_ok b' /\ 0 <= n <= zlen rest /\
    (e = ERR_NONE -> n = zlen rest) /\
    stored (bu b') ++ behind b' = stored (bu b) ++ behind b ++ firstn (Z.to_nat n) rest.
Proof.
  induction fuel as [|f IH]; intros b rest pos Hok Hf; pose proof (zlen_nonneg rest) as Hnn; cbn [buf_write_loop].
  - destruct (zlen rest <=? 0) eqn:E; [|lia]. exists ERR_NONE, 0, b. rewrite Z.add_0_r. cbn [Z.to_nat firstn]. rewrite app_nil_r. split; [reflexivity|]. split; [exact Hok|]. repeat split; auto; lia.
  - destruct (zlen rest <=? 0) eqn:E.
    { exists ERR_NONE, 0, b. rewrite Z.add_0_r. cbn [Z.to_nat firstn]. rewrite app_nil_r. split; [reflexivity|]. split; [exact Hok|]. repeat split; auto; lia. }
    assert (H : exists e b1, (if BUFSTREAM_SIZE <=? bwpos b then buf_flush uwr b else Some (ERR_NONE, b)) = Some (e, b1) /\ buf_ok b1 /\
      stored (bu b1) ++ behind b1 = stored (bu b) ++ behind b /\ (e = ERR_NONE -> bwpos b1 < BUFSTREAM_SIZE)).
    { destruct (BUFSTREAM_SIZE <=? bwpos b) eqn:E1.
      - destruct (buf_flush_ok b Hok) as (e & b1 & -> & Hok1 & Hst & He & _). exists e, b1. repeat split; try assumption; try apply Hok1. intros He0. rewrite (He He0). reflexivity.
      - exists ERR_NONE, b. repeat split; try apply Hok; try lia. }
    destruct H as (e & b1 & -> & Hok1 & Hst & He). destruct (e =? ERR_NONE) eqn:E2; cbn [negb].
    2:{ exists e, 0, b1. rewrite Z.add_0_r. cbn [Z.to_nat firstn]. rewrite app_nil_r. repeat split; try assumption; try apply Hok1; try lia.
        all: intros ->; discriminate. }
    specialize (He ltac:(lia)). destruct ((bwpos b1 =? 0) && (BUFSTREAM_SIZE <? zlen rest)) eqn:E3.
    + pose proof (Hwr (bu b1) rest) as Hw. destruct (uwr (bu b1) rest) as [[e2 n] u]. destruct Hw as (Hn & Hst2 & He2).
      exists e2, n. eexists. split; [reflexivity|]. destruct Hok1 as (K1 & K2 & K3 & K4). split; [unfold buf_ok; cbn; auto|].
      split; [assumption|]. split; [assumption|]. cbn [bu]. rewrite Hst2.
      assert (Hb1 : behind b1 = []) by (unfold behind; replace (bwpos b1) with 0 by lia; reflexivity).
      assert (Hb2 : behind (mkBuf u (brpos b1) (brsize b1) (bwpos b1) (bbuf b1)) = []) by (rewrite <- Hb1; reflexivity).
      rewrite Hb2, app_nil_r. rewrite Hb1, app_nil_r in Hst. rewrite Hst, <- app_assoc. reflexivity.
    + destruct Hok1 as (K1 & K2 & K3 & K4).
      set (n := if BUFSTREAM_SIZE - bwpos b1 <? zlen rest then BUFSTREAM_SIZE - bwpos b1 else zlen rest).
      assert (Hn : 0 < n <= zlen rest /\ bwpos b1 + n <= BUFSTREAM_SIZE) by (subst n; destruct (BUFSTREAM_SIZE - bwpos b1 <? zlen rest) eqn:?; lia).
      assert (Hz : zlen (firstn (Z.to_nat n) rest) = n) by (rewrite zlen_firstn by lia; lia).
      destruct (mem_put (bbuf b1) (bwpos b1) (firstn (Z.to_nat n) rest)) as [nb|] eqn:Ep; [|rewrite mem_put_eq in Ep by lia; discriminate].
      set (b2 := mkBuf (bu b1) (brpos b1) (brsize b1) (bwpos b1 + n) nb).
      assert (Hok2 : buf_ok b2) by (unfold buf_ok, b2; cbn [bbuf brpos brsize bwpos]; rewrite (mem_put_len _ _ _ _ Ep); lia).
      assert (Hb2 : behind b2 = behind b1 ++ firstn (Z.to_nat n) rest).
      { unfold behind, b2; cbn [bwpos bbuf]. rewrite mem_put_eq in Ep by lia. apply some_inj in Ep. subst nb.
        assert (Hzb : zlen (firstn (Z.to_nat (bwpos b1)) (bbuf b1)) = bwpos b1) by (rewrite zlen_firstn by lia; lia).
        rewrite <- Hzb at 1. rewrite firstn_app_zz by lia. f_equal. rewrite <- Hz at 1. apply firstn_zlen. }
      destruct (IH b2 (skipn (Z.to_nat n) rest) (pos + n) Hok2) as (e3 & n3 & b3 & -> & Hok3 & Hn3 & He3 & Hst3).
      { rewrite zlen_skipn by lia. lia. }
      rewrite zlen_skipn in * by lia. exists e3, (n + n3), b3. rewrite Z.add_assoc. split; [reflexivity|]. split; [assumption|].
      split; [lia|]. split; [intros H; specialize (He3 H); lia|]. rewrite Hst3, Hb2. unfold b2; cbn [bu].
      rewrite app_assoc, (app_assoc _ (behind b1)), Hst, <- !app_assoc. do 2 f_equal.
      rewrite <- (firstn_skipn (Z.to_nat n) rest) at 3. replace n with (zlen (firstn (Z.to_nat n) rest)) at 3 by exact Hz.
      rewrite firstn_app_zz by lia. reflexivity.
Qed.
(** C38, writes. *)
Lemma buf_write_ok b bs : buf_ok b ->
  exists e n b', buf_write uwr b bs = Some (e, n, b') /\ buf_ok b' /\ 0 <= n <= zlen bs /\ (e = ERR_NONE -> n = zlen bs) /\
    stored (bu b') ++ behind b' = stored (bu b) ++ behind b ++ firstn (Z.to_nat n) bs.
Proof.
  intros Hok. destruct (buf_write_loop_ok (length bs) b bs 0 Hok ltac:(unfold zlen; lia)) as (e & n & b' & H & R).
  exists e, n, b'. split; [exact H|exact R].
Qed.
Lemma buf_writes_ok ws : forall b, buf_ok b -> exists acc b', buf_writes uwr b ws = Some (acc, b') /\ buf_ok b' /\
  stored (bu b') ++ behind b' = stored (bu b) ++ behind b ++ acc.
Proof.
  induction ws as [|w ws IH]; intros b Hok; cbn [buf_writes].
  - exists [], b. rewrite app_nil_r. auto.
  - destruct (buf_write_ok b w Hok) as (e & n & b1 & -> & Hok1 & Hn & He & Hst). destruct (IH b1 Hok1) as (acc & b2 & -> & Hok2 & Hst2).
    exists (firstn (Z.to_nat n) w ++ acc), b2. split; [reflexivity|]. split; [assumption|].
    rewrite Hst2, app_assoc, Hst, <- !app_assoc. reflexivity.
Qed.
Lemma buf_writes_flush ws b : buf_ok b -> exists acc b1 e b2, buf_writes uwr b ws = Some (acc, b1) /\ buf_flush uwr b1 = Some (e, b2) /\
  (e = ERR_NONE -> stored (bu b2) = stored (bu b) ++ behind b ++ acc).
Proof.
  intros Hok. destruct (buf_writes_ok ws b Hok) as (acc & b1 & H1 & Hok1 & Hst). destruct (buf_flush_ok b1 Hok1) as (e & b2 & H2 & Hok2 & Hst2 & He & _).
  exists acc, b1, e, b2. split; [assumption|]. split; [assumption|]. intros H. rewrite <- Hst, <- Hst2. unfold behind. rewrite (He H). cbn. symmetry; apply app_nil_r.
Qed.
End Writing.
