(** Properties of memory and buffering streams. *)
From Verif Require Import Base BaseProofs Arr Stream StreamSpec StreamProofs.

(** ** C37 *)
Theorem C37_memory_stream_is_a_file : forall ops m os c' cur',
  0 <= mpos m <= zlen (mptr m) -> 0 <= mvoff m -> zlen (mptr m) + mvoff m < 2 ^ 63 ->
  Forall (op_small (zlen (mptr m) + mvoff m)) ops ->
  file_run (mvoff m) (mptr m) (mpos m) ops = Some (os, c', cur') ->
  mem_run m ops = Some (os, mkMem c' cur' (mvoff m)) /\ 0 <= cur' <= zlen c' /\ zlen c' = zlen (mptr m).
Proof. exact mem_run_file. Qed.
Print Assumptions C37_memory_stream_is_a_file.
(** Without a virtual offset no history leaves the contract. *)
Theorem C37_no_offset_no_restriction : forall ops c cur, 0 <= cur <= zlen c ->
  Forall (fun op => match op with FRead n => 0 <= n | _ => True end) ops -> exists r, file_run 0 c cur ops = Some r.
Proof. exact file_run_total_zero. Qed.
Print Assumptions C37_no_offset_no_restriction.
(** Finding: a seek before the virtual offset is accepted and leaves the position outside the block. *)
Theorem C37_seek_before_offset_refuted : forall m t, 0 <= t < mvoff m -> mvoff m < 2 ^ 63 -> zlen (mptr m) < 2 ^ 63 ->
  exists m', mem_seek m t SeekSet = (t, m') /\ zlen (mptr m') < mpos m' /\ forall n, mem_read m' n = None.
Proof. exact mem_seek_before_offset. Qed.
Print Assumptions C37_seek_before_offset_refuted.
(** Finding: the written count is mandatory, although other streams and the buffering stream (see C38)
    pass NULL. *)
Theorem C37_null_count_refuted : forall m bs, mem_write m bs false = None.
Proof. reflexivity. Qed.
Print Assumptions C37_null_count_refuted.
Example C37_case : let m := mkMem [1;2;3;4;5] 0 100 in
  let ops := [FRead 2; FSeek (-1) SeekCur; FWrite [8;9]; FRead 9; FSeek 102 SeekSet; FWrite [0;0;0;0]; FSeek (-4) SeekEnd; FRead 4] in
  Forall (op_small 105) ops /\
  file_run 100 [1;2;3;4;5] 0 ops =
    Some ([ORead 0 [1;2]; OSeek 101; OWrite 0 2; ORead (-9) [4;5]; OSeek 102; OWrite (-4) 0; OSeek 101; ORead 0 [8;9;4;5]], [1;8;9;4;5], 5) /\
  mem_seek m 7 SeekSet = (7, mkMem [1;2;3;4;5] (2 ^ 64 - 93) 100).
Proof. split; [repeat constructor; cbn; lia|]. vm_compute. split; reflexivity. Qed.

(** ** C38 *)
Theorem C38_reads_lose_nothing : forall U (content : U -> list Z) urd sizes b, reader_ok content urd -> buf_ok b ->
  Forall (fun n => 0 <= n) sizes ->
  exists r b', buf_reads urd b sizes = Some (r, b') /\ buf_ok b' /\
    ahead b ++ content (bu b) = concat (map snd r) ++ ahead b' ++ content (bu b').
Proof. intros U content urd sizes b H. exact (buf_reads_ok content urd H sizes b). Qed.
Print Assumptions C38_reads_lose_nothing.
Theorem C38_reads_like_the_file : forall sizes (b : bufs (list Z)), buf_ok b -> Forall (fun n => 0 <= n) sizes ->
  exists b', buf_reads plain_read b sizes = Some (fst (plain_reads (ahead b ++ bu b) sizes), b') /\
    ahead b' ++ bu b' = snd (plain_reads (ahead b ++ bu b) sizes).
Proof. exact buf_reads_plain. Qed.
Print Assumptions C38_reads_like_the_file.
Theorem C38_writes_arrive_in_order : forall U (stored : U -> list Z) uwr ws b,
  writer_ok stored uwr -> writer_atomic uwr -> buf_ok b ->
  exists acc b1 e b2, buf_writes uwr b ws = Some (acc, b1) /\ buf_flush uwr b1 = Some (e, b2) /\
    (e = ERR_NONE -> stored (bu b2) = stored (bu b) ++ behind b ++ acc).
Proof. intros U stored uwr ws b H1 H2. exact (buf_writes_flush stored uwr H1 H2 ws b). Qed.
Print Assumptions C38_writes_arrive_in_order.
Theorem C38_write : forall U (stored : U -> list Z) uwr b bs, writer_ok stored uwr -> writer_atomic uwr -> buf_ok b ->
  exists e n b', buf_write uwr b bs = Some (e, n, b') /\ buf_ok b' /\ 0 <= n <= zlen bs /\ (e = ERR_NONE -> n = zlen bs) /\
    stored (bu b') ++ behind b' = stored (bu b) ++ behind b ++ firstn (Z.to_nat n) bs.
Proof. intros U stored uwr b bs H1 H2. exact (buf_write_ok stored uwr H1 H2 b bs). Qed.
Print Assumptions C38_write.
(** Attaching another stream passes the pending bytes on (if the old stream takes them) and starts the
    new one with nothing buffered in either direction. *)
Theorem C38_attach : forall U (stored : U -> list Z) uwr (b : bufs U) u, writer_ok stored uwr -> writer_atomic uwr -> buf_ok b ->
  exists e b1 b', buf_flush uwr b = Some (e, b1) /\ buf_attach uwr b u = Some (bu b1, b') /\
    buf_ok b' /\ bu b' = u /\ ahead b' = [] /\ behind b' = [] /\
    (e = ERR_NONE -> stored (bu b1) = stored (bu b) ++ behind b).
Proof.
  intros U stored uwr b u H1 H2 Hb. unfold buf_attach. destruct (buf_flush_ok stored uwr H1 H2 b Hb) as (e & b1 & Hf & Hb1 & Hst & He & _).
  exists e, b1. rewrite Hf. eexists. split; [reflexivity|]. split; [reflexivity|]. destruct Hb1 as (Hz & _).
  split; [unfold buf_ok; cbn [bbuf brpos brsize bwpos]; unfold BUFSTREAM_SIZE in *; lia|].
  do 3 (split; [reflexivity|]). intros ->. rewrite <- Hst. unfold behind. rewrite (He eq_refl). cbn. rewrite app_nil_r. reflexivity.
Qed.
Print Assumptions C38_attach.
Example C38_attach_case :
  option_map (fun r => (fst r, bu (snd r), ahead (snd r), behind (snd r)))
    (buf_attach (fun (u : list Z) bs => (0, zlen bs, u ++ bs)) (mkBuf [1] 2 9 3 (repeat 7 (Z.to_nat 4096))) [5; 5]) = Some ([1; 7; 7; 7], [5; 5], [], []).
Proof. vm_compute. reflexivity. Qed.
(** Finding: one buffer serves both directions, so a write between two reads changes what is read. *)
Theorem C38_interleaving_refuted : exists (b b1 b2 b3 : bufs (list Z)) uwr, buf_ok b /\ bu b = repeat 1 10 /\
  buf_read plain_read b 1 = Some (ERR_NONE, [1], b1) /\ buf_write uwr b1 [9; 9; 9] = Some (ERR_NONE, 3, b2) /\
  buf_read plain_read b2 2 = Some (ERR_NONE, [9; 9], b3).
Proof.
  exists (mkBuf (repeat 1 10) 0 0 0 (repeat 0 (Z.to_nat 4096))). do 3 eexists. exists (fun u bs => (0, zlen bs, u)).
  split; [unfold buf_ok; vm_compute; repeat split; discriminate|]. split; [reflexivity|].
  split; [vm_compute; reflexivity|]. split; vm_compute; reflexivity.
Qed.
Print Assumptions C38_interleaving_refuted.
(** Finding: when the underlying stream stores part of a flush and fails, the retry stores it again.
    The writer below keeps what it stored and whether it already failed once. *)
Definition flaky (u : list Z * bool) (bs : list Z) : Z * Z * (list Z * bool) :=
  if snd u then (ERR_NONE, zlen bs, (fst u ++ bs, true))
  else (ERR_INVALID_DATA, Z.min 1 (zlen bs), (fst u ++ firstn 1 bs, true)).
Theorem C38_partial_flush_refuted : writer_ok (fun u => fst u) flaky /\
  exists (b b1 b2 b3 : bufs (list Z * bool)), buf_ok b /\ bu b = ([], false) /\
  buf_write flaky b [5; 6] = Some (ERR_NONE, 2, b1) /\ buf_flush flaky b1 = Some (ERR_INVALID_DATA, b2) /\
  buf_flush flaky b2 = Some (ERR_NONE, b3) /\ fst (bu b3) = [5; 5; 6].
Proof.
  split.
  - intros u bs. unfold flaky. pose proof (zlen_nonneg bs). destruct (snd u); cbn [fst].
    + split; [lia|]. split; [|reflexivity]. rewrite firstn_all_z by lia. reflexivity.
    + split; [lia|]. split; [|discriminate]. f_equal. destruct bs as [|x bs]; [reflexivity|]. rewrite zlen_cons in *. pose proof (zlen_nonneg bs). replace (Z.min 1 (zlen bs + 1)) with 1 by lia. reflexivity.
  - exists (mkBuf ([], false) 0 0 0 (repeat 0 (Z.to_nat 4096))). do 3 eexists.
    split; [unfold buf_ok; vm_compute; repeat split; discriminate|]. split; [reflexivity|].
    split; [vm_compute; reflexivity|]. split; [vm_compute; reflexivity|]. split; vm_compute; reflexivity.
Qed.
Print Assumptions C38_partial_flush_refuted.
Example C38_case : let b := mkBuf (repeat 1 10 ++ repeat 2 10) 0 0 0 (repeat 0 (Z.to_nat 4096)) in
  buf_ok b /\ reader_ok (fun u => u) plain_read /\
  match buf_reads plain_read b [3; 9; 0; 20; 4] with
  | Some (r, _) => r = [(0, [1;1;1]); (0, [1;1;1;1;1;1;1;2;2]); (0, []); (-9, repeat 2 8); (-9, [])]
  | None => False end /\
  match buf_writes (fun (u : list Z) bs => (0, zlen bs, u ++ bs)) (mkBuf [] 0 0 0 (bbuf b)) [repeat 7 3; repeat 8 (Z.to_nat 5000); []; [6]] with
  | Some (acc, b1) => acc = repeat 7 3 ++ repeat 8 (Z.to_nat 5000) ++ [6] /\ bu b1 = repeat 7 3 ++ repeat 8 (Z.to_nat 4093)
  | None => False end.
Proof.
  split; [unfold buf_ok; vm_compute; repeat split; discriminate|]. split; [exact plain_reader_ok|].
  vm_compute. repeat split; reflexivity.
Qed.
