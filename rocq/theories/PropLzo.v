(** Properties of LZO decompression. *)
From Verif Require Import Base BaseProofs TreeProofs3 Ebml Stream Finder Tree TreeRead Block BlockSpec BlockProofs BlockProofs2 BlockProofs4 PropBlock Lzo LzoSpec LzoProofs LzoProofs2 LzoProofs3 LzoBlock LzoBlockProofs.

(** ** C36 *)
(** lzokay_decompress on any input, with a byte that is not zero somewhere after it: it ends, reads and
    writes only inside its buffers, and counts no more bytes than the output can hold. *)
Theorem C36_bounded : forall tail src cap, bytes_ok src -> 0 <= cap -> stops tail ->
  exists code out, lzo tail src cap = Ok (code, out) /\ zlen out <= cap.
Proof. intros tail src cap Hb Hc Ht. destruct (lzo_inv tail src cap Hb Hc) as [[_ F]|(code & fin & E & Hf & _)]; [contradiction|]. exists code, fin. auto. Qed.
Print Assumptions C36_bounded.
(** Without such a byte it still ends, and only the scan for zero bytes may leave the input. *)
Theorem C36_ends : forall tail src cap, bytes_ok src -> 0 <= cap ->
  (exists code out, lzo tail src cap = Ok (code, out) /\ zlen out <= cap) \/ (lzo tail src cap = Bad /\ ~ stops tail).
Proof. intros tail src cap Hb Hc. destruct (lzo_inv tail src cap Hb Hc) as [[E F]|(code & fin & E & Hf & _)]; [right; auto|]. left. exists code, fin. auto. Qed.
Print Assumptions C36_ends.
(** It succeeds exactly on the streams of the format whose content fits, with that content. *)
Theorem C36_exact : forall tail src cap out, bytes_ok src -> zlen src < 2 ^ 48 -> 0 <= cap ->
  lzo tail src cap = Ok (L_SUCCESS, out) <-> lzo_stream src out /\ zlen out <= cap.
Proof.
  intros tail src cap out Hb Hz Hc. split.
  - intros E. destruct (lzo_inv tail src cap Hb Hc) as [[E' _]|(code & fin & E' & Hf & D)]; rewrite E in E'; [discriminate|]. apply ok_inj in E'. injection E' as <- <-. split; [|exact Hf].
    destruct D as [[F _]|(used & extra & -> & V & S)]; [destruct F; reflexivity|]. destruct extra; [|discriminate V]. rewrite app_nil_r. exact S.
  - intros [S Hf]. rewrite <- (app_nil_r src). apply (lzo_ok tail src [] out cap S Hb); try assumption. change MAX255 with ((2 ^ 64 - 1) / 255 - 2). lia.
Qed.
Print Assumptions C36_exact.
(** A stream followed by other bytes is decoded and reported; one too long for the output is refused,
    with the beginning of its content; neither depends on the memory after the input. *)
Theorem C36_not_consumed : forall tail src extra cap out, bytes_ok src -> zlen src < 2 ^ 48 -> 0 <= cap -> lzo_stream src out -> zlen out <= cap -> extra <> [] ->
  lzo tail (src ++ extra) cap = Ok (L_NOT_CONSUMED, out).
Proof.
  intros tail src extra cap out Hb Hz Hc S Hf He. destruct (lzo_ok tail src extra out cap S Hb) as [H _]; [change MAX255 with ((2 ^ 64 - 1) / 255 - 2); lia|exact Hc|].
  rewrite H by exact Hf. destruct extra; [destruct He; reflexivity|reflexivity].
Qed.
Print Assumptions C36_not_consumed.
Theorem C36_too_long : forall tail src cap out, bytes_ok src -> zlen src < 2 ^ 48 -> 0 <= cap -> lzo_stream src out -> cap < zlen out ->
  exists p w, lzo tail src cap = Ok (L_OUT, p) /\ out = p ++ w /\ zlen p <= cap.
Proof.
  intros tail src cap out Hb Hz Hc S Hf. destruct (lzo_ok tail src [] out cap S Hb) as [_ H]; [change MAX255 with ((2 ^ 64 - 1) / 255 - 2); lia|exact Hc|].
  rewrite app_nil_r in H. exact (H Hf).
Qed.
Print Assumptions C36_too_long.

Lemma long_code top n : top < n -> exists c, long_length top n c /\ bytes_ok c /\ zlen c <= (n - top) / 255 + 1.
Proof.
  intros H. exists (repeat 0 (Z.to_nat ((n - top - 1) / 255)) ++ [(n - top - 1) mod 255 + 1]). split; [|split].
  - exists ((n - top - 1) / 255), ((n - top - 1) mod 255 + 1). repeat split; lia.
  - apply Forall_app. split; [apply Forall_forall; intros x Hx; apply repeat_spec in Hx; subst x; unfold is_byte; lia|]. constructor; [unfold is_byte; lia|constructor].
  - rewrite zlen_app, zlen_repeat. change (zlen [_]) with 1. lia.
Qed.
(** Every string of bytes has a compressed form. *)
Theorem C36_every : forall out, bytes_ok out -> exists src, lzo_stream src out /\ bytes_ok src /\ zlen src <= zlen out + zlen out / 255 + 5.
Proof.
  intros out Hb. assert (He : bytes_ok [17; 0; 0]) by (repeat constructor; unfold is_byte; lia).
  destruct (Z.le_gt_cases (zlen out) 0) as [H0|H0].
  { exists [17; 0; 0]. pose proof (zlen_nonneg out). rewrite (zlen_zero out) by lia. split; [apply s_plain, r_end; lia|]. split; [exact He|]. vm_compute. discriminate. }
  destruct (Z.le_gt_cases (zlen out) 238) as [H1|H1].
  - exists ((zlen out + 17) :: out ++ [17; 0; 0]). split; [apply s_lits; [lia|apply r_end; lia]|]. split; [constructor; [unfold is_byte; lia|apply Forall_app; auto]|].
    rewrite zlen_cons, zlen_app. change (zlen [17; 0; 0]) with 3. lia.
  - destruct (long_code 18 (zlen out)) as (c & L & Bc & Lc); [lia|]. exists (((0 :: c) ++ out) ++ [17; 0; 0]). split; [|split].
    + apply s_plain. apply r_step with (st' := 4) (out' := out); [|apply r_end; lia]. apply (m1_lits []). right. exists c. split; [exact L|reflexivity].
    + apply Forall_app. split; [|exact He]. apply Forall_app. split; [|exact Hb]. constructor; [unfold is_byte; lia|exact Bc].
    + rewrite !zlen_app, zlen_cons. change (zlen [17; 0; 0]) with 3. lia.
Qed.
Print Assumptions C36_every.

(** "abcabcabcabcabd": three literals, an overlapping copy and a literal. *)
Definition ex_src : list Z := [20; 97; 98; 99; 41; 9; 0; 100; 17; 0; 0].
Definition ex_out : list Z := [97; 98; 99; 97; 98; 99; 97; 98; 99; 97; 98; 99; 97; 98; 100].
Example C36_ex : lzo_stream ex_src ex_out /\ lzo [] ex_src 20 = Ok (L_SUCCESS, ex_out) /\ lzo [] ex_src 14 = Ok (L_OUT, [97; 98; 99]) /\
  lzo [] (ex_src ++ [0]) 20 = Ok (L_NOT_CONSUMED, ex_out).
Proof.
  assert (E : lzo [] ex_src 20 = Ok (L_SUCCESS, ex_out)) by (vm_compute; reflexivity).
  split; [|split; [exact E|split; vm_compute; reflexivity]]. apply (C36_exact [] ex_src 20 ex_out) in E; [apply E| |vm_compute; reflexivity|lia].
  repeat constructor; unfold is_byte; lia.
Qed.
Example C36_stops_ex : stops [0; 0; 7] /\ lzo [0; 0; 7] [0; 0; 0] 20 = Ok (L_IN, []).
Proof. split; [right; right; left; discriminate|vm_compute; reflexivity]. Qed.

(** Finding: an input that stops inside a length is scanned beyond its end. *)
Theorem C36_overread_refuted : lzo [] [0; 0; 0] 20 = Bad /\ lzo [0; 0; 0; 0] [20; 97; 98; 99; 32] 20 = Bad.
Proof. split; vm_compute; reflexivity. Qed.
Print Assumptions C36_overread_refuted.

(** ** C55 *)
(** A block of a track compressed with LZO, in any lacing, whose frames expand to at most four times
    their size or 2048 bytes: reading it gives the frames. *)
Theorem C55_frames : forall fuel r junk s pos track time key disc invis lacing cs fs bs, 0 <= track < 16384 -> -32768 <= time < 32768 ->
  block_code 4 (b_simple r) track time key disc invis lacing cs bs -> placed fuel r s bs [] cs -> (lacing = 2 -> zlen cs < 256) -> Forall2 packs cs fs ->
  exists r' q, read_lzo_block fuel r junk s pos = Ok (ERR_NONE, r', q) /\ shows r' track time key disc invis lacing /\ holds (b_sizes r') (b_data r') fs.
Proof. exact read_lzo_block_ok. Qed.
Print Assumptions C55_frames.
(** Whatever the bytes of the frames, reading a laced block ends, with a size table that matches the data. *)
Theorem C55_total : forall junk buf sizes, stops junk -> Forall (fun z => 0 <= z < 2 ^ 29) sizes -> bytes_ok buf -> fold_right Z.add 0 sizes <= zlen buf ->
  exists err sz d, lzo_frames junk buf sizes = Ok (err, sz, d) /\ length sz = length sizes /\ (err = ERR_NONE -> fold_right Z.add 0 sz = zlen d /\ Forall (fun z => 0 <= z) sz).
Proof. intros. apply lzo_frames_total; assumption. Qed.
Print Assumptions C55_total.
Definition ex_lzo_file : list Z := [129; 0; 5; 132; 1] ++ ex_src ++ ex_src.
Lemma ex_packs : packs ex_src ex_out.
Proof. split; [apply C36_ex|]. split; [repeat constructor; unfold is_byte; lia|]. split; vm_compute; [reflexivity|discriminate]. Qed.
Example C55_ex : block_code 4 true 1 5 true false false 2 [ex_src; ex_src] ex_lzo_file /\ Forall2 packs [ex_src; ex_src] [ex_out; ex_out] /\
  placed 10 (found true 27 0) (file ex_lzo_file) ex_lzo_file [] [ex_src; ex_src] /\
  match read_lzo_block 10 (found true 27 0) [] (file ex_lzo_file) 0 with Ok (err, b, q) => (err, b_sizes b, b_data b, q) = (0, [15; 15], ex_out ++ ex_out, 27) | _ => False end.
Proof.
  split; [|split; [constructor; [exact ex_packs|constructor; [exact ex_packs|constructor]]|split; [|vm_compute; reflexivity]]].
  - exists [1]. split; [|reflexivity]. apply (lace_fixed 4 ex_src [ex_src]); [vm_compute; reflexivity|repeat constructor].
  - split; [intros H; discriminate H|]. split; [|split; [vm_compute; discriminate|split; [reflexivity|split; [vm_compute; reflexivity|split; [reflexivity|split; repeat constructor; vm_compute; reflexivity]]]]].
    unfold at_pos. cbn [found b_dpos]. split; [lia|]. split; [vm_compute; discriminate|vm_compute; reflexivity].
Qed.
(** Findings.  A valid frame that expands more is refused. *)
Definition dense : list Z := [18; 7; 32; 0; 0; 0; 0; 0; 0; 0; 0; 50; 0; 0; 17; 0; 0].
Theorem C55_dense_refuted : (exists f, lzo_stream dense f /\ zlen f = 2124) /\
  match read_lzo_block 10 (found true 21 0) [] (file ([129; 0; 5; 128] ++ dense)) 0 with Ok (err, _, _) => err = ERR_INVALID_DATA | _ => False end.
Proof.
  split; [|vm_compute; reflexivity]. exists (repeat 7 (Z.to_nat 2124)).
  assert (E : lzo [] dense 3000 = Ok (L_SUCCESS, repeat 7 (Z.to_nat 2124))) by (vm_compute; reflexivity).
  split; [|rewrite zlen_repeat; lia]. apply (C36_exact [] dense 3000) in E; [apply E| |vm_compute; reflexivity|lia]. repeat constructor; unfold is_byte; lia.
Qed.
Print Assumptions C55_dense_refuted.
(** An unlaced block that could not be read counts as read: asked again, it succeeds. *)
Theorem C55_retry_refuted : forall s pos, exists b, b_set b = false /\
  match read_lzo b [] (file [129; 0; 5; 128; 1; 2; 3]) 0 with Ok (err, b', q) => err = ERR_INVALID_DATA /\ read_lzo b' [] s pos = Ok (ERR_NONE, b', pos) | _ => False end.
Proof.
  intros s pos. destruct (read_head 10 (found true 7 0) (file [129; 0; 5; 128; 1; 2; 3]) 0) as [| | |[[err b] q]] eqn:E; try (vm_compute in E; discriminate).
  exists b. vm_compute in E. injection E as <- <- <-. split; [reflexivity|]. vm_compute. split; reflexivity.
Qed.
Print Assumptions C55_retry_refuted.
