(** C127, C128: frames and blocks compressed with zlib. *)
From Verif Require Import Base BaseProofs FinderSpec Arr ArrProofs2 Void Vint VintSpec VintProofs StreamProofs Stream Ebml Tree TreeRead TreeProofs2 TreeProofs3.
From Verif Require Import Block BlockSpec BlockProofs BlockProofs2 BlockProofs3 Frame BlockProofs4 BlockProofs5 BlockProofs6 PropBlock Zlib ZlibSpec ZlibProofs ZlibProofs2 ZlibProofs3.

(** ** A small compressor that keeps the promises of ZlibSpec.v, for the examples *)

(** A run as [1; count; value], anything else as [0; count] and the bytes; then [k] zeros as a checksum. *)
Definition toy_code (k : nat) (d : list Z) : list Z :=
  match d with
  | x :: l => if forallb (fun y => y =? x) l then [1; zlen d; x] ++ repeat 0 (S k) else 0 :: zlen d :: d ++ repeat 0 (S k)
  | [] => [0; 0] ++ repeat 0 (S k)
  end.
Definition toy_start (c : list Z) : option (list Z * bool) :=
  match c with
  | 1 :: n :: x :: 0 :: _ => Some (repeat x (Z.to_nat n), true)
  | 0 :: n :: r => Some (firstn (Z.to_nat n) r, (0 <=? n) && (n <? zlen r) && (nth (Z.to_nat n) r 1 =? 0))
  | _ => None
  end.
Definition toy_call (st : list Z * bool) (n : Z) : zres * list Z * (list Z * bool) :=
  let '(d, ok) := st in
  if zlen d <=? n then (if ok then ZEnd else ZErr, d, ([], ok)) else (ZOk, firstn (Z.to_nat n) d, (skipn (Z.to_nat n) d, ok)).
Definition toy_put (c : list Z) (n : Z) : zres * list Z * list Z :=
  if (0 <? n) && (zlen c <=? n) then (ZEnd, c, []) else (ZOk, firstn (Z.to_nat n) c, skipn (Z.to_nat n) c).
Definition toy (k : nat) : zlib := Zlib (list Z * bool) toy_start toy_call (fun _ => 1) (list Z) (fun d => Some (toy_code k d)) toy_put.

Lemma toy_inflating k : inflating (toy k) (fun st d => st = (d, true)).
Proof.
  intros st d n -> Hn. cbn [toy z_icall z_ileft]. unfold toy_call. destruct (zlen d <=? n) eqn:E.
  - left. split; [lia|]. split; reflexivity.
  - right. split; [lia|]. repeat (split; [reflexivity || lia|]). reflexivity.
Qed.
Lemma toy_deflating k : deflating (toy k) (fun st c => st = c).
Proof.
  intros st c n -> Hn. cbn [toy z_ocall]. unfold toy_put. destruct ((0 <? n) && (zlen c <=? n)) eqn:E.
  - left. apply andb_true_iff in E. repeat (split; [lia || reflexivity|]). reflexivity.
  - right. split; [|split; [discriminate|split; reflexivity]]. destruct (0 <? n) eqn:E0; cbn [andb] in E; [lia|]. pose proof (zlen_nonneg c). lia.
Qed.
Lemma toy_codes k : codes (toy k) (toy_code k).
Proof.
  intros d. split; [exists (fun st c => st = c), (toy_code k d); split; [apply toy_deflating|split; reflexivity]|].
  exists (fun st d => st = (d, true)), (d, true). split; [apply toy_inflating|]. split; [|reflexivity]. cbn [toy z_istart].
  destruct d as [|x l]; [reflexivity|]. cbn [toy_code]. destruct (forallb (fun y => y =? x) l) eqn:E.
  - cbn [app repeat toy_start]. assert (R : repeat x (Z.to_nat (zlen (x :: l))) = x :: l); [|rewrite R; reflexivity]. unfold zlen. rewrite Nat2Z.id. cbn [length repeat]. f_equal. induction l as [|y l IH]; [reflexivity|]. cbn [forallb length repeat] in *. apply andb_true_iff in E. destruct E as [E1 E2]. rewrite (IH E2). replace y with x by lia. reflexivity.
  - cbn [toy_start]. assert (N : Z.to_nat (zlen (x :: l)) = length (x :: l)) by (unfold zlen; lia). rewrite N. rewrite firstn_app, firstn_all, Nat.sub_diag. cbn [firstn]. rewrite app_nil_r.
    rewrite app_nth2, Nat.sub_diag by lia. cbn [repeat nth]. change (0 =? 0) with true. rewrite zlen_app, !zlen_cons. pose proof (zlen_nonneg l). pose proof (zlen_nonneg (repeat 0 k)).
    replace (0 <=? zlen l + 1) with true by lia. replace (zlen l + 1 <? zlen l + 1 + (zlen (repeat 0 k) + 1)) with true by lia. reflexivity.
Qed.

(** ** C127: frames *)

(** A whole stream gives its bytes after those the array has, whatever their number. *)
Theorem C127_uncompress : forall z junk fuel c d buf off, inflates z c d -> 0 <= off <= zlen buf -> zlen d / 1024 + 1 < Z.of_nat fuel ->
  exists buf', uncompress_frame z junk fuel c buf off = Ok (ERR_NONE, buf', zlen d, off + zlen d) /\ firstn (Z.to_nat (off + zlen d)) buf' = firstn (Z.to_nat off) buf ++ d /\ off + zlen d <= zlen buf'.
Proof. exact uncompress_ok. Qed.
Print Assumptions C127_uncompress.
Example C127_uncompress_ex : inflates (toy 3) (toy_code 3 [4; 4; 4; 4]) [4; 4; 4; 4] /\ toy_code 3 [4; 4; 4; 4] = [1; 4; 4; 0; 0; 0; 0] /\
  exists buf, uncompress_frame (toy 3) 99 5 [1; 4; 4; 0; 0; 0; 0] [8; 9] 2 = Ok (ERR_NONE, buf, 4, 6) /\ firstn 6 buf = [8; 9; 4; 4; 4; 4].
Proof. split; [apply toy_codes|]. split; [reflexivity|]. eexists. split; vm_compute; reflexivity. Qed.

(** A cut or damaged one is refused, after a bounded number of turns; the bytes before stay. *)
Theorem C127_damaged : forall z junk fuel c m buf off, damaged z c m -> 0 <= m -> 0 <= off <= zlen buf -> m / 1024 + 1 < Z.of_nat fuel ->
  exists buf' n off', uncompress_frame z junk fuel c buf off = Ok (ERR_INVALID_DATA, buf', n, off') /\ 0 <= n <= m /\ firstn (Z.to_nat off) buf' = firstn (Z.to_nat off) buf.
Proof. exact uncompress_damaged. Qed.
Print Assumptions C127_damaged.
Lemma toy_failing k : failing (toy k) (fun st m => snd st = false /\ zlen (fst st) = m).
Proof.
  intros [d ok] m n [H1 H2] Hn. cbn [fst snd] in *. subst ok m. cbn [toy z_icall]. unfold toy_call. destruct (zlen d <=? n) eqn:E.
  - split; [discriminate|]. split; [lia|]. split; [lia|]. split; [reflexivity|]. cbn [fst]. change (zlen (@nil Z)) with 0. lia.
  - split; [discriminate|]. assert (L : zlen (firstn (Z.to_nat n) d) = n) by (unfold zlen in *; rewrite firstn_length; lia). rewrite L. split; [lia|]. split; [lia|]. split; [reflexivity|]. cbn [fst]. unfold zlen in *. rewrite skipn_length. lia.
Qed.
Example C127_damaged_ex : damaged (toy 0) [0; 5; 1; 2] 2 /\ damaged (toy 0) [7] 0.
Proof. split; [|left; reflexivity]. right. exists (fun st m => snd st = false /\ zlen (fst st) = m), ([1; 2], false). split; [apply toy_failing|]. split; [reflexivity|split; reflexivity]. Qed.

(** Compressing gives the stream, as much of it as the buffer takes, and its whole size. *)
Theorem C127_compress : forall z fuel d c room, deflates z d c -> d <> [] -> zlen c / zlen d + 1 < Z.of_nat fuel ->
  compress_frame z fuel d room = Ok (ERR_NONE, firstn (Z.to_nat room) c, zlen c).
Proof. intros z fuel d c room H N F. exact (compress_ok z fuel d c room H N F). Qed.
Print Assumptions C127_compress.
Example C127_compress_ex : deflates (toy 0) [1; 2] [0; 2; 1; 2; 0] /\ compress_frame (toy 0) 5 [1; 2] 4 = Ok (ERR_NONE, [0; 2; 1; 2], 5).
Proof. split; [exact (proj1 (toy_codes 0 [1; 2]))|vm_compute; reflexivity]. Qed.

(** What was compressed into a buffer that is large enough comes back. *)
Theorem C127_round_trip : forall z junk e, codes z e -> forall d room fuel fuel2 buf off, d <> [] -> zlen (e d) <= room -> zlen (e d) / zlen d + 1 < Z.of_nat fuel -> zlen d / 1024 + 1 < Z.of_nat fuel2 -> 0 <= off <= zlen buf ->
  exists c buf', compress_frame z fuel d room = Ok (ERR_NONE, c, zlen c) /\ uncompress_frame z junk fuel2 c buf off = Ok (ERR_NONE, buf', zlen d, off + zlen d) /\
    firstn (Z.to_nat (off + zlen d)) buf' = firstn (Z.to_nat off) buf ++ d.
Proof.
  intros z junk e C d room fuel fuel2 buf off N R F F2 O. destruct (uncompress_ok z junk fuel2 (e d) d buf off (proj2 (C d)) O F2) as (buf' & E & Q & _). exists (e d), buf'. split; [|split; assumption].
  rewrite (compress_ok z fuel d (e d) room (proj1 (C d)) N F). rewrite firstn_all2 by (unfold zlen in R; lia). reflexivity.
Qed.
Print Assumptions C127_round_trip.
Example C127_round_trip_ex : codes (toy 7) (toy_code 7) /\ compress_frame (toy 7) 9 [3; 1; 4; 1; 5] 15 = Ok (ERR_NONE, [0; 5; 3; 1; 4; 1; 5; 0; 0; 0; 0; 0; 0; 0; 0], 15).
Proof. split; [apply toy_codes|vm_compute; reflexivity]. Qed.

(** Finding: a frame without bytes is given no room to be compressed into, for ever. *)
Theorem C127_empty_refuted : forall z c room, deflates z [] c -> forall fuel, compress_frame z fuel [] room = Fuel.
Proof. intros z c room H fuel. exact (compress_empty z fuel c room H). Qed.
Print Assumptions C127_empty_refuted.
Example C127_empty_ex : deflates (toy 0) [] [0; 0; 0].
Proof. exact (proj1 (toy_codes 0 [])). Qed.

(** ** C128: blocks *)

(** The tracks of the examples. *)
Definition ztrack : encodings := Some [mkEnc true None (Some (mkCompr (Some 0) None))].
Lemma ztrack_ok : zlib_track ztrack.
Proof. constructor; [exact I|right; reflexivity]. Qed.

(** The block written has the frames compressed one by one, and as many bytes as computed before. *)
Theorem C128_write : forall z e, codes z e -> forall fuel b t fs, 0 <= b_track b < 16384 -> -32768 <= b_time b < 32768 -> zlib_track t -> b_set b = true -> holds (b_sizes b) (b_data b) fs ->
  lace_ok (b_lacing b) (map e fs) -> Forall (fun f => f <> [] /\ zlen (e f) / zlen f + 1 < Z.of_nat fuel) fs -> Forall (fun f => zlen (e f) <= zlen f + 100) fs ->
  exists bs, block_code 4 (b_simple b) (b_track b) (b_time b) (b_key b) (b_disc b) (b_invis b) (b_lacing b) (map e fs) bs /\
    (forall o, room o (zlen bs) -> z_render z fuel b t o = Ok (ERR_NONE, zlen bs, o_put o bs)) /\
    (b_need b = true -> exists b', z_update z fuel b t = Ok (zlen bs, b') /\ b_dsize b' = zlen bs /\ b_need b' = false).
Proof.
  intros z e C fuel b t fs Ht Hm Hz Hs Hh Hl Hso Hfi. destruct (z_render_ok z e C fuel b t fs Ht Hm Hz Hs Hh Hl Hso Hfi) as (bs & H1 & H2 & H3). exists bs. split; [exact H1|]. split; [exact H2|].
  intros N. eexists. split; [exact (H3 N)|]. split; reflexivity.
Qed.
Print Assumptions C128_write.
Example C128_write_ex : lace_ok 1 (map (toy_code 0) [[7; 7; 7]; [1; 2]]) /\
  z_render (toy 0) 10 (made true 1 0 true false false 1 [[7; 7; 7]; [1; 2]]) ztrack (OFile [] 0) = Ok (ERR_NONE, 15, OFile [129; 0; 0; 130; 1; 4; 1; 3; 7; 0; 0; 2; 1; 2; 0] 15) /\
  exists b', z_update (toy 0) 10 (made true 1 0 true false false 1 [[7; 7; 7]; [1; 2]]) ztrack = Ok (15, b').
Proof. split; [exists [[1; 3; 7; 0]], [0; 2; 1; 2; 0]; vm_compute; repeat split; discriminate|]. split; [vm_compute; reflexivity|]. eexists. vm_compute. reflexivity. Qed.

(** And a reader gets the frames back. *)
Theorem C128_round_trip : forall z junk e, codes z e -> forall wf b t fs, 0 <= b_track b < 16384 -> -32768 <= b_time b < 32768 -> zlib_track t -> b_set b = true -> holds (b_sizes b) (b_data b) fs ->
  lace_ok (b_lacing b) (map e fs) -> (b_lacing b = 2 -> zlen fs < 256) -> Forall (fun f => f <> [] /\ zlen (e f) / zlen f + 1 < Z.of_nat wf) fs -> Forall (fun f => zlen (e f) <= zlen f + 100) fs ->
  exists bs, (forall o, room o (zlen bs) -> z_render z wf b t o = Ok (ERR_NONE, zlen bs, o_put o bs)) /\
    forall fuel zf r moved s pos, b_simple r = b_simple b -> placed fuel r s bs [] (map e fs) -> Forall (fun f => zlen f / 1024 + 1 < Z.of_nat zf /\ zlen f < 2 ^ 31) fs ->
      exists r' q, z_read_frames z junk fuel zf r t moved s pos = Ok (ERR_NONE, r', q) /\ shows r' (b_track b) (b_time b) (b_key b) (b_disc b) (b_invis b) (b_lacing b) /\ b_set r' = true /\ holds (b_sizes r') (b_data r') fs.
Proof.
  intros z junk e C wf b t fs Ht Hm Hz Hs Hh Hl H2 Hso Hfi. destruct (z_render_ok z e C wf b t fs Ht Hm Hz Hs Hh Hl Hso Hfi) as (bs & H1 & H3 & _). exists bs. split; [exact H3|].
  intros fuel zf r moved s pos Er Hp Hsn. rewrite <- Er in H1. exact (z_read_frames_ok z junk e C fuel zf r t moved s pos _ _ _ _ _ _ fs bs Ht Hm Hz H1 Hp H2 Hsn).
Qed.
Print Assumptions C128_round_trip.
Example C128_round_trip_ex : exists r q, z_read_frames (toy 0) 77 10 10 (found true 15 0) ztrack false (file [129; 0; 0; 130; 1; 4; 1; 3; 7; 0; 0; 2; 1; 2; 0]) 0 = Ok (ERR_NONE, r, q) /\ b_sizes r = [3; 2] /\ b_data r = [7; 7; 7; 1; 2].
Proof. eexists _, _. vm_compute. repeat split. Qed.

(** Data that were released are read again. *)
Theorem C128_again : forall z junk e, codes z e -> forall fuel b t moved s pos fs, zlib_track t -> b_set b = false -> b_sizes b = map zlen (map e fs) -> (b_lacing b = 0 -> exists f, fs = [f]) -> fs <> [] ->
  Forall (fun f => zlen f / 1024 + 1 < Z.of_nat fuel /\ zlen f < 2 ^ 31) fs -> in_reach s (b_first b) -> at_pos (in_data s) (b_first b) (concat (map e fs)) ->
  exists b1 q1, z_read_data z junk fuel b t moved s pos = Ok (ERR_NONE, b1, q1) /\ holds (b_sizes b1) (b_data b1) fs /\ forall pos2 known,
    let b2 := release_data b1 known true in b_set b2 = false /\ b_data b2 = [] /\ b_sizes b2 = b_sizes b /\
    exists b3 q3, z_read_data z junk fuel b2 t moved s pos2 = Ok (ERR_NONE, b3, q3) /\ holds (b_sizes b3) (b_data b3) fs.
Proof. intros z junk e C. exact (z_release_again z junk e C). Qed.
Print Assumptions C128_again.
Example C128_again_ex : let s := file (concat (map (toy_code 0) [[7; 7; 7]; [1; 2]])) in at_pos (in_data s) 0 (concat (map (toy_code 0) [[7; 7; 7]; [1; 2]])) /\ in_reach s 0 /\ map zlen (map (toy_code 0) [[7; 7; 7]; [1; 2]]) = [4; 5].
Proof. split; [vm_compute; repeat split; discriminate|]. split; [intros H; discriminate|reflexivity]. Qed.

(** Whatever the stream and zlib do: after success there are as many sizes as before, and they share the
    data out. *)
Theorem C128_table : forall z junk fuel b t moved s pos b' q, zlib_track t -> b_set b = false -> (b_lacing b = 0 -> length (b_sizes b) = 1%nat) ->
  z_read_data z junk fuel b t moved s pos = Ok (ERR_NONE, b', q) -> length (b_sizes b') = length (b_sizes b) /\ (zlen (b_data b') < 2 ^ 31 -> fold_right Z.add 0 (b_sizes b') = zlen (b_data b')).
Proof. exact z_table. Qed.
Print Assumptions C128_table.
Example C128_table_ex : exists b q, z_read_data (toy 0) 77 10 (mkBlock true false false 9 0 1 0 true false false false 1 0 [4; 5] [] [] []) ztrack false (file [1; 3; 7; 0; 0; 2; 1; 2; 0]) 0 = Ok (ERR_NONE, b, q) /\ b_sizes b = [3; 2] /\ zlen (b_data b) = 5.
Proof. eexists _, _. vm_compute. repeat split. Qed.

(** After an error in a lace the data do not count as read: the next call reads them again. *)
Theorem C128_laced_failure : forall z junk fuel b t moved s pos err b' q, zlib_track t -> b_set b = false -> b_lacing b <> 0 ->
  z_read_data z junk fuel b t moved s pos = Ok (err, b', q) -> err <> ERR_NONE -> b_set b' = false.
Proof. exact z_laced_failure. Qed.
Print Assumptions C128_laced_failure.
Example C128_laced_failure_ex : exists b q, z_read_data (toy 0) 77 10 (mkBlock true false false 9 0 1 0 true false false false 1 0 [4; 5] [] [] []) ztrack false (file [1; 3; 7; 0; 5; 2; 1; 2; 0]) 0 = Ok (ERR_INVALID_DATA, b, q) /\ b_set b = false.
Proof. eexists _, _. vm_compute. repeat split. Qed.

(** Finding: in a block without lacing they do.  The first call says that the frame is damaged, every
    later one that all is well, with the compressed size of the frame. *)
Theorem C128_failed_refuted : forall z junk fuel b t moved s pos c m, zlib_track t -> b_set b = false -> b_lacing b = 0 -> b_sizes b = [zlen c] -> in_reach s (b_first b) -> at_pos (in_data s) (b_first b) c ->
  damaged z c m -> 0 <= m -> m / 1024 + 1 < Z.of_nat fuel ->
  exists b' q, z_read_data z junk fuel b t moved s pos = Ok (ERR_INVALID_DATA, b', q) /\ forall pos2, exists b'', z_read_data z junk fuel b' t moved s pos2 = Ok (ERR_NONE, b'', pos2) /\ b_sizes b'' = [zlen c] /\ b_data b'' = b_data b'.
Proof. exact z_failed. Qed.
Print Assumptions C128_failed_refuted.
Example C128_failed_ex : match z_read_frames (toy 0) 77 10 10 (found true 8 0) ztrack false (file [129; 0; 0; 128; 0; 5; 1; 2]) 0 with
  | Ok (err, b, q) => err = ERR_INVALID_DATA /\ b_sizes b = [4] /\ match z_read_data (toy 0) 77 10 b ztrack false (file [129; 0; 0; 128; 0; 5; 1; 2]) q with Ok (err, _, _) => err = ERR_NONE | _ => False end
  | _ => False
  end.
Proof. vm_compute. repeat split. Qed.

(** Finding: a frame that compresses to more than 100 bytes above its own size is written from past the
    end of the buffer it was compressed into. *)
Theorem C128_big_refuted : forall z e fuel b t f, codes z e -> 0 <= b_track b < 16384 -> -32768 <= b_time b < 32768 -> zlib_track t -> b_set b = true -> b_lacing b = 0 -> holds (b_sizes b) (b_data b) [f] -> f <> [] ->
  zlen (e f) / zlen f + 1 < Z.of_nat fuel -> zlen f + 100 < zlen (e f) -> forall o, room o 6 -> z_render z fuel b t o = Bad.
Proof. exact z_big. Qed.
Print Assumptions C128_big_refuted.
Example C128_big_ex : codes (toy 101) (toy_code 101) /\ zlen [1; 2] + 100 < zlen (toy_code 101 [1; 2]) /\ z_render (toy 101) 200 (made true 1 0 true false false 0 [[1; 2]]) ztrack (OFile [] 0) = Bad.
Proof. split; [apply toy_codes|]. split; [reflexivity|vm_compute; reflexivity]. Qed.

(** Finding: when the lacing is left to the library, frames of the same size get the lacing without sizes,
    although it is the compressed frames that are laced.  A reader of such a lace takes them to have the
    same size: it never finds the frames. *)
Theorem C128_fixed_refuted : forall z e fuel b t fs n f g, codes z e -> zlib_track t -> b_set b = true -> b_need b = true -> b_lacing b = 4 -> holds (b_sizes b) (b_data b) fs -> Forall (fun f => zlen f = n) fs -> 2 <= zlen fs ->
  Forall (fun f => f <> [] /\ zlen (e f) / zlen f + 1 < Z.of_nat fuel) fs -> In f fs -> In g fs -> zlen (e f) <> zlen (e g) ->
  (exists d b', z_update z fuel b t = Ok (d, b') /\ b_lacing b' = 2) /\
  forall fuel2 r s pos r' q, bytes_ok (in_data s) -> read_parse fuel2 r s pos = Ok (ERR_NONE, r', q) -> b_lacing r' = 2 -> 0 <= b_dsize r - (b_first r' - b_dpos r) < 2 ^ 31 -> b_sizes r' <> map zlen (map e fs).
Proof.
  intros z e fuel b t fs n f g C Hz Hset Hn Hl Hh Hall H2 Hs If Ig Hd. split; [exact (z_auto z e fuel b t fs n C Hz Hset Hn Hl Hh Hall H2 Hs)|].
  intros fuel2 r s pos r' q Hb Hp Hl2 Hr E. destruct (C28_remainder fuel2 r s pos r' q Hb Hp Hl2 Hr) as (x & Hx & _). apply Hd.
  assert (A : forall h, In h fs -> zlen (e h) = x); [|rewrite (A f If), (A g Ig); reflexivity]. intros h Hi. apply (repeat_spec (length (b_sizes r'))). rewrite <- Hx, E. apply in_map, in_map, Hi.
Qed.
Print Assumptions C128_fixed_refuted.
Example C128_fixed_ex : let b := made true 1 0 true false false 4 [[7; 7; 7; 7]; [1; 2; 3; 4]] in let bs := [129; 0; 0; 132; 1; 1; 4; 7; 0; 0; 4; 1; 2; 3; 4; 0] in
  match z_update (toy 0) 10 b ztrack with Ok (n, b') => n = 16 /\ b_lacing b' = 2 /\ z_render (toy 0) 10 b' ztrack (OFile [] 0) = Ok (ERR_NONE, 16, OFile bs 16) | _ => False end /\
  match z_read_frames (toy 0) 77 10 10 (found true 16 0) ztrack false (file bs) 0 with Ok (err, _, _) => err = ERR_INVALID_DATA | _ => False end.
Proof. vm_compute. repeat split. Qed.

(** An encoding that is not for the blocks leaves them as they are: zlib is not called. *)
Theorem C128_other_scope : forall z junk fuel b x algo settings, Z.odd x = false -> algo = None \/ algo = Some 0 -> let t := Some [mkEnc true (Some x) (Some (mkCompr algo settings))] in
  (forall o, z_render z fuel b t o = render_block b None o) /\ z_update z fuel b t = update_block_size b None /\ (forall moved s pos, z_read_data z junk fuel b t moved s pos = read_data b None moved s pos).
Proof.
  intros z junk fuel b x algo settings Hx Ha t. assert (E : zlib_of t = Some x) by (destruct Ha as [->| ->]; reflexivity).
  assert (E2 : on_blocks x = false). { unfold on_blocks. assert (L : Z.land x 1 = 0) by (change 1 with (Z.ones 1); rewrite Z.land_ones by lia; change (2 ^ 1) with 2; rewrite Zmod_odd, Hx; reflexivity). rewrite L. reflexivity. }
  unfold z_render, z_update, z_read_data. rewrite E, E2. cbn [negb]. repeat split.
Qed.
Print Assumptions C128_other_scope.
Example C128_other_scope_ex : Z.odd 2 = false /\ z_render (toy 0) 10 (made true 1 0 true false false 0 [[7; 7; 7; 7]]) (Some [mkEnc true (Some 2) (Some (mkCompr None None))]) (OFile [] 0) = Ok (ERR_NONE, 8, OFile [129; 0; 0; 128; 7; 7; 7; 7] 8).
Proof. split; [reflexivity|vm_compute; reflexivity]. Qed.
