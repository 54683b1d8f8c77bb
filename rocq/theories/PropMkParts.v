(** C121, C122 and C123: what mkparts finds in a file, copies and writes.  All theorems are about segments, copy_loop and
    mkparts of MkParts.v; files are specified in MkPartsSpec.v on bytes. *)
From Coq Require Import Sorted.
From Verif Require Import Base BaseProofs VintSpec EbmlIdSpec EbmlIdProofs FinderSpec Ebml Finder Tree Path PathSpec PropMkArgs MkSchema MkParts MkPartsSpec MkPartsProofs MkPartsProofs2 MkPartsProofs3.
Open Scope Z_scope.

Definition junk_ok (junk : Z -> list Z) : Prop := forall p, zlen (junk p) = 16 /\ bytes_ok (junk p).

(** ** C121: the segments found *)
(** Every file: the search ends, by a list or by reading through NULL.  Each entry of the list is an EBML header and a
    segment after it, with their sizes; they are in the order of the file and a segment is not entered for the next one. *)
Theorem C121_sound file junk upper : bytes_ok file -> junk_ok junk -> zlen file < 2 ^ 32 ->
  segments file junk upper = Null \/
  exists l, segments file junk upper = Ok l /\ Forall (fun s => cut_at file (st_hpos s) (st_hsize s) (st_spos s) (st_ssize s)) l /\
            StronglySorted (fun a b => seg_before file (st_spos a) (st_hpos b)) l.
Proof. intros H1 H2 H3. exact (segments_total file junk upper H1 H2 H3). Qed.
Print Assumptions C121_sound.
(** Files one behind the other: exactly their bytes are found, one entry for each. *)
Theorem C121_concat fs junk upper : let file := concat (map mkv_bytes fs) in
  Forall mkv_ok fs -> bytes_ok file -> junk_ok junk -> zlen file < 2 ^ 32 ->
  exists l, segments file junk upper = Ok l /\
    map (fun s => slice file (st_hpos s) (st_hsize s) ++ slice file (st_spos s) (st_ssize s)) l = map mkv_bytes fs.
Proof.
  intros file Ho Hb Hj Hs. exists (starts 0 fs). split; [exact (segments_concat file junk upper Hb Hj Hs fs eq_refl Ho)|]. exact (starts_cut fs []).
Qed.
Print Assumptions C121_concat.
(** Content without the bytes 1A, 18, EC and BF is quiet. *)
Lemma top_first bs id : id_encodes bs id -> top_level id -> match bs with b :: _ => b = 26 \/ b = 24 \/ b = 236 \/ b = 191 | [] => False end.
Proof.
  intros H T. destruct (id_list_cases _ _ H) as [(a & ->)|[(a & b & ->)|[(a & b & c & ->)|(a & b & c & d & ->)]]]; destruct H as (B & (N & V) & E); unfold bytes_ok in B; rewrite ?Forall_cons_iff in B; unfold is_byte in B;
    unfold top_level, EBML_HEADER, SEGMENT in T; unfold be_val in E; cbn [be_val_from] in E; unfold zlen in V; cbn [length] in V; cbn in V; lia.
Qed.
Lemma quiet_bytes f : Forall (fun b => b <> 26 /\ b <> 24 /\ b <> 236 /\ b <> 191) (m_body f) -> quiet_body f.
Proof.
  intros F k id n v m K (H & L & _) T. exfalso. pose proof (top_first _ _ H T) as B. destruct (slice _ k n) as [|b bs] eqn:E; [exact B|].
  assert (I : nth_error (m_body f) (Z.to_nat k) = Some b).
  { rewrite <- (nth_error_app1 _ (m_seg f ++ m_data f)) by (unfold zlen in K; lia). unfold slice in E. revert E. generalize (m_body f ++ m_seg f ++ m_data f). intros l. generalize (Z.to_nat n) (Z.to_nat k). clear.
    intros n k. revert l. induction k as [|k IH]; intros l E; [destruct l, n; cbn in *; congruence|]. destruct l as [|x l]; [destruct n; discriminate|]. cbn [nth_error]. apply IH. exact E. }
  apply nth_error_In in I. rewrite Forall_forall in F. specialize (F _ I). cbv beta in F. lia.
Qed.
(* A header with DocType "a", then a segment with a Void of 6 bytes; the second has an empty header and another Void. *)
Definition ex_a : mkv := Mkv [26; 69; 223; 163; 132] [66; 130; 129; 97] [24; 83; 128; 103; 136] [236; 134; 1; 2; 3; 4; 5; 6].
Definition ex_b : mkv := Mkv [26; 69; 223; 163; 64; 0] [] [24; 83; 128; 103; 16; 0; 0; 7] [236; 133; 0; 0; 0; 0; 0].
Definition ex_junk (p : Z) : list Z := repeat 0 16.
Lemma ex_junk_ok : junk_ok ex_junk.
Proof. intros p. split; [reflexivity|]. unfold bytes_ok, ex_junk, is_byte. cbn. repeat (apply Forall_cons; [lia|]). constructor. Qed.
Ltac bok := unfold bytes_ok, is_byte; repeat (apply Forall_cons; [lia|]); apply Forall_nil.
Lemma ex_ok : Forall mkv_ok [ex_a; ex_b].
Proof.
  assert (HB : forall a b c d id sz size, id_encodes [a; b; c; d] id -> vint_spec sz size -> size <> vint_reserved (zlen sz) -> head_bytes id size (a :: b :: c :: d :: sz)) by (intros a b c d id sz size X1 X2 X3; exists [a; b; c; d], sz; auto).
  assert (I1 : id_encodes [26; 69; 223; 163] EBML_HEADER) by (repeat split; try (bok); vm_compute; congruence).
  assert (I2 : id_encodes [24; 83; 128; 103] SEGMENT) by (repeat split; try (bok); vm_compute; congruence).
  apply Forall_cons; [|apply Forall_cons; [|constructor]]; (split; [|split; [|split; [bok|split; [bok|split; [apply quiet_bytes; repeat (apply Forall_cons; [lia|]); apply Forall_nil|vm_compute; congruence]]]]]); apply HB; try assumption;
    try (vm_compute; congruence); (split; [bok|vm_compute; repeat split; congruence]).
Qed.
Example C121_ex : let file := mkv_bytes ex_a ++ mkv_bytes ex_b in
  Forall mkv_ok [ex_a; ex_b] /\ junk_ok ex_junk /\ segments file ex_junk (fun _ => 0) = Ok [St 0 9 9 13; St 22 6 28 15].
Proof. cbv zeta. split; [exact ex_ok|]. split; [exact ex_junk_ok|]. vm_compute. reflexivity. Qed.
(** An EBML header with no segment after it: NULL is read through.  So does anything behind the last segment that is taken for an element. *)
Theorem C121_null_refuted :
  segments [26; 69; 223; 163; 128; 0; 0; 0; 0; 0; 0; 0; 0; 0; 0; 0; 0; 0; 0; 0] ex_junk (fun _ => 0) = Null /\
  segments (mkv_bytes ex_a ++ mkv_bytes ex_b ++ [236; 136; 0; 0; 0; 0; 0; 0; 0; 0; 0; 0; 0; 0; 0; 0]) ex_junk (fun _ => 0) = Null.
Proof. vm_compute. auto. Qed.
Print Assumptions C121_null_refuted.
(** A segment of unknown size, with a child: only its identifier and size are taken for it. *)
Definition ex_live : list Z := [24; 83; 128; 103; 255] ++ m_data ex_a.
Theorem C121_unknown_size_refuted :
  segments (m_head ex_a ++ m_body ex_a ++ ex_live ++ mkv_bytes ex_b) ex_junk (fun _ => 0) = Ok [St 0 9 9 5; St 22 6 28 15].
Proof. vm_compute. reflexivity. Qed.
Print Assumptions C121_unknown_size_refuted.

(** ** C122: the copy *)
(** Inside the file: exactly the bytes asked for, however many. *)
Theorem C122_exact file pos size out : 0 <= pos -> 0 <= size -> pos + size <= zlen file -> copy_to file pos size out = Ok (out ++ slice file pos size).
Proof. intros P S F. apply copy_exact; try assumption. assert (0 <= size / BLOCK) by (apply Z.div_pos; [exact S|reflexivity]). lia. Qed.
Print Assumptions C122_exact.
(** Beyond its end: it never ends. *)
Theorem C122_beyond_refuted file pos size out : 0 <= pos -> 0 < size -> zlen file < pos + size -> forall fuel, copy_loop file fuel pos size out = Fuel.
Proof. intros P S F fuel. apply copy_never; assumption. Qed.
Print Assumptions C122_beyond_refuted.
Example C122_ex : copy_to [1; 2; 3; 4; 5] 1 3 [9] = Ok [9; 2; 3; 4] /\ copy_to (repeat 7 (Z.to_nat 9000)) 5 8193 [] = Ok (repeat 7 (Z.to_nat 8193)) /\ copy_to [1; 2; 3; 4; 5] 3 3 [] = Fuel.
Proof. vm_compute. auto. Qed.

(** ** C123: the files written *)
(** No file or one: nothing is written and the result is -3. *)
Theorem C123_few fs junk upper maxpath full quiet addr path : let file := concat (map mkv_bytes fs) in
  Forall mkv_ok fs -> bytes_ok file -> junk_ok junk -> zlen file < 2 ^ 32 -> (length fs < 2)%nat ->
  mkparts file junk upper maxpath full quiet addr path = ([], Done (-3)).
Proof.
  intros file Ho Hb Hj Hs L. unfold mkparts. rewrite (segments_concat file junk upper Hb Hj Hs fs eq_refl Ho). destruct fs as [|a [|b fs]]; [reflexivity|reflexivity|cbn [length] in L; lia].
Qed.
Print Assumptions C123_few.
(** Two or more: it never comes to its end. *)
Theorem C123_done_refuted file junk upper maxpath full quiet addr path l code :
  segments file junk upper = Ok l -> (2 <= length l)%nat -> snd (mkparts file junk upper maxpath full quiet addr path) <> Done code.
Proof. intros E L. unfold mkparts. rewrite E. destruct l as [|a [|b l]]; [cbn in L; lia..|]. apply never_done. left. discriminate. Qed.
Print Assumptions C123_done_refuted.
(** With progress shown: no file at all is written. *)
Theorem C123_progress_refuted fs junk upper maxpath full addr path : let file := concat (map mkv_bytes fs) in
  Forall mkv_ok fs -> bytes_ok file -> junk_ok junk -> zlen file < 2 ^ 32 -> (2 <= length fs)%nat ->
  fst (mkparts file junk upper maxpath full false addr path) = [] /\ forall code, snd (mkparts file junk upper maxpath full false addr path) <> Done code.
Proof.
  intros file Ho Hb Hj Hs L. pose proof (segments_concat file junk upper Hb Hj Hs fs eq_refl Ho) as E.
  split; [|intros code; apply (C123_done_refuted _ _ _ _ _ _ _ _ _ code E); destruct fs as [|a [|b fs]]; cbn [length starts] in *; lia].
  unfold mkparts. rewrite E. destruct fs as [|a [|b fs]]; [cbn in L; lia..|]. cbn [starts write_parts].
  match goal with |- context [message addr path 0 ?s] => pose proof (message_bad addr path 0 s ltac:(lia)) as N; destruct (message addr path 0 s); try reflexivity end. exfalso. exact (N _ eq_refl).
Qed.
Print Assumptions C123_progress_refuted.
(** Without: the first file is written, with its exact bytes and a name that has "u" for its number and no extension, and
    only that. *)
Theorem C123_quiet_one f g fs junk upper maxpath full addr p : let file := concat (map mkv_bytes (f :: g :: fs)) in
  Forall mkv_ok (f :: g :: fs) -> bytes_ok file -> junk_ok junk -> zlen file < 2 ^ 32 ->
  6 <= maxpath -> no_url p -> zlen p + 9 <= full < 2 ^ 64 -> zlen p < 1024 -> Forall (fun b => 0 < b < 256) p ->
  exists dir name_of name ext, dir_file p dir name_of /\ name_ext name_of name ext /\
    mkparts file junk upper maxpath full true addr p = ([(place dir ++ match ext with [] => [117; 46] | _ => name ++ [46; 117; 46] end, mkv_bytes f)], Crash).
Proof.
  intros file Ho Hb Hj Hs M U L L2 B. destruct (out_names full maxpath p M U L L2 B) as (dir & nf & name & ext & D & NE & O0 & O1).
  exists dir, nf, name, ext. split; [exact D|]. split; [exact NE|].
  unfold mkparts. rewrite (segments_concat file junk upper Hb Hj Hs _ eq_refl Ho). cbn [starts write_parts st_hpos st_hsize st_spos st_ssize]. rewrite O0.
  pose proof (starts_cut (f :: g :: fs) []) as SC. cbn [starts map st_hpos st_hsize st_spos st_ssize app] in SC. change (zlen []) with 0 in SC. injection SC as SC _. fold file in SC.
  assert (LF : zlen file = zlen (m_head f) + zlen (m_body f) + zlen (m_seg f) + zlen (m_data f) + zlen (concat (map mkv_bytes (g :: fs)))) by (unfold file; cbn [map concat]; unfold mkv_bytes at 1; rewrite !zlen_app; lia).
  pose proof (zlen_nonneg (m_head f)). pose proof (zlen_nonneg (m_body f)). pose proof (zlen_nonneg (m_seg f)). pose proof (zlen_nonneg (m_data f)). pose proof (zlen_nonneg (concat (map mkv_bytes (g :: fs)))).
  rewrite C122_exact by lia. cbn [bind]. rewrite C122_exact by lia. rewrite app_nil_l. change (0 + 1) with 1. rewrite (O1 1) by lia. cbn [app ending_of]. apply (f_equal (fun b => ([(place dir ++ match ext with [] => [117; 46] | _ => name ++ [46; 117; 46] end, b)], Crash))). exact SC.
Qed.
Print Assumptions C123_quiet_one.
(* "d/a.mkv" gives "d/a.u."; "a" gives "u.". *)
Example C123_ex : let file := mkv_bytes ex_a ++ mkv_bytes ex_b in
  mkparts file ex_junk (fun _ => 0) 256 1024 true 0 [100; 47; 97; 46; 109; 107; 118] = ([([100; 47; 97; 46; 117; 46], mkv_bytes ex_a)], Crash) /\
  mkparts file ex_junk (fun _ => 0) 256 1024 true 0 [97] = ([([117; 46], mkv_bytes ex_a)], Crash) /\
  mkparts file ex_junk (fun _ => 0) 256 1024 false 140737488355328 [97] = ([], Crash) /\
  mkparts (mkv_bytes ex_b) ex_junk (fun _ => 0) 256 1024 true 0 [97] = ([], Done (-3)).
Proof. vm_compute. auto. Qed.
