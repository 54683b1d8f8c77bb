(** Proofs about frame durations and dates. *)
From Verif Require Import Base BaseProofs VintProofs Tree Arr Stream Ebml IntEltSpec IntEltProofs Create Frame BlockTime Str StrSpec StrProofs StrProofs2 StrProofs3 Durations DurationsSpec.

Lemma char_in pre f post (k : nat) : (k < length f)%nat -> char_at (pre ++ f ++ post) (zlen pre + Z.of_nat k) = Ok (at_ f k).
Proof.
  intros H. unfold at_. rewrite <- (firstn_skipn k f) at 1. assert (E : skipn k f = nth k f 0 :: skipn (S k) f). { revert H. clear. revert f. induction k as [|k IH]; intros [|x f] H; cbn [length] in H; try lia; [reflexivity|]. cbn [skipn nth]. apply IH. lia. }
  rewrite E. rewrite <- app_assoc. rewrite app_assoc. cbn [app]. replace (zlen pre + Z.of_nat k) with (zlen (pre ++ firstn k f)) by (rewrite zlen_app; unfold zlen; rewrite firstn_length; lia). apply char_at_app.
Qed.
Lemma char_in' pre f post k j : Z.of_nat j = k -> (j < length f)%nat -> char_at (pre ++ f ++ post) (zlen pre + k) = Ok (at_ f j).
Proof. intros <-. apply char_in. Qed.
Lemma land3 x : Z.land x 3 = x mod 4. Proof. change 3 with (Z.ones 2). rewrite Z.land_ones by lia. reflexivity. Qed.
Lemma land15' x : Z.land x 15 = x mod 16. Proof. change 15 with (Z.ones 4). rewrite Z.land_ones by lia. reflexivity. Qed.
Lemma land1 x : Z.land x 1 = x mod 2. Proof. change 1 with (Z.ones 1). rewrite Z.land_ones by lia. reflexivity. Qed.
(** Decision over bytes. *)
Definition res_opt_eqb (a : res (option Z)) (b : option Z) : bool :=
  match a, b with Ok (Some x), Some y => x =? y | Ok None, None => true | _, _ => false end.
Lemma res_opt_ok a b : res_opt_eqb a b = true -> a = Ok b.
Proof. destruct a as [| | |[x|]], b; cbn; intros H; try discriminate; [apply Z.eqb_eq in H; subst; reflexivity|reflexivity]. Qed.
Lemma nth_byte f k : Forall (fun b => 0 <= b < 256) f -> 0 <= at_ f k < 256.
Proof. intros H. unfold at_. destruct (Nat.le_gt_cases (length f) k) as [L|L]; [rewrite nth_overflow by lia; lia|]. rewrite Forall_forall in H. apply H. apply nth_In. exact L. Qed.

Lemma mpeg_ok pre f post : Forall (fun b => 0 <= b < 256) f -> 3 <= zlen f -> mpeg_frame (pre ++ f ++ post) (zlen pre) = Ok (duration (mpeg_header f)).
Proof.
  intros B L. unfold mpeg_frame. rewrite (char_in' pre f post 1 1%nat eq_refl) by (unfold zlen in L; lia). rewrite (char_in' pre f post 2 2%nat eq_refl) by (unfold zlen in L; lia). cbn [bind].
  unfold mpeg_header, mpeg_version, mpeg_layer, mpeg_base, bits. set (b1 := at_ f 1). set (b2 := at_ f 2). rewrite !land3, !Z.shiftr_div_pow2 by lia.
  change (4 - 3 + 1) with 2. change (2 - 1 + 1) with 2. change (3 - 2 + 1) with 2. change (2 ^ 2) with 4. change (2 ^ 3) with 8. change (2 ^ 1) with 2.
  pose proof (Z.mod_pos_bound (b1 / 8) 4 ltac:(lia)) as H1. pose proof (Z.mod_pos_bound (b1 / 2) 4 ltac:(lia)) as H2. pose proof (Z.mod_pos_bound (b2 / 4) 4 ltac:(lia)) as H3.
  generalize dependent (b1 / 8 mod 4). generalize dependent (b1 / 2 mod 4). generalize dependent (b2 / 4 mod 4). intros x Hx y Hy z Hz.
  assert (X : x = 0 \/ x = 1 \/ x = 2 \/ x = 3) by lia. assert (Y : y = 0 \/ y = 1 \/ y = 2 \/ y = 3) by lia. assert (Z : z = 0 \/ z = 1 \/ z = 2 \/ z = 3) by lia.
  destruct X as [->|[->|[->| ->]]], Y as [->|[->|[->| ->]]], Z as [->|[->|[->| ->]]]; vm_compute; reflexivity.
Qed.
Lemma ac3_ok pre f post : Forall (fun b => 0 <= b < 256) f -> 6 <= zlen f ->
  ac3_frame (pre ++ f ++ post) (zlen pre) = Ok (if bits (at_ f 5) 7 3 <? 8 then None else if (bits (at_ f 4) 7 6 =? 3) && (bits (at_ f 5) 7 3 <=? 10) then Some 0 else duration (ac3_header f)).
Proof.
  intros B L. unfold ac3_frame. rewrite (char_in' pre f post 5 5%nat eq_refl) by (unfold zlen in L; lia). rewrite (char_in' pre f post 4 4%nat eq_refl) by (unfold zlen in L; lia). cbn [bind].
  unfold ac3_header, bits. pose proof (nth_byte f 4 B). pose proof (nth_byte f 5 B). set (b4 := at_ f 4) in *. set (b5 := at_ f 5) in *. rewrite !Z.shiftr_div_pow2 by lia. change (7 - 3 + 1) with 5. change (7 - 6 + 1) with 2. change (2 ^ 5) with 32. change (2 ^ 2) with 4. change (2 ^ 3) with 8. change (2 ^ 6) with 64.
  rewrite (Z.mod_small (b5 / 8)), (Z.mod_small (b4 / 64)) by lia. assert (H1 : 0 <= b5 / 8 < 32) by lia. assert (H2 : 0 <= b4 / 64 < 4) by lia. generalize dependent (b5 / 8). generalize dependent (b4 / 64). intros x Hx y Hy.
  destruct (Z.ltb_spec 10 y); [cbn [orb]; replace (y <? 8) with false by lia; replace (y <=? 10) with false by lia; rewrite andb_false_r; reflexivity|]. cbn [orb]. destruct (Z.ltb_spec y 8); [reflexivity|].
  assert (X : x = 0 \/ x = 1 \/ x = 2 \/ x = 3) by lia. assert (Y : y = 8 \/ y = 9 \/ y = 10) by lia.
  destruct X as [->|[->|[->| ->]]], Y as [->|[->| ->]]; vm_compute; reflexivity.
Qed.
Lemma eac3_ok pre f post : Forall (fun b => 0 <= b < 256) f -> 5 <= zlen f -> eac3_frame (pre ++ f ++ post) (zlen pre) = Ok (duration (eac3_header f)).
Proof.
  intros B L. unfold eac3_frame. rewrite (char_in' pre f post 4 4%nat eq_refl) by (unfold zlen in L; lia). cbn [bind].
  unfold eac3_header, bits. pose proof (nth_byte f 4 B). set (b4 := at_ f 4) in *. rewrite land3, !Z.shiftr_div_pow2 by lia. change (5 - 4 + 1) with 2. change (7 - 6 + 1) with 2. change (2 ^ 2) with 4. change (2 ^ 4) with 16. change (2 ^ 6) with 64.
  rewrite (Z.mod_small (b4 / 64)) by lia. assert (H1 : 0 <= b4 / 16 mod 4 < 4) by lia. assert (H2 : 0 <= b4 / 64 < 4) by lia. generalize dependent (b4 / 16 mod 4). generalize dependent (b4 / 64). intros x Hx y Hy.
  assert (X : x = 0 \/ x = 1 \/ x = 2 \/ x = 3) by lia. assert (Y : y = 0 \/ y = 1 \/ y = 2 \/ y = 3) by lia.
  destruct X as [->|[->|[->| ->]]], Y as [->|[->|[->| ->]]]; vm_compute; reflexivity.
Qed.
Lemma scale_pos v n d : 0 <= v * n < 2 ^ 63 -> 0 < d -> scale64 v n d = Ok (v * n / d).
Proof.
  intros H Hd. unfold scale64. replace (d =? 0) with false by lia. replace (s64 (v * n)) with (v * n) by (symmetry; unfold s64; apply s_wrap_small; [lia|change (2 ^ (64 - 1)) with (2 ^ 63); lia]).
  replace ((v * n =? - 2 ^ 63) && (d =? -1)) with false by lia. rewrite Z.quot_div_nonneg by lia. reflexivity.
Qed.
(** What the code takes for DTS: the high bit of NBLKS counts twice. *)
Definition dts_code (f : list Z) : option (Z * Z) := match dts_rate (bits (at_ f 8) 5 2) with Some r => Some (32 * (dts_nblks f + 64 * bits (at_ f 4) 0 0 + 1), r) | None => None end.
Lemma dts_ok pre f post : Forall (fun b => 0 <= b < 256) f -> 9 <= zlen f -> dts_frame (pre ++ f ++ post) (zlen pre) = Ok (duration (dts_code f)).
Proof.
  intros B L. unfold dts_frame. rewrite (char_in' pre f post 4 4%nat eq_refl) by (unfold zlen in L; lia). rewrite (char_in' pre f post 5 5%nat eq_refl) by (unfold zlen in L; lia). rewrite (char_in' pre f post 8 8%nat eq_refl) by (unfold zlen in L; lia). cbn [bind].
  unfold dts_code, dts_nblks, bits. pose proof (nth_byte f 4 B). pose proof (nth_byte f 5 B). set (b4 := at_ f 4) in *. set (b5 := at_ f 5) in *. set (b8 := at_ f 8) in *. rewrite land15', land1, !Z.shiftr_div_pow2, Z.shiftl_mul_pow2 by lia.
  change (5 - 2 + 1) with 4. change (7 - 2 + 1) with 6. change (0 - 0 + 1) with 1. change (2 ^ 4) with 16. change (2 ^ 6) with 64. change (2 ^ 1) with 2. change (2 ^ 2) with 4. change (2 ^ 7) with 128. change (2 ^ 0) with 1. rewrite Z.div_1_r.
  rewrite (Z.mod_small (b5 / 4)) by lia. set (s := (b4 mod 2 * 128 + b5 / 4 + 1) * 32). replace (32 * (b4 mod 2 * 64 + b5 / 4 + 64 * (b4 mod 2) + 1)) with s by (unfold s; lia).
  assert (Hs : 32 <= s <= 32 * 192) by (unfold s; lia). clearbody s. pose proof (Z.mod_pos_bound (b8 / 4) 16 ltac:(lia)) as Hr. generalize dependent (b8 / 4 mod 16). intros r Hr.
  assert (R : In r [0; 1; 2; 3; 4; 5; 6; 7; 8; 9; 10; 11; 12; 13; 14; 15]) by (cbn [In]; lia).
  assert (NZ : (s =? 0) = false) by lia. cbn [In] in R.
  repeat (destruct R as [<-|R]; [match goal with |- context [tab A_DTS_freq ?k] => let t := eval vm_compute in (tab A_DTS_freq k) in change (tab A_DTS_freq k) with t; let u := eval vm_compute in (dts_rate k) in change (dts_rate k) with u end; cbn [bind]; rewrite NZ; cbn [orb Z.eqb]; [try reflexivity; rewrite scale_pos by lia; reflexivity]|]). contradiction.
Qed.

(** ** Frames *)
Lemma loop_ok (one : list Z -> Z -> res (option Z)) (spec : list Z -> option Z) (P : list Z -> Prop) :
  (forall pre f post, P f -> one (pre ++ f ++ post) (zlen pre) = Ok (spec f)) ->
  forall fs pre post, Forall P fs -> frame_loop (one (pre ++ concat fs ++ post)) (zlen pre) (map zlen fs) = Ok (err_of (map spec fs), map show (map spec fs)).
Proof.
  intros H. induction fs as [|f fs IH]; intros pre post F; [reflexivity|]. apply Forall_cons_iff in F. destruct F as [Hf F]. cbn [concat map frame_loop]. rewrite <- app_assoc. rewrite H by exact Hf. cbn [bind].
  specialize (IH (pre ++ f) post F). rewrite <- app_assoc, zlen_app in IH. rewrite IH. cbn [bind fst snd]. unfold err_of. cbn [forallb]. destruct (spec f); reflexivity.
Qed.
Lemma loop0 (one : list Z -> Z -> res (option Z)) (spec : list Z -> option Z) (P : list Z -> Prop) : (forall pre f post, P f -> one (pre ++ f ++ post) (zlen pre) = Ok (spec f)) ->
  forall fs post, Forall P fs -> frame_loop (one (concat fs ++ post)) 0 (map zlen fs) = Ok (err_of (map spec fs), map show (map spec fs)).
Proof. intros H fs post F. apply (loop_ok one spec P H fs [] post F). Qed.
Lemma const_loop d : forall sizes o, frame_loop (fun _ => Ok (Some d)) o sizes = Ok (ERR_NONE, map (fun _ => d) sizes).
Proof. induction sizes as [|n r IH]; intros o; [reflexivity|]. cbn [frame_loop bind]. rewrite IH. reflexivity. Qed.

(** ** Dates *)
Lemma date_value d : - 2 ^ 31 <= d < 2 ^ 31 -> d <> 0 -> forall i v, date_set (Leaf i (VInt v)) d = Ok (ERR_NONE, int_set i (d * 1000000000)) /\ is_int64 (d * 1000000000).
Proof.
  intros Hd Hn i v. unfold date_set. replace (d =? 0) with false by lia. assert (B : is_int64 (d * 1000000000)) by (unfold is_int64; lia). split; [|exact B].
  unfold scale64. change (1 =? 0) with false. cbv iota. replace (s64 (d * 1000000000)) with (d * 1000000000) by (symmetry; unfold s64; apply s_wrap_small; [lia|change (2 ^ (64 - 1)) with (2 ^ 63); lia]).
  change (1 =? -1) with false. rewrite andb_false_r. rewrite Z.quot_1_r. reflexivity.
Qed.
Lemma date_read i x : e_set i = true -> is_int64 x -> date_time (Leaf i (VInt x)) = Ok (s32 (Z.quot x 1000000000)).
Proof.
  intros S B. unfold date_time. rewrite S. unfold scale64. change (1000000000 =? 0) with false. cbv iota. rewrite Z.mul_1_r. unfold is_int64 in B. replace (s64 x) with x by (symmetry; unfold s64; apply s_wrap_small; [lia|change (2 ^ (64 - 1)) with (2 ^ 63); lia]).
  change (1000000000 =? -1) with false. rewrite andb_false_r. reflexivity.
Qed.

(** ** Codec IDs *)
Lemma same_rank a b : same_text a b -> text a -> text b -> map rank a = map rank b.
Proof.
  induction 1 as [|x y a b H _ IH]; intros Ha Hb; [reflexivity|]. apply text_cons in Ha. apply text_cons in Hb. cbn [map]. rewrite IH by tauto. f_equal.
  unfold rank, same_letter in *. destruct Ha, Hb. destruct (Z.ltb_spec x 128), (Z.ltb_spec y 128); cbv zeta;
  repeat match goal with |- context [(?a <=? ?b) && (?c <=? ?d)] => destruct (Z.leb_spec a b), (Z.leb_spec c d); cbn [andb] end; lia.
Qed.
Lemma same_text_id a b t : text a -> text b -> tcsisame_ascii (a ++ 0 :: t) (b ++ [0]) = Ok (match order a b with Eq => true | _ => false end).
Proof.
  intros Ha Hb. destruct (icmp_gen a b t [] Ha Hb) as (r & _ & S & E). rewrite E. red in S. rewrite <- S. destruct (Z.compare_spec r 0); f_equal; lia.
Qed.
Lemma is_same a b t : text a -> text b -> same_text a b -> tcsisame_ascii (a ++ 0 :: t) (b ++ [0]) = Ok true.
Proof. intros Ha Hb H. rewrite same_text_id by assumption. apply order_eq in H; [|assumption..]. rewrite H. reflexivity. Qed.
Lemma not_same a b t : text a -> text b -> ~ same_text a b -> tcsisame_ascii (a ++ 0 :: t) (b ++ [0]) = Ok false.
Proof. intros Ha Hb H. rewrite same_text_id by assumption. destruct (order a b) eqn:O; [|reflexivity..]. elim H. apply order_eq; assumption. Qed.
Lemma text_ids k c : In c (codec_ids k) -> text c.
Proof. destruct k; cbn [codec_ids In]; intros H; repeat (destruct H as [<-|H]; [repeat constructor; lia|]); contradiction. Qed.
Definition unlike (a b : list Z) : bool := negb (if list_eq_dec Z.eq_dec (map rank a) (map rank b) then true else false).
Lemma unlike_ok id c d : text id -> text c -> text d -> same_text id c -> unlike c d = true -> ~ same_text id d.
Proof.
  intros Hi Hc Hd H U K. unfold unlike in U. destruct (list_eq_dec Z.eq_dec (map rank c) (map rank d)) as [|N]; [discriminate|]. apply N. rewrite <- (same_rank id c), <- (same_rank id d) by assumption. reflexivity.
Qed.
Lemma rank_order : forall a b, map rank a = map rank b -> order a b = Eq.
Proof. induction a as [|x a IH]; intros [|y b] H; try discriminate; [reflexivity|]. cbn [map] in H. injection H as H1 H2. cbn [order]. rewrite H1, Z.compare_refl. apply IH. exact H2. Qed.
Lemma decide_id id c d t : text id -> text c -> text d -> same_text id c -> tcsisame_ascii (id ++ 0 :: t) (d ++ [0]) = Ok (negb (unlike c d)).
Proof.
  intros Hi Hc Hd H. destruct (unlike c d) eqn:U; [apply not_same; try assumption; exact (unlike_ok id c d Hi Hc Hd H U)|]. rewrite same_text_id by assumption. rewrite rank_order; [reflexivity|].
  rewrite (same_rank id c) by assumption. unfold unlike in U. destruct (list_eq_dec Z.eq_dec (map rank c) (map rank d)); [assumption|discriminate].
Qed.
Ltac known_text := repeat constructor; lia.
(** Each codec ID reaches its own branch. *)
Lemma branch_frames id t loc rate data sizes old k : text id -> is_codec id k -> loc <> 0 ->
  process_durations (Some 2) loc (Some (id ++ 0 :: t)) rate data sizes old =
  frame_loop (match k with MpegAudio => mpeg_frame data | AC3 => ac3_frame data | EAC3 => eac3_frame data | DTS => dts_frame data end) 0 sizes.
Proof.
  intros Hi (c & Hc & Hs) L. pose proof (text_ids k c Hc) as Tc. unfold process_durations, any_of, MPEG_IDS, AC3_ID, EAC3_ID, DTS_ID, MATROSKA_TRACK_TYPE_AUDIO. change (negb (2 =? 2)) with false. replace (loc =? 0) with false by lia.
  change [65; 95; 77; 80; 69; 71; 47; 76; 51; 0] with ([65; 95; 77; 80; 69; 71; 47; 76; 51] ++ [0]). change [65; 95; 77; 80; 69; 71; 47; 76; 50; 0] with ([65; 95; 77; 80; 69; 71; 47; 76; 50] ++ [0]). change [65; 95; 77; 80; 69; 71; 47; 76; 49; 0] with ([65; 95; 77; 80; 69; 71; 47; 76; 49] ++ [0]).
  change [65; 95; 65; 67; 51; 0] with ([65; 95; 65; 67; 51] ++ [0]). change [65; 95; 69; 65; 67; 51; 0] with ([65; 95; 69; 65; 67; 51] ++ [0]). change [65; 95; 68; 84; 83; 0] with ([65; 95; 68; 84; 83] ++ [0]). cbn [bind].
  pose proof (fun d H => decide_id id c d t Hi Tc H Hs) as D.
  rewrite (D [65; 95; 77; 80; 69; 71; 47; 76; 51]), (D [65; 95; 77; 80; 69; 71; 47; 76; 50]), (D [65; 95; 77; 80; 69; 71; 47; 76; 49]), (D [65; 95; 65; 67; 51]), (D [65; 95; 69; 65; 67; 51]), (D [65; 95; 68; 84; 83]) by known_text. clear D.
  destruct k; cbn [codec_ids In] in Hc; repeat (destruct Hc as [<-|Hc]; [reflexivity|]); contradiction.
Qed.
Lemma starts_aac s t : starts_with AAC_PREFIX (AAC ++ 47 :: s ++ 0 :: t) = Ok true.
Proof. reflexivity. Qed.
Lemma branch_other id t loc rate data sizes old : text id -> (forall k, ~ is_codec id k) -> loc <> 0 ->
  process_durations (Some 2) loc (Some (id ++ 0 :: t)) rate data sizes old =
  do aac <- (do b <- tcsisame_ascii (id ++ 0 :: t) AAC_ID; if b then Ok true else starts_with AAC_PREFIX (id ++ 0 :: t));
  if aac then match rate with Some r => frame_loop (fun _ => do d <- scale64 1000000000 1024 r; Ok (Some d)) 0 sizes | None => Ok (ERR_NONE, old) end else Ok (ERR_NONE, old).
Proof.
  intros Hi N L. unfold process_durations, any_of, MPEG_IDS, AC3_ID, EAC3_ID, DTS_ID, MATROSKA_TRACK_TYPE_AUDIO. change (negb (2 =? 2)) with false. replace (loc =? 0) with false by lia.
  change [65; 95; 77; 80; 69; 71; 47; 76; 51; 0] with ([65; 95; 77; 80; 69; 71; 47; 76; 51] ++ [0]). change [65; 95; 77; 80; 69; 71; 47; 76; 50; 0] with ([65; 95; 77; 80; 69; 71; 47; 76; 50] ++ [0]). change [65; 95; 77; 80; 69; 71; 47; 76; 49; 0] with ([65; 95; 77; 80; 69; 71; 47; 76; 49] ++ [0]).
  change [65; 95; 65; 67; 51; 0] with ([65; 95; 65; 67; 51] ++ [0]). change [65; 95; 69; 65; 67; 51; 0] with ([65; 95; 69; 65; 67; 51] ++ [0]). change [65; 95; 68; 84; 83; 0] with ([65; 95; 68; 84; 83] ++ [0]). cbn [bind].
  assert (M : forall k c, In c (codec_ids k) -> ~ same_text id c) by (intros k c Hc Hs; apply (N k); exists c; split; assumption).
  rewrite (not_same id [65; 95; 77; 80; 69; 71; 47; 76; 51]), (not_same id [65; 95; 77; 80; 69; 71; 47; 76; 50]), (not_same id [65; 95; 77; 80; 69; 71; 47; 76; 49]) by (try assumption; try known_text; apply (M MpegAudio); cbn [codec_ids In]; tauto). cbn [bind].
  rewrite (not_same id [65; 95; 65; 67; 51]) by (try assumption; try known_text; apply (M AC3); cbn [codec_ids In]; tauto). cbn [bind].
  rewrite (not_same id [65; 95; 69; 65; 67; 51]) by (try assumption; try known_text; apply (M EAC3); cbn [codec_ids In]; tauto). cbn [bind].
  rewrite (not_same id [65; 95; 68; 84; 83]) by (try assumption; try known_text; apply (M DTS); cbn [codec_ids In]; tauto). cbn [bind]. reflexivity.
Qed.
Lemma starts_no : forall p id t, Forall (fun x => x <> 0) p -> Forall (fun x => x <> 0) id -> (forall r, id <> p ++ r) -> starts_with p (id ++ 0 :: t) = Ok false.
Proof.
  induction p as [|x p IH]; intros id t Hp Hi N; [elim (N id); reflexivity|]. apply Forall_cons_iff in Hp. destruct Hp as [Hx Hp]. destruct id as [|y id]; cbn [app starts_with].
  - replace (x =? 0) with false by lia. reflexivity.
  - apply Forall_cons_iff in Hi. destruct Hi as [Hy Hi]. destruct (Z.eqb_spec x y) as [->|]; [|reflexivity]. apply IH; [assumption..|]. intros r ->. apply (N r). reflexivity.
Qed.
(** AAC is none of the others. *)
Lemma aac_not id k : text id -> is_aac id -> ~ is_codec id k.
Proof.
  intros Hi A (c & Hc & Hs). pose proof (text_ids k c Hc) as Tc. pose proof (same_rank id c Hs Hi Tc) as R. destruct A as [A|(r & ->)].
  - assert (TA : text AAC) by (unfold AAC; known_text). rewrite (same_rank id AAC A Hi TA) in R. destruct k; cbn [codec_ids In] in Hc; repeat (destruct Hc as [<-|Hc]; [vm_compute in R; discriminate R|]); contradiction.
  - unfold AAC in R. cbn [app map] in R. destruct k; cbn [codec_ids In] in Hc; repeat (destruct Hc as [<-|Hc]; [cbn [map] in R; apply (f_equal (firstn 3)) in R; cbn [firstn] in R; vm_compute in R; discriminate R|]); try contradiction.
    destruct Hc as [<-|[]]. cbn [map] in R. apply (f_equal (firstn 4)) in R. cbn [firstn] in R. vm_compute in R. discriminate R.
Qed.
Lemma branch_aac id t loc rate data sizes old : text id -> is_aac id -> loc <> 0 ->
  process_durations (Some 2) loc (Some (id ++ 0 :: t)) rate data sizes old =
  match rate with Some r => frame_loop (fun _ => do d <- scale64 1000000000 1024 r; Ok (Some d)) 0 sizes | None => Ok (ERR_NONE, old) end.
Proof.
  intros Hi A L. rewrite branch_other by (try assumption; intros k; apply aac_not; assumption).
  assert (E : (do b <- tcsisame_ascii (id ++ 0 :: t) AAC_ID; if b then Ok true else starts_with AAC_PREFIX (id ++ 0 :: t)) = Ok true); [|rewrite E; reflexivity].
  change AAC_ID with (AAC ++ [0]). destruct A as [A|(r & ->)].
  - rewrite is_same; [reflexivity|assumption|unfold AAC; known_text|assumption].
  - rewrite same_text_id by (try assumption; unfold AAC; known_text). cbn [bind]. destruct (order (AAC ++ 47 :: r) AAC); [reflexivity|rewrite <- app_assoc; apply starts_aac..].
Qed.
Lemma branch_none id t loc rate data sizes old : text id -> (forall k, ~ is_codec id k) -> ~ is_aac id -> loc <> 0 ->
  process_durations (Some 2) loc (Some (id ++ 0 :: t)) rate data sizes old = Ok (ERR_NONE, old).
Proof.
  intros Hi N A L. rewrite branch_other by assumption. change AAC_ID with (AAC ++ [0]). rewrite not_same; [|assumption|unfold AAC; known_text|intros K; apply A; left; exact K]. cbn [bind].
  rewrite starts_no; [reflexivity|unfold AAC_PREFIX; known_text|eapply Forall_impl; [|exact Hi]; cbn; intros; lia|]. intros r ->. apply A. right. exists r. reflexivity.
Qed.
