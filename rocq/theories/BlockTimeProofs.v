(** Proofs about timestamps. *)
From Verif Require Import Base BaseProofs IntEltProofs Tree TreeRead Stream Frame BlockTime.

(** [r] is [ts] rounded towards [c] to a multiple of [s] from [c]. *)
Definition rounds (s c ts r : Z) : Prop := (exists k, r = c + k * s) /\ Z.abs (r - ts) < s /\ (c <= r <= ts \/ ts <= r <= c).
Lemma rounds_exact s c ts r : rounds s c ts r -> (exists k, ts = c + k * s) -> r = ts.
Proof. intros ((k & ->) & H & _) [j ->]. assert (Z.abs ((k - j) * s) < s) by (replace ((k - j) * s) with (c + k * s - (c + j * s)) by ring; exact H). assert (k = j) by nia. subst. reflexivity. Qed.
Lemma rounds_quot s c ts : 0 < s -> rounds s c ts (c + Z.quot (ts - c) s * s).
Proof.
  intros Hs. pose proof (Z.quot_rem' (ts - c) s) as H. pose proof (Z.rem_bound_abs (ts - c) s ltac:(lia)) as Hr. pose proof (Z.rem_sign_mul (ts - c) s ltac:(lia)) as Hg.
  set (q := Z.quot _ _) in *. set (r := Z.rem _ _) in *. split; [exists q; reflexivity|]. replace (c + q * s - ts) with (- r) by lia. split; [lia|].
  assert ((ts - c >= 0 -> r >= 0 /\ q >= 0) /\ (ts - c <= 0 -> r <= 0 /\ q <= 0)) as [Ha Hb].
  { unfold q, r. split; intros Hx.
    - split; [pose proof (Z.rem_nonneg (ts - c) s ltac:(lia) ltac:(lia)); lia|pose proof (Z.quot_pos (ts - c) s ltac:(lia) ltac:(lia)); lia].
    - split; [pose proof (Z.rem_nonpos (ts - c) s ltac:(lia) ltac:(lia)); lia|].
      pose proof (Z.quot_pos (- (ts - c)) s ltac:(lia) ltac:(lia)) as Hp. rewrite Z.quot_opp_l in Hp by lia. lia. }
  destruct (Z.le_ge_cases 0 (ts - c)) as [Hx|Hx]; [left|right]; [destruct (Ha ltac:(lia))|destruct (Hb ltac:(lia))]; nia.
Qed.

Lemma s64_small x : - 2 ^ 63 <= x < 2 ^ 63 -> s64 x = x.
Proof. intros H. apply s_wrap_small; [lia|exact H]. Qed.
Lemma dbl_small z : Z.abs z < 2 ^ 53 -> dbl z = z.
Proof. intros H. unfold dbl. replace (Z.abs z <? 2 ^ 53) with true by lia. reflexivity. Qed.
Lemma to_int64_ok z : Z.abs z < 2 ^ 53 -> to_int64 z = Ok z.
Proof. intros H. unfold to_int64. replace (- 2 ^ 63 <=? z) with true by lia. replace (z <? 2 ^ 63) with true by lia. reflexivity. Qed.
Lemma scale64_ok v d : 0 < d -> Z.abs v < 2 ^ 62 -> scale64 v 1 d = Ok (Z.quot v d).
Proof. intros Hd Hv. unfold scale64. replace (d =? 0) with false by lia. rewrite Z.mul_1_r, s64_small by lia. replace (d =? -1) with false by lia. rewrite andb_false_r. reflexivity. Qed.

Definition fits (s d : Z) : Prop := -32769 * s < d < 32768 * s.
Lemma fits_quot s d : 0 < s -> (fits s d <-> -32768 <= Z.quot d s <= 32767).
Proof.
  intros Hs. unfold fits. pose proof (Z.quot_rem' d s) as H. pose proof (Z.rem_bound_abs d s ltac:(lia)) as Hr.
  assert ((0 <= d -> 0 <= Z.rem d s /\ 0 <= Z.quot d s) /\ (d <= 0 -> Z.rem d s <= 0 /\ Z.quot d s <= 0)) as [Ha Hb].
  { split; intros Hx.
    - split; [apply Z.rem_nonneg; lia|apply Z.quot_pos; lia].
    - split; [apply Z.rem_nonpos; lia|]. pose proof (Z.quot_pos (- d) s ltac:(lia) ltac:(lia)) as Hp. rewrite Z.quot_opp_l in Hp by lia. lia. }
  set (q := Z.quot d s) in *. set (r := Z.rem d s) in *. destruct (Z.le_ge_cases 0 d) as [Hx|Hx]; [destruct (Ha Hx)|destruct (Hb Hx)]; split; intros; nia.
Qed.

Definition big (x : Z) : Prop := Z.abs x < 2 ^ 60.
(** The scale is what makes the product with 16 bits exact in a double. *)
Definition scale_ok (s : Z) : Prop := 0 < s < 2 ^ 38.

Lemma block_set_ok b ts cts s : t_wtrack b = true -> seg_scale (t_wseg b) = s -> scale_ok s -> big ts -> big cts ->
  block_set b ts cts = if (32767 <? Z.quot (ts - cts) s) || (Z.quot (ts - cts) s <? -32768) then Ok (ERR_INVALID_DATA, b)
    else Ok (ERR_NONE, mkT (Z.quot (ts - cts) s) true (t_global b) (t_rseg b) (t_wseg b) (t_rtrack b) (t_wtrack b)).
Proof.
  intros Hw Hs Hok H1 H2. unfold block_set, scale_ok, big in *. rewrite Hw, Hs, dbl_small, to_int64_ok by lia. cbn [negb bind]. rewrite s64_small, scale64_ok by lia. reflexivity.
Qed.
Lemma block_set_fits b ts cts s : t_wtrack b = true -> seg_scale (t_wseg b) = s -> scale_ok s -> big ts -> big cts -> fits s (ts - cts) ->
  block_set b ts cts = Ok (ERR_NONE, mkT (Z.quot (ts - cts) s) true (t_global b) (t_rseg b) (t_wseg b) (t_rtrack b) (t_wtrack b)).
Proof.
  intros Hw Hs Hok H1 H2 Hf. rewrite (block_set_ok b ts cts s) by assumption. apply fits_quot in Hf; [|apply Hok]. replace (32767 <? _) with false by lia. replace (_ <? -32768) with false by lia. reflexivity.
Qed.
Lemma block_set_far b ts cts s : t_wtrack b = true -> seg_scale (t_wseg b) = s -> scale_ok s -> big ts -> big cts -> ~ fits s (ts - cts) ->
  block_set b ts cts = Ok (ERR_INVALID_DATA, b).
Proof.
  intros Hw Hs Hok H1 H2 Hf. rewrite (block_set_ok b ts cts s) by assumption. rewrite fits_quot in Hf by apply Hok. destruct (_ || _) eqn:Ee; [reflexivity|]. exfalso. apply Hf. lia.
Qed.

Lemma cluster_time_known c t : cl_global c = t -> t <> INVALID_TIMESTAMP -> cluster_time c = (t, c).
Proof. intros H Ht. unfold cluster_time. rewrite H. replace (t =? INVALID_TIMESTAMP) with false by lia. reflexivity. Qed.
Lemma cluster_time_elt c v s : cl_global c = INVALID_TIMESTAMP -> cl_elt c = Some v -> seg_scale (cl_rseg c) = s -> 0 <= v -> v * s < 2 ^ 62 -> 0 < s ->
  cluster_time c = (v * s, mkCl (cl_elt c) (v * s) (cl_rseg c) (cl_wseg c)).
Proof. intros H He Hs Hv Hb Hp. unfold cluster_time. rewrite H, Z.eqb_refl, He, Hs. rewrite (s64_small v) by nia. rewrite s64_small by nia. reflexivity. Qed.

Lemma block_time_ok b c s ct c' : t_global b = INVALID_TIMESTAMP -> t_rtrack b = true -> t_wtrack b = true -> seg_scale (t_rseg b) = s -> seg_scale (t_wseg b) = s -> scale_ok s ->
  -32768 <= t_local b <= 32767 -> cluster_time c = (ct, c') -> big ct -> big (ct + t_local b * s) ->
  block_time b (Some c) = Ok (ct + t_local b * s, mkT (t_local b) true (ct + t_local b * s) (t_rseg b) (t_wseg b) true true, Some c').
Proof.
  intros Hg Hr Hw Hs Hs2 Hok Hl Hc Hb1 Hb2. unfold scale_ok, big in *. unfold block_time. rewrite Hg, Z.eqb_refl, Hr, Hc, Hs. cbn [negb]. set (g := ct + t_local b * s) in *.
  rewrite (s64_small (t_local b * s)) by nia. rewrite dbl_small, to_int64_ok by nia. cbn [bind]. fold g. rewrite s64_small by lia.
  rewrite (block_set_fits _ g ct s); try assumption; [|unfold g, fits; nia]. cbn [bind snd t_global t_rseg t_wseg t_rtrack t_wtrack]. 
  replace (g - ct) with (t_local b * s) by (unfold g; lia). rewrite Z.quot_mul by lia. rewrite Hw. rewrite ?Hr. reflexivity.
Qed.
Lemma block_time_cached b c t : t_global b = t -> t <> INVALID_TIMESTAMP -> block_time b c = Ok (t, b, c).
Proof. intros H Ht. unfold block_time. rewrite H. replace (t =? INVALID_TIMESTAMP) with false by lia. reflexivity. Qed.
