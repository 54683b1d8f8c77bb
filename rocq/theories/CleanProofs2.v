(** The times of written clusters. *)
From Verif Require Import Base BaseProofs Tree Stream Frame BlockTime IntEltProofs BlockTimeProofs Clean CleanSpec CleanProofs.

(** A cluster ready to be written at time [t], with scale [s]. *)
Definition ready (s t : Z) (c : clus) (l : list tblock) : Prop :=
  cl_global c = t /\ cl_elt c = Some (t / s) /\ seg_scale (cl_wseg c) = s /\
  Forall (fun b => t_wtrack b = true /\ seg_scale (t_wseg b) = s /\ big (t_global b)) l.
(** What becomes of a block of a cluster moved to [T]. *)
Definition rebased (s T : Z) (b b' : tblock) : Prop :=
  t_global b' = t_global b /\ (fits s (t_global b - T) -> rounds s T (t_global b) (T + t_local b' * s)).
Lemma rebase_spec s ts c : scale_ok s -> big ts -> forall l, Forall (fun b => t_wtrack b = true /\ seg_scale (t_wseg b) = s /\ big (t_global b)) l ->
  exists l', rebase l c ts = Ok (l', c) /\ Forall2 (rebased s ts) l l'.
Proof.
  intros Hs Hb. induction 1 as [|b l (H1 & H2 & H3) Hl IH]; cbn [rebase]; [exists []; split; [reflexivity|constructor]|].
  assert (Hn : t_global b <> INVALID_TIMESTAMP) by (unfold big, INVALID_TIMESTAMP in *; lia).
  rewrite (block_time_cached b (Some c) (t_global b)) by auto. cbn [bind]. replace (t_global b =? INVALID_TIMESTAMP) with false by lia.
  destruct IH as (l' & IH & F).
  destruct (Z_lt_dec (-32769 * s) (t_global b - ts)) as [F1|F1].
  - destruct (Z_lt_dec (t_global b - ts) (32768 * s)) as [F2|F2].
    + rewrite (block_set_fits b _ ts s) by (try assumption; unfold fits; lia). cbn [bind]. rewrite IH. cbn [bind fst snd].
      eexists. split; [reflexivity|]. constructor; [|exact F]. split; [reflexivity|]. intros _. cbn [t_local]. apply rounds_quot. apply Hs.
    + rewrite (block_set_far b _ ts s) by (try assumption; unfold fits; lia). cbn [bind]. rewrite IH. cbn [bind fst snd].
      eexists. split; [reflexivity|]. constructor; [|exact F]. split; [reflexivity|]. intros [_ H]. lia.
  - rewrite (block_set_far b _ ts s) by (try assumption; unfold fits; lia). cbn [bind]. rewrite IH. cbn [bind fst snd].
    eexists. split; [reflexivity|]. constructor; [|exact F]. split; [reflexivity|]. intros [H _]. lia.
Qed.
Lemma write_cluster_spec s prev t c l : scale_ok s -> ready s t c l -> 0 <= t < 2 ^ 59 -> (prev = INVALID_TIMESTAMP \/ 0 <= prev < 2 ^ 59 - s) ->
  exists T c' l', write_cluster prev c l = Ok (T, c', l') /\ cl_elt c' = Some (T / s) /\ cl_global c' = T /\
    ((prev = INVALID_TIMESTAMP \/ prev < t) /\ T = t /\ c' = c /\ l' = l \/
     prev <> INVALID_TIMESTAMP /\ t <= prev /\ T = prev + s /\ Forall2 (rebased s T) l l').
Proof.
  intros Hs (R1 & R2 & R3 & R4) Ht Hp. unfold write_cluster.
  assert (Hti : t <> INVALID_TIMESTAMP) by (unfold INVALID_TIMESTAMP; lia).
  assert (KEEP : exists T c' l', (let '(t, c) := cluster_time c in Ok (t, c, l)) = Ok (T, c', l') /\ cl_elt c' = Some (T / s) /\ cl_global c' = T /\ T = t /\ c' = c /\ l' = l).
  { rewrite (cluster_time_known c t) by assumption. exists t, c, l. auto 7. }
  destruct (Z.eqb_spec prev INVALID_TIMESTAMP) as [E|E]; cbn [negb].
  - destruct KEEP as (T & c' & l' & K1 & K2 & K3 & K4). exists T, c', l'. cbn [bind]. split; [exact K1|]. split; [exact K2|]. split; [exact K3|]. left. auto.
  - destruct Hp as [Hp|Hp]; [contradiction|]. rewrite (cluster_time_known c t) by assumption.
    destruct (Z.leb_spec t prev) as [C|C].
    + destruct Hs as [Hs0 Hs1]. rewrite R3, s64_small by lia. unfold cluster_set. rewrite R3, scale64_ok by lia. cbn [bind]. rewrite Z.quot_div_nonneg by lia.
      destruct (rebase_spec s (prev + s) (mkCl (Some ((prev + s) / s)) (prev + s) (cl_rseg c) (cl_wseg c)) (conj Hs0 Hs1) ltac:(unfold big; lia) l R4) as (l' & E1 & F).
      rewrite E1. cbn [bind fst snd]. rewrite (cluster_time_known _ (prev + s)) by (try reflexivity; unfold INVALID_TIMESTAMP; lia).
      eexists _, _, _. split; [reflexivity|]. split; [reflexivity|]. split; [reflexivity|]. right. auto.
    + destruct KEEP as (T & c' & l' & K1 & K2 & K3 & K4). exists T, c', l'. cbn [bind]. rewrite (cluster_time_known c t) in * by assumption.
      split; [exact K1|]. split; [exact K2|]. split; [exact K3|]. left. auto.
Qed.
Definition out_ok (s : Z) (p q : clus * list tblock) : Prop :=
  exists T, cl_global (fst q) = T /\ cl_elt (fst q) = Some (T / s) /\ (q = p \/ cl_global (fst p) < T /\ Forall2 (rebased s T) (snd p) (snd q)).
Lemma write_clusters_spec s M : scale_ok s -> forall cl times prev,
  Forall2 (fun p t => ready s t (fst p) (snd p)) cl times -> Forall (fun t => 0 <= t <= M) times -> 0 <= M ->
  0 <= prev -> Z.max prev M + zlen cl * s < 2 ^ 59 ->
  exists out, write_clusters prev cl = Ok out /\ Forall2 (out_ok s) cl out /\ pushed s prev times (map (fun p => cl_global (fst p)) out).
Proof.
  intros Hs cl. induction cl as [|[c l] cl IH]; intros times prev HF HM M0 Hp0 Hp; destruct times as [|t times]; try (inversion HF; fail).
  - exists []. split; [reflexivity|]. split; constructor.
  - inversion HF as [|? ? ? ? R HF']; subst. cbn [fst snd] in R. apply Forall_cons_iff in HM. destruct HM as [Ht HM]. rewrite zlen_cons in Hp. pose proof (zlen_nonneg cl) as Z0.
    assert (Hs0 : 0 < s) by apply Hs. cbn [write_clusters].
    destruct (write_cluster_spec s prev t c l Hs R ltac:(nia) ltac:(right; nia)) as (T & c' & l' & E & E1 & E2 & D). rewrite E. cbn [bind].
    assert (Pn : prev <> INVALID_TIMESTAMP) by (unfold INVALID_TIMESTAMP; nia).
    destruct D as [([D1|D1] & -> & -> & ->)|(_ & D1 & -> & D2)]; [contradiction| |].
    + destruct (IH times t HF' HM M0 ltac:(lia) ltac:(nia)) as (out & O1 & O2 & O3). rewrite O1. cbn [bind]. eexists. split; [reflexivity|]. split.
      * constructor; [|exact O2]. exists t. cbn [fst]. auto.
      * cbn [map fst]. rewrite E2. apply pushed_keep; assumption.
    + destruct (IH times (prev + s) HF' HM M0 ltac:(lia) ltac:(nia)) as (out & O1 & O2 & O3). rewrite O1. cbn [bind]. eexists. split; [reflexivity|]. split.
      * constructor; [|exact O2]. exists (prev + s). cbn [fst snd]. split; [exact E2|]. split; [exact E1|]. right. split; [|exact D2]. destruct R as [R _]. lia.
      * cbn [map fst]. rewrite E2. apply pushed_push; assumption.
Qed.
Lemma pushed_rising s p l r : 0 < s -> pushed s p l r -> rising (p :: r).
Proof.
  intros Hs. induction 1 as [p|p t l r H1 H2 IH|p t l r H1 H2 IH]; [exact I| |]; cbn [rising] in *; (split; [lia|exact IH]).
Qed.
Lemma pushed_same s p l r : pushed s p l r -> rising (p :: l) -> r = l.
Proof.
  induction 1 as [p|p t l r H1 H2 IH|p t l r H1 H2 IH]; intros HR; [reflexivity| |].
  - f_equal. apply IH, HR.
  - destruct HR as [HR _]. lia.
Qed.
Lemma pushed_mult s p l r : 0 < s -> pushed s p l r -> (s | p) -> Forall (fun t => (s | t)) l -> Forall (fun t => (s | t)) r.
Proof.
  intros Hs. induction 1 as [p|p t l r H1 H2 IH|p t l r H1 H2 IH]; intros Hp Hl; [constructor| |]; apply Forall_cons_iff in Hl; destruct Hl as [Ht Hl].
  - constructor; auto.
  - assert (D : (s | p + s)) by (apply Z.divide_add_r; [exact Hp|apply Z.divide_refl]). constructor; auto.
Qed.
Lemma rising_div s l : 0 < s -> Forall (fun t => (s | t)) l -> rising l -> rising (map (fun t => t / s) l).
Proof.
  intros Hs. induction l as [|x [|y l] IH]; intros HF HR; [exact I|exact I|]. cbn [map]. cbn [rising] in HR. destruct HR as [H1 H2].
  apply Forall_cons_iff in HF. destruct HF as [[a Ha] HF]. cbn [map] in IH. cbn [rising]. split; [|apply IH; assumption].
  apply Forall_cons_iff in HF. destruct HF as [[b Hb] _]. subst x y. rewrite !Z.div_mul by lia. nia.
Qed.
