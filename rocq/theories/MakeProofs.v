From Verif Require Import Base BaseProofs Make MakeSpec.

Lemma uses_cons j k c : uses j (k :: c) = (if c_mod k =? j then 1 else 0) + uses j c.
Proof. unfold uses. cbn [filter]. destruct (c_mod k =? j); [rewrite zlen_cons|]; lia. Qed.
Lemma uses_nonneg j c : 0 <= uses j c.
Proof. apply zlen_nonneg. Qed.
Lemma unlock_count c m j : unlock c m j = m j - uses j c.
Proof.
  revert m. induction c as [|k c IH]; intros m; cbn [unlock]; [unfold uses, zlen; cbn; lia|].
  rewrite IH, uses_cons. unfold plus. rewrite (Z.eqb_sym j). destruct (c_mod k =? j); lia.
Qed.
Lemma lock_step rooted k r m : lock rooted (k :: r) m =
  (let (ok, m) := match r with [] => (rooted, m) | _ => lock rooted r m end in
   if negb ok then (false, m)
   else let m := plus m (c_mod k) 1 in if c_ready k then (true, m) else (false, unlock (k :: r) m)).
Proof. destruct r; reflexivity. Qed.
Lemma lock_count rooted c m : let (ok, m') := lock rooted c m in
  if ok then rooted = true /\ (forall k, In k c -> c_ready k = true) /\ forall j, m' j = m j + uses j c
  else (rooted = false \/ c = [] \/ exists k, In k c /\ c_ready k = false) /\ forall j, m' j = m j.
Proof.
  induction c as [|k r IH].
  - cbn. split; auto.
  - rewrite lock_step.
    assert (S : let (ok, m') := match r with [] => (rooted, m) | _ => lock rooted r m end in
      if ok then rooted = true /\ (forall k, In k r -> c_ready k = true) /\ forall j, m' j = m j + uses j r
      else (rooted = false \/ exists k, In k r /\ c_ready k = false) /\ forall j, m' j = m j).
    { destruct r as [|k2 r].
      - destruct rooted; [|auto]. split; [auto|]. split; [intros ? []|]. intros j. unfold uses, zlen. cbn. lia.
      - destruct (lock rooted (k2 :: r) m) as [[] m']; [exact IH|]. destruct IH as ([?|[?|?]] & ?); [auto|discriminate|auto]. }
    destruct (match r with [] => (rooted, m) | _ => lock rooted r m end) as [ok m1]. destruct ok; cbn [negb].
    + destruct S as (Hr & Hk & Hm). destruct (c_ready k) eqn:Ek.
      * split; [auto|]. split; [intros k' [<-|]; auto|]. intros j. rewrite uses_cons. unfold plus. rewrite (Z.eqb_sym j), Hm. destruct (c_mod k =? j); lia.
      * split; [right; right; exists k; split; [left; auto|auto]|]. intros j. rewrite unlock_count, uses_cons. unfold plus. rewrite (Z.eqb_sym j), Hm.
        destruct (c_mod k =? j); lia.
    + destruct S as ([?|(k' & ? & ?)] & ?); split; auto. right; right. exists k'. split; [right|]; auto.
Qed.

Lemma deletes_deleters k : deletes (c_metas k) = map EDeleted (deleters k).
Proof. unfold deleters. induction (c_metas k) as [|[f|f] l IH]; cbn; auto. f_equal. exact IH. Qed.
Lemma call_delete_log c log : call_delete c log = log ++ map EDeleted (all_deleters c).
Proof.
  revert log. induction c as [|k c IH]; intros log; cbn [call_delete]; [cbn; rewrite app_nil_r; reflexivity|].
  rewrite IH, deletes_deleters, <- app_assoc, <- map_app. reflexivity.
Qed.
Lemma calls_app works log a mid b log' : calls works log a mid -> calls works mid b log' -> calls works log (a ++ b) log'.
Proof. induction 1; intros; cbn [app]; [auto|]. constructor; auto. Qed.
Lemma all_creators_cons k r : all_creators (k :: r) = all_creators r ++ creators k.
Proof. unfold all_creators. cbn [rev]. rewrite flat_map_app. cbn. rewrite app_nil_r. reflexivity. Qed.
Definition fs (l : list cmeta) : list Z := flat_map (fun m => match m with CCreate f => [f] | _ => [] end) l.
Lemma create_table_log works parents l log : let (ok, log') := create_table works parents l log in
  if ok then calls works log (fs l) log'
  else exists before f after mid, fs l = before ++ f :: after /\ calls works log before mid /\ works mid f = false /\
       log' = mid ++ [EFailed f] ++ map EDeleted (all_deleters parents).
Proof.
  revert log. induction l as [|[f|f] l IH]; intros log; cbn [create_table].
  - constructor.
  - destruct (works log f) eqn:W.
    + specialize (IH (log ++ [EMade f])). destruct (create_table works parents l (log ++ [EMade f])) as [[] log'].
      * cbn. constructor; auto.
      * destruct IH as (b & f' & a & mid & E & C & Wf & ->). exists (f :: b), f', a, mid. cbn. fold (fs l). rewrite E.
        split; [reflexivity|]. split; [constructor; auto|]. auto.
    + exists [], f, (fs l), log. split; [reflexivity|]. split; [constructor|]. split; [auto|]. rewrite call_delete_log, <- app_assoc. reflexivity.
  - apply IH.
Qed.
Lemma call_create_log works c log : let (ok, log') := call_create works true c log in
  if ok then calls works log (all_creators c) log' else undone works c log log'.
Proof.
  induction c as [|k r IH]; cbn [call_create]; [constructor|].
  assert (E : (match r with [] => let (ok, l) := call_create works true r log in if negb ok then (false, l) else create_table works r (c_metas k) l
             | _ :: _ => let (ok, l) := call_create works true r log in if negb ok then (false, l) else create_table works r (c_metas k) l end)
             = let (ok, l) := call_create works true r log in if negb ok then (false, l) else create_table works r (c_metas k) l) by (destruct r; reflexivity).
  rewrite E. clear E. destruct (call_create works true r log) as [ok l1]. destruct ok; cbn [negb].
  - pose proof (create_table_log works r (c_metas k) l1) as T. destruct (create_table works r (c_metas k) l1) as [[] l2].
    + rewrite all_creators_cons. eapply calls_app; eauto.
    + destruct T as (b & f & a & mid & E & C & W & ->). exists [], k, r, b, f, a, mid. split; [reflexivity|]. split; [exact E|].
      split; [eapply calls_app; eauto|]. auto.
  - destruct IH as (below & k' & ps & b & f & a & mid & E & R). exists (k :: below), k', ps, b, f, a, mid. split; [cbn; congruence|exact R].
Qed.
Lemma node_size_0 c : node_size c = 0 <-> forall k, In k c -> c_size k = 0.
Proof.
  induction c as [|k c IH]; cbn [node_size In]; [tauto|]. destruct (Z.eqb_spec (c_size k) 0).
  - rewrite IH. split; [intros H k' [<-|]; auto|auto].
  - split; [tauto|]. intros H. auto.
Qed.

(** All that a creation does. *)
Lemma make_cases w rooted c x w' n : make w rooted c x = (w', n) ->
  (n = None /\ w_log w' = w_log w /\ w_nodes w' = w_nodes w /\ w_made w' = w_made w /\ (makeable rooted c -> f_memory x = false \/ f_single x = true /\ f_noted x = false) /\
   ((~ makeable rooted c \/ f_memory x = true) -> forall j, w_mods w' j = w_mods w j) /\
   ((f_memory x = true -> f_single x = true -> f_noted x = true) -> w_blocks w' = w_blocks w)) \/
  makeable rooted c /\ f_memory x = true /\
   (n = None /\ undone (f_works x) c (w_log w) (w_log w') /\ w_nodes w' = w_nodes w /\ w_made w' = w_made w /\ (forall j, w_mods w' j = w_mods w j) /\ w_blocks w' = w_blocks w \/
    n = Some (w_made w) /\ calls (f_works x) (w_log w) (all_creators c) (w_log w') /\
    w_nodes w' = (fun j => if Nat.eqb j (w_made w) then Some c else w_nodes w j) /\ w_made w' = S (w_made w) /\ (forall j, w_mods w' j = w_mods w j + uses j c) /\ w_blocks w' = w_blocks w + 1).
Proof.
  unfold make. destruct c as [|k r] eqn:Ec.
  { intros [= <- <-]. left. repeat split; auto. intros (_ & (? & ? & E & _) & _). discriminate. }
  rewrite <- Ec. destruct (c_abstract k) eqn:Ea.
  { intros [= <- <-]. left. repeat split; auto. intros (_ & (k' & r' & E & A) & _). rewrite Ec in E. injection E as <- <-. congruence. }
  pose proof (lock_count rooted c (w_mods w)) as L. destruct (lock rooted c (w_mods w)) as [ok m]. destruct ok; cbn [negb].
  2:{ destruct L as (L & M). intros [= <- <-]. left. cbn. repeat split; auto.
      intros (Hr & _ & Hk & _). exfalso. destruct L as [|[|(k' & I & E)]]; [congruence|congruence|]. rewrite Hk in E by auto. discriminate. }
  destruct L as (-> & Hk & M). destruct (Z.eqb_spec (node_size c) 0) as [Z0|Z0].
  { intros [= <- <-]. left. cbn. repeat split; auto.
    - intros (_ & _ & _ & k' & I & E). exfalso. rewrite node_size_0 in Z0. auto.
    - intros _ j. rewrite unlock_count, M. lia. }
  assert (Mk : makeable true c).
  { split; [auto|]. split; [exists k, r; auto|]. split; [auto|].
    assert (G : Exists (fun k => c_size k <> 0) c).
    { apply Exists_exists. rewrite <- Exists_exists. clear - Z0. induction c as [|a c IH]; [cbn in Z0; congruence|]. cbn [node_size] in Z0.
      destruct (Z.eqb_spec (c_size a) 0); [right; auto|left; auto]. }
    apply Exists_exists in G. exact G. }
  destruct (f_memory x) eqn:Em; cbn [negb].
  2:{ intros [= <- <-]. left. cbn. repeat split; auto; try tauto. intros [?|?]; [tauto|discriminate]. }
  destruct (f_single x && negb (f_noted x)) eqn:Es.
  { intros [= <- <-]. apply andb_true_iff in Es as (E1 & E2). apply negb_true_iff in E2. left. cbn. repeat split; auto.
    - intros _ j. rewrite unlock_count, M. lia.
    - intros H. rewrite H in E2 by auto. discriminate. }
  pose proof (call_create_log (f_works x) c (w_log w)) as C. destruct (call_create (f_works x) true c (w_log w)) as [ok log]. destruct ok; intros [= <- <-]; right; (split; [auto|]; split; [auto|]).
  - right. cbn. auto 10.
  - left. cbn. repeat split; auto. intros j. rewrite unlock_count, M. lia.
Qed.

(** Counting. *)
Lemma users_ext w w' j n : (forall k, (k < n)%nat -> w k = w' k) -> users w j n = users w' j n.
Proof. induction n; intros H; cbn [users]; [auto|]. rewrite IHn, H by auto. reflexivity. Qed.
Lemma living_ext w w' n : (forall k, (k < n)%nat -> w k = w' k) -> living w n = living w' n.
Proof. induction n; intros H; cbn [living]; [auto|]. rewrite IHn, H by auto. reflexivity. Qed.
Lemma users_drop w j n k c : (k < n)%nat -> w k = Some c -> users (fun i => if Nat.eqb i k then None else w i) j n = users w j n - uses j c.
Proof.
  induction n as [|n IH]; intros Hk E; [lia|]. cbn [users]. destruct (Nat.eqb_spec n k) as [->|N].
  - rewrite E, (users_ext _ w); [lia|]. intros i Hi. rewrite (proj2 (Nat.eqb_neq i k)) by lia. reflexivity.
  - rewrite IH by (auto; lia). lia.
Qed.
Lemma living_drop w n k c : (k < n)%nat -> w k = Some c -> living (fun i => if Nat.eqb i k then None else w i) n = living w n - 1.
Proof.
  induction n as [|n IH]; intros Hk E; [lia|]. cbn [living]. destruct (Nat.eqb_spec n k) as [->|N].
  - rewrite E, (living_ext _ w); [lia|]. intros i Hi. rewrite (proj2 (Nat.eqb_neq i k)) by lia. reflexivity.
  - rewrite IH by (auto; lia). lia.
Qed.
Definition winv (w : world) : Prop :=
  (forall k, (w_made w <= k)%nat -> w_nodes w k = None) /\
  (forall j, w_mods w j = 1 + users (w_nodes w) j (w_made w)) /\ w_blocks w = living (w_nodes w) (w_made w).
Lemma made_none w o : (forall k, (w_made w <= k)%nat -> w_nodes w k = None) -> forall k, (w_made (mstep w o) <= k)%nat -> w_nodes (mstep w o) k = None.
Proof.
  intros H. destruct o as [r c x|k0]; cbn [mstep].
  - destruct (make w r c x) as [w' n] eqn:E. cbn [fst]. apply make_cases in E as [(_ & _ & -> & -> & _)|(_ & _ & [(_ & _ & -> & -> & _)|(_ & _ & -> & -> & _)])]; auto.
    intros k Hk. rewrite (proj2 (Nat.eqb_neq k (w_made w))) by lia. apply H. lia.
  - unfold let_go. destruct (w_nodes w k0); [|auto]. cbn. intros k Hk. destruct (Nat.eqb k k0); auto.
Qed.
Lemma winv_step w o : winv w -> lucky o = true -> winv (mstep w o).
Proof.
  intros (H1 & H2 & H3) Lu. split; [apply made_none; auto|]. destruct o as [r c x|k]; cbn [mstep].
  - cbn [lucky] in Lu. apply andb_true_iff in Lu as (Lm & Ls).
    destruct (make w r c x) as [w' n] eqn:E. cbn [fst]. apply make_cases in E as [(_ & _ & -> & -> & _ & E1 & E2)|(_ & _ & [(_ & _ & -> & -> & E1 & E2)|(_ & _ & -> & -> & E1 & E2)])].
    + split.
      * intros j. rewrite E1 by auto. apply H2.
      * rewrite E2; [auto|]. intros _ S. rewrite S in Ls. destruct (f_noted x); auto.
    + split; [intros j; rewrite E1; apply H2|congruence].
    + cbn [users living]. rewrite Nat.eqb_refl. split.
      * intros j. rewrite E1, H2. rewrite (users_ext (fun j => if Nat.eqb j (w_made w) then Some c else w_nodes w j) (w_nodes w)); [lia|]. intros i Hi. rewrite (proj2 (Nat.eqb_neq i (w_made w))) by lia. reflexivity.
      * rewrite E2, H3. rewrite (living_ext (fun j => if Nat.eqb j (w_made w) then Some c else w_nodes w j) (w_nodes w)); [lia|]. intros i Hi. rewrite (proj2 (Nat.eqb_neq i (w_made w))) by lia. reflexivity.
  - unfold let_go. destruct (w_nodes w k) as [c|] eqn:E; [|auto]. cbn [w_mods w_nodes w_made w_blocks].
    assert (Hk : (k < w_made w)%nat). { destruct (Nat.lt_ge_cases k (w_made w)) as [|G]; [auto|]. rewrite H1 in E by auto. discriminate. }
    split.
    + intros j. rewrite unlock_count, H2, (users_drop _ _ _ _ _ Hk E). lia.
    + rewrite (living_drop _ _ _ _ Hk E). lia.
Qed.
Lemma runs_snoc l o : runs (l ++ [o]) = mstep (runs l) o.
Proof. unfold runs. rewrite fold_left_app. reflexivity. Qed.
Lemma runs_none l k : (w_made (runs l) <= k)%nat -> w_nodes (runs l) k = None.
Proof. revert k. induction l as [|o l IH] using rev_ind; intros k; [auto|]. rewrite runs_snoc. apply made_none. auto. Qed.
Lemma runs_inv l : forallb lucky l = true -> winv (runs l).
Proof.
  induction l as [|o l IH] using rev_ind; intros H.
  - split; [auto|]. split; reflexivity.
  - rewrite forallb_app in H. apply andb_true_iff in H as (H1 & H2). cbn in H2. rewrite andb_true_r in H2. rewrite runs_snoc. apply winv_step; auto.
Qed.
