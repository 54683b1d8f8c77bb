(** Decoding times, cluster boundaries, and the whole remux. *)
From Verif Require Import Base BaseProofs Tree Stream Frame BlockTime Arr ArrSpec ArrProofs ArrProofs2 Remux RemuxSpec RemuxProofs RemuxProofs2.

Lemma decode_blk l : forall p, map bi_blk (decode_times p l) = l.
Proof. induction l as [|b l IH]; intros p; [reflexivity|]. cbn [decode_times map bi_blk]. f_equal. apply IH. Qed.
Lemma decode_length p l : length (decode_times p l) = length l.
Proof. rewrite <- (map_length bi_blk), decode_blk. reflexivity. Qed.

Lemma decode_ok l : forall p, Forall block_ok l -> (p = INVALID_TIMESTAMP \/ - 2 ^ 58 <= p /\ 4 * p + match l with [] => 0 | b :: _ => k_time b end <= 5 * 2 ^ 58) ->
  Forall bi_ok (decode_times p l).
Proof.
  induction l as [|b l IH]; intros p H Hp; [constructor|]. apply Forall_cons_iff in H. destruct H as [Hb H].
  cbn [decode_times].
  set (d := match l with [] => k_time b | n :: _ => _ end).
  assert (Hd : 4 * d + match l with [] => 0 | b :: _ => k_time b end <= 5 * 2 ^ 58 /\ - 2 ^ 58 <= d < 2 ^ 59).
  { unfold d, INVALID_TIMESTAMP in *. destruct Hb as (_ & _ & Tb & _). destruct l as [|n l]; [lia|].
    apply Forall_cons_iff in H. destruct H as [(_ & _ & Tn & _) _].
    destruct (negb (p =? 2 ^ 63 - 1) && (k_time n <? k_time b)) eqn:E; [|lia].
    rewrite Z.shiftr_div_pow2 by lia. change (2 ^ 2) with 4. lia. }
  constructor; [split; [exact Hb|apply Hd]|]. apply IH; [exact H|right; lia].
Qed.
(** Blocks that come in the order of their times are decoded at their times. *)
Lemma decode_same l : forall p, in_order (map k_time l) -> map bi_dec (decode_times p l) = map k_time l.
Proof.
  induction l as [|b l IH]; intros p H; [reflexivity|]. cbn [decode_times map] in *. apply StronglySorted_inv in H. destruct H as [H1 H2].
  destruct l as [|n l]; [reflexivity|]. apply Forall_cons_iff in H2. destruct H2 as [H2 _].
  replace (k_time n <? k_time b) with false by lia. rewrite andb_false_r. cbn [bi_dec]. f_equal. apply IH, H1.
Qed.

(** ** Cluster boundaries *)
Lemma sub_refl l : sub l l.
Proof. induction l; [apply sub_nil|apply sub_take; auto]. Qed.
Lemma sub_trans b c : sub b c -> forall a, sub a b -> sub a c.
Proof.
  induction 1 as [l|x b l H IH|x b l H IH]; intros a Ha.
  - inversion Ha. apply sub_nil.
  - inversion Ha as [|? a' ? Ha'|? ? ? Ha']; subst; [apply sub_nil|apply sub_take; auto|apply sub_skip; auto].
  - apply sub_skip. auto.
Qed.
Lemma sub_app_l p a l : sub a l -> sub (p ++ a) (p ++ l).
Proof. intros H. induction p; [exact H|cbn [app]; apply sub_take; exact IHp]. Qed.
Lemma sub_Forall P a l : sub a l -> Forall P l -> Forall P a.
Proof. induction 1; intros HF; [constructor| |]; apply Forall_cons_iff in HF; destruct HF; [constructor|]; auto. Qed.
Lemma sub_sorted a l : sub a l -> in_order l -> in_order a.
Proof.
  unfold in_order. induction 1 as [l|x b l H IH|x b l H IH]; intros Hs; [constructor| |]; apply StronglySorted_inv in Hs; destruct Hs as [H1 H2]; [|auto].
  constructor; [auto|]. apply sub_Forall with l; auto.
Qed.
Lemma delete_sub (a : list Z) pos : sub (item_delete a pos) a.
Proof.
  unfold item_delete. rewrite <- (firstn_skipn (Z.to_nat pos) a) at 3. apply sub_app_l.
  destruct (Z_lt_ge_dec pos 0) as [Hp|Hp].
  - replace (Z.to_nat (pos + 1)) with O by lia. replace (Z.to_nat pos) with O by lia. apply sub_refl.
  - replace (Z.to_nat (pos + 1)) with (S (Z.to_nat pos)) by lia. generalize (Z.to_nat pos) as n. clear. induction a as [|x a IH]; intros n; [rewrite !skipn_nil; apply sub_nil|].
    destruct n; cbn [skipn]; [apply sub_skip, sub_refl|apply IH].
Qed.
Lemma delete_length {A} (a : list A) pos : (length a <= S (length (item_delete a pos)))%nat.
Proof. unfold item_delete. rewrite app_length, firstn_length, skipn_length. lia. Qed.

Lemma thin_sub fuel : forall a i prev r, thin fuel a i prev = Ok r -> sub r a /\ (a <> [] -> r <> []).
Proof.
  induction fuel as [|f IH]; intros a i prev r H; cbn [thin] in H; destruct (nth_error a i) as [t|] eqn:E; try discriminate;
    try (injection H as <-; split; [apply sub_refl|auto]).
  match type of H with (if ?c then _ else _) = _ => destruct c eqn:C end; [|apply IH in H; exact H].
  unfold array_remove in H. destruct (array_find _ a) as [[pos fd]|]; [|discriminate]. cbn [opt_res bind fst] in H.
  apply IH in H. destruct H as [H1 H2].
  assert (Hl : (2 <= length a)%nat).
  { destruct (nth_error a (S i)) eqn:E2; [|rewrite andb_false_r in C; discriminate]. assert (S i < length a)%nat by (apply nth_error_Some; rewrite E2; discriminate). lia. }
  destruct fd.
  - split; [apply sub_trans with (item_delete a pos); [apply delete_sub|exact H1]|]. intros _. apply H2. intros E3.
    pose proof (delete_length a pos) as L. rewrite E3 in L. cbn [length] in L. lia.
  - auto.
Qed.

Lemma cmp_total : total_preorder timcode_cmp.
Proof.
  unfold total_preorder, timcode_cmp. split; intros x y.
  - destruct (Z.eqb_spec x y), (Z.eqb_spec y x), (Z.ltb_spec y x), (Z.ltb_spec x y); lia.
  - intros z. destruct (Z.eqb_spec x y), (Z.eqb_spec y z), (Z.eqb_spec x z), (Z.ltb_spec y x), (Z.ltb_spec z y), (Z.ltb_spec z x); lia.
Qed.
Lemma in_order_sorted l : in_order l -> sorted_by timcode_cmp l.
Proof.
  unfold in_order, sorted_by. induction 1 as [|x l H IH HF]; constructor; [exact IH|]. revert HF. apply Forall_impl. intros y Hy.
  unfold timcode_cmp. destruct (Z.eqb_spec x y), (Z.ltb_spec y x); lia.
Qed.
Lemma delete_same_aux x p q : in_order (x :: p ++ x :: q) -> p ++ x :: q = x :: p ++ q.
Proof.
  unfold in_order. induction p as [|z p IH]; intros H; [reflexivity|]. cbn [app] in *.
  apply StronglySorted_inv in H. destruct H as [H1 H2]. apply Forall_cons_iff in H2. destruct H2 as [H2 H3].
  pose proof (StronglySorted_inv H1) as [H4 H5]. apply Forall_app in H5. destruct H5 as [_ H5]. apply Forall_cons_iff in H5. destruct H5 as [H5 _].
  assert (z = x) by lia. subst z. f_equal. apply IH. exact H1.
Qed.
Lemma delete_same x p : forall q p' q', in_order (p ++ x :: q) -> p ++ x :: q = p' ++ x :: q' -> p ++ q = p' ++ q'.
Proof.
  induction p as [|z p IH]; intros q p' q' H E; destruct p' as [|z' p']; cbn [app] in *.
  - injection E as ->. reflexivity.
  - injection E as <- E. subst q. apply delete_same_aux. exact H.
  - injection E as -> E. rewrite <- E. symmetry. apply delete_same_aux. rewrite E in *. exact H.
  - injection E as <- E. f_equal. apply IH; [|exact E]. apply StronglySorted_inv in H. apply H.
Qed.
Lemma item_delete_app {A} (p : list A) x q : item_delete (p ++ x :: q) (zlen p) = p ++ q.
Proof.
  unfold item_delete, zlen. rewrite Nat2Z.id. replace (Z.to_nat (Z.of_nat (length p) + 1)) with (length p + 1)%nat by lia.
  rewrite firstn_app, firstn_all, Nat.sub_diag, firstn_O, app_nil_r. f_equal.
  rewrite skipn_app, skipn_all2 by lia. replace (length p + 1 - length p)%nat with 1%nat by lia. reflexivity.
Qed.
Lemma remove_here pre t rest : in_order (pre ++ t :: rest) -> array_remove timcode_cmp (pre ++ t :: rest) t = Some (pre ++ rest, true).
Proof.
  intros H. unfold array_remove.
  destruct (array_find_spec (fun y => timcode_cmp y t) (pre ++ t :: rest)) as [(p & x & s & -> & E & Hx)|(p & s & -> & E & Hp & Hs)].
  - apply sorted_search_ready; [exact cmp_total|apply in_order_sorted; exact H].
  - assert (x = t) by (unfold timcode_cmp in Hx; destruct (Z.eqb_spec x t); [assumption|]; destruct (t <? x); lia). subst x.
    rewrite E, item_delete_app. do 2 f_equal. symmetry. apply delete_same with t; assumption.
  - exfalso. assert (Hin : In t (p ++ s)) by (rewrite <- E; apply in_or_app; right; left; reflexivity).
    assert (Z0 : timcode_cmp t t = 0) by (unfold timcode_cmp; rewrite Z.eqb_refl; reflexivity).
    apply in_app_or in Hin. rewrite Forall_forall in Hp, Hs. destruct Hin as [Hin|Hin]; [specialize (Hp _ Hin)|specialize (Hs _ Hin)]; lia.
Qed.

Lemma nth_error_here {A} (pre : list A) t rest : nth_error (pre ++ t :: rest) (length pre) = Some t.
Proof. rewrite nth_error_app2, Nat.sub_diag by lia. reflexivity. Qed.
Lemma nth_error_next {A} (pre : list A) t rest : nth_error (pre ++ t :: rest) (S (length pre)) = nth_error rest 0.
Proof. rewrite nth_error_app2 by lia. replace (S (length pre) - length pre)%nat with 1%nat by lia. reflexivity. Qed.

Lemma thin_sorted prev : prev <> INVALID_TIMESTAMP -> forall rest pre dropped fuel, Forall (fun t => t < INVALID_TIMESTAMP) rest ->
  in_order (pre ++ rest) -> (length rest <= fuel)%nat ->
  Forall (fun x => x < prev + 1000000000) dropped -> (dropped <> [] -> match rest with [] => False | t :: _ => t < prev + 2000000000 end) ->
  exists r, thin fuel (pre ++ rest) (length pre) prev = Ok (pre ++ r) /\ spaced prev (dropped ++ rest) r.
Proof.
  intros Hv rest. revert prev Hv. induction rest as [|t rest IH]; intros prev Hv pre dropped fuel HF Ho Hf Hd Hn.
  - exists []. rewrite app_nil_r. split.
    + assert (E : nth_error pre (length pre) = None) by (apply nth_error_None; lia). destruct fuel; cbn [thin]; rewrite E; reflexivity.
    + destruct dropped; [apply spaced_end|exfalso; apply Hn; discriminate].
  - destruct fuel as [|f]; [cbn [length] in Hf; lia|]. cbn [thin]. rewrite nth_error_here, nth_error_next.
    replace (prev =? INVALID_TIMESTAMP) with false by lia. cbn [negb andb]. cbn [length] in Hf.
    apply Forall_cons_iff in HF. destruct HF as [Ht HF].
    destruct (t <? prev + 1000000000) eqn:E1; cbn [andb].
    + destruct rest as [|n rest']; cbn [nth_error].
      * destruct (IH t ltac:(lia) (pre ++ [t]) [] f HF ltac:(rewrite app_nil_r; exact Ho) ltac:(cbn [length] in *; lia) ltac:(constructor) ltac:(intros []; reflexivity)) as (r & H1 & H2).
        exists (t :: r). rewrite app_length in H1. cbn [length] in H1. rewrite Nat.add_1_r, app_nil_r in H1.
        rewrite H1, <- app_assoc. split; [reflexivity|].
        apply spaced_next; auto.
      * destruct (n <? prev + 2000000000) eqn:E2.
        -- rewrite (remove_here pre t (n :: rest')) by exact Ho. cbn [opt_res bind fst].
           destruct (IH prev Hv pre (dropped ++ [t]) f HF) as (r & H1 & H2).
           { apply sub_sorted with (pre ++ t :: n :: rest'); [apply sub_app_l, sub_skip, sub_refl|exact Ho]. }
           { cbn [length] in *. lia. }
           { apply Forall_app. split; [exact Hd|]. constructor; [lia|constructor]. }
           { intros _. lia. }
           exists r. split; [exact H1|]. rewrite <- app_assoc in H2. exact H2.
        -- destruct (IH t ltac:(lia) (pre ++ [t]) [] f HF ltac:(rewrite <- app_assoc; exact Ho) ltac:(cbn [length] in *; lia) ltac:(constructor) ltac:(intros []; reflexivity)) as (r & H1 & H2).
           exists (t :: r). rewrite app_length in H1. cbn [length] in H1. rewrite Nat.add_1_r, <- !app_assoc in H1. cbn [app] in H1.
           rewrite H1. split; [reflexivity|].
           apply spaced_next; [exact Hd|exact Hn|intros _; lia|exact H2].
    + destruct (IH t ltac:(lia) (pre ++ [t]) [] f HF ltac:(rewrite <- app_assoc; exact Ho) ltac:(lia) ltac:(constructor) ltac:(intros []; reflexivity)) as (r & H1 & H2).
      exists (t :: r). rewrite app_length in H1. cbn [length] in H1. rewrite Nat.add_1_r, <- !app_assoc in H1. cbn [app] in H1.
      rewrite H1. split; [reflexivity|]. apply spaced_next; [exact Hd|exact Hn|intros; lia|exact H2].
Qed.
Lemma thin_all t keys : Forall (fun t => t < INVALID_TIMESTAMP) (t :: keys) -> in_order (t :: keys) ->
  exists r, thin (length (t :: keys)) (t :: keys) 0 INVALID_TIMESTAMP = Ok (t :: r) /\ spaced t keys r.
Proof.
  intros HF Ho. cbn [length thin nth_error]. rewrite Z.eqb_refl. cbn [negb andb].
  apply Forall_cons_iff in HF. destruct HF as [Ht HF].
  apply (thin_sorted t ltac:(lia) keys [t] [] (length keys)); auto. intros []; reflexivity.
Qed.
