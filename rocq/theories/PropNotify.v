(** Listeners of a node. *)
From Verif Require Import Base Tree Notify NotifySpec NotifyProofs NotifyProofs3 NotifyProofs4 NotifyProofs5.

(** The node [s] shows what the registrations [q] say: the calls made, whether the node is gone, has a
    list, the other data in front of the list and lost, and the items in memory, no more and no less. *)
Definition shows (q : sps) (s : st) : Prop :=
  s_log s = q_log q /\ s_gone s = q_gone q /\ s_data s = q_data q /\ s_pre s = q_pre q /\ s_lost s = q_lost q /\
  (forall a, hget (s_heap s) a <> None <-> In a (ids (q_regs q)) \/ In a (q_leaks q)).
Lemma rel_shows q s : rel q s -> shows q s.
Proof. intros R. destruct R as [B ? ? ? ? ? ? ? ? ?]. unfold shows. repeat (split; [assumption|]). apply (b_leak _ _ _ _ B). Qed.

(** Two listeners, 2 then 1, and an event; listener 1 does [a]. *)
Definition two : list op := [OAdd 2 20 true true; OAdd 1 10 true true; ONotify].
Definition only1 (a : list action) (n : nat) (c : Z * Z) : list action := if fst c =? 1 then a else [].

(** For every history of registrations, withdrawals, events and other data, and all callbacks, which
    may do any of this themselves at any time: the node behaves as a list of registrations, newest
    first; memory already freed is used, or the methods of a deleted node called, exactly when the
    specification says so. *)
Theorem C97_history scr del l :
  match sp_steps scr del sps0 l with
  | SFreed => steps scr del st0 l = Bad
  | SDeleted => steps scr del st0 l = Null
  | SOk q => exists s, steps scr del st0 l = Ok s /\ shows q s
  end.
Proof.
  pose proof (steps_ok scr del l sps0 st0 rel0) as H.
  destruct (sp_steps scr del sps0 l); [exact H..|]. destruct H as (s & E & R). exists s. split; [exact E|]. apply rel_shows, R.
Qed.
Print Assumptions C97_history.
Example C97_history_ex :
  let scr := only1 [ARem 1 10; AAdd 3 30 true true; ANotify] in
  exists s, steps scr false st0 (two ++ [ONotify]) = Ok s /\
    rev (s_log s) = [(1, 10); (2, 20); (3, 30); (2, 20)].
Proof. cbv zeta. eexists. split; vm_compute; reflexivity. Qed.

(** An event: each listener called was registered when it began, they are called newest first and at
    most once, and one that was registered and is not called has been withdrawn meanwhile. *)
Theorem C98_calls scr del l q q' :
  sp_steps scr del sps0 l = SOk q -> sp_steps scr del sps0 (l ++ [ONotify]) = SOk q' ->
  exists s s' called,
    steps scr del st0 l = Ok s /\ steps scr del st0 (l ++ [ONotify]) = Ok s' /\
    s_log s' = rev (map r_call called) ++ s_log s /\
    subseq called (q_regs q) /\ NoDup (ids (q_regs q)) /\
    (forall x, In x (q_regs q) -> In x called \/ ~ In x (q_regs q')).
Proof.
  intros E E'. pose proof (steps_ok scr del l sps0 st0 rel0) as H. rewrite E in H. destruct H as (s & Es & R).
  pose proof (steps_ok scr del (l ++ [ONotify]) sps0 st0 rel0) as H. rewrite E' in H. destruct H as (s' & Es' & R').
  assert (En : sp_steps scr del q [ONotify] = SOk q').
  { revert E E'. clear. generalize sps0. induction l as [|o l IH]; intros q0 E E'; cbn [app sp_steps] in E, E'.
    - injection E as <-. exact E'.
    - destruct (sp_step scr del q0 o); [discriminate..|]. eapply IH; eassumption. }
  pose proof (t_base _ _ R) as B. pose proof (t_none _ _ R) as Hno.
  exists s, s'. rewrite (t_log _ _ R), (t_log _ _ R').
  cbn [sp_steps] in En. unfold sp_step in En. destruct (q_gone q); [discriminate|].
  destruct (q_data q).
  - destruct (sp_notify scr del q) as [| |q1] eqn:N; [discriminate..|]. injection En as <-.
    destruct (sp_notify_calls scr del q q1 (b_live _ _ _ _ B) (b_pos _ _ _ _ B) N) as (c & C1 & C2 & C3).
    exists c. split; [exact Es|]. split; [exact Es'|]. split; [exact C1|]. split; [exact C2|]. split; [apply B|exact C3].
  - injection En as <-. rewrite (Hno eq_refl). exists []. split; [exact Es|]. split; [exact Es'|]. split; [reflexivity|].
    split; [constructor|]. split; [constructor|]. intros x [].
Qed.
Print Assumptions C98_calls.
Example C98_calls_ex :
  let scr := only1 [AAdd 3 30 true true; ARem 2 20] in
  exists s, steps scr false st0 two = Ok s /\ s_log s = [(1, 10)].
Proof. cbv zeta. eexists. split; vm_compute; reflexivity. Qed.

(** With callbacks that leave the registrations alone, all are called, newest first, and stay. *)
Theorem C98_quiet del l q :
  let scr := fun _ _ => [] in
  sp_steps scr del sps0 l = SOk q ->
  exists s', steps scr del st0 (l ++ [ONotify]) = Ok s' /\ s_log s' = rev (map r_call (q_regs q)) ++ q_log q.
Proof.
  cbv zeta. intros E.
  destruct (sp_steps_tidy (fun _ _ => []) false (fun _ _ => eq_refl) del ltac:(discriminate) (l ++ [ONotify]) sps0
              ltac:(split; [constructor|intros a []]) ltac:(vm_compute; reflexivity) eq_refl) as (q' & E' & _).
  destruct (C98_calls _ _ _ _ _ E E') as (s & s' & c & Es & Es' & Lg & Sb & Nd & Al).
  exists s'. split; [exact Es'|].
  pose proof (steps_ok (fun _ _ => []) del l sps0 st0 rel0) as H. rewrite E in H. destruct H as (s2 & Es2 & R).
  rewrite Es in Es2. injection Es2 as <-. rewrite Lg, (t_log _ _ R). f_equal. f_equal. f_equal.
  assert (En : sp_steps (fun _ _ => []) del q [ONotify] = SOk q').
  { revert E E'. clear. generalize sps0. induction l as [|o l IH]; intros q0 E E'; cbn [app sp_steps] in E, E'.
    - injection E as <-. exact E'.
    - destruct (sp_step (fun _ _ => []) del q0 o); [discriminate..|]. eapply IH; eassumption. }
  assert (Same : q_regs q' = q_regs q).
  { cbn [sp_steps] in En. unfold sp_step in En. destruct (q_gone q); [discriminate|].
    destruct (q_data q); [|injection En as <-; reflexivity].
    destruct (sp_notify (fun _ _ => []) del q) as [| |q1] eqn:N; [discriminate..|]. injection En as <-.
    unfold sp_notify in N. set (o := mkRound _ _ _ _ _) in N.
    destruct (sp_loop _ _ o) as [| |o'] eqn:El; [discriminate..|].
    assert (Lr : forall n o o', sp_loop (fun _ _ => []) n o = SOk o' -> p_regs (o_sp o') = p_regs (o_sp o)).
    { clear. induction n as [|n IH]; intros o o' E; cbn [sp_loop] in E; [injection E as <-; reflexivity|].
      cbv zeta in E. destruct (p_todo (o_sp o)); [injection E as <-; reflexivity|]. cbn [sp_acts p_haz] in E.
      apply IH in E. exact E. }
    apply Lr in El. change (p_regs (o_sp o)) with (q_regs q) in El. rewrite <- El.
    cbv zeta in N. destruct (_ || _ || _); [destruct (o_at o'); [destruct (in_dec _ _ _); [|discriminate]|destruct (p_pre (o_sp o'))]|];
      injection N as <-; reflexivity. }
  rewrite Same in Al.
  assert (Full : forall x, In x (q_regs q) -> In x c) by (intros x Hx; destruct (Al x Hx); [assumption|tauto]).
  clear -Sb Nd Full. induction Sb as [|x a b H IH|x a b H IH].
  - reflexivity.
  - exfalso. cbn [ids map] in Nd. inversion Nd as [|? ? N1 N2]; subst. apply N1.
    apply in_reg, (ss_in _ _ H), Full. left. reflexivity.
  - cbn [ids map] in Nd. inversion Nd as [|? ? N1 N2]; subst. f_equal. apply IH; [exact N2|].
    intros y Hy. destruct (Full y (or_intror Hy)) as [->|K]; [|exact K]. exfalso. apply N1, in_reg, Hy.
Qed.
Print Assumptions C98_quiet.
Example C98_quiet_ex : exists q, sp_steps (fun _ _ => []) false sps0 (removelast two) = SOk q /\ length (q_regs q) = 2%nat.
Proof. eexists. split; vm_compute; reflexivity. Qed.

(** Callbacks that keep to the rules (do not delete the node or remove the whole list, and withdraw
    nothing once they have withdrawn themselves; while the node is being deleted, leave its other data
    alone): no memory is used after it was freed, none is lost, and no other data. *)
Theorem C99_tidy scr del l :
  (forall n c, tidy (negb del) c (scr n c) = true) ->
  exists q s, sp_steps scr del sps0 l = SOk q /\ steps scr del st0 l = Ok s /\
    s_log s = q_log q /\ s_gone s = false /\ s_lost s = [] /\ s_pre s = q_pre q /\
    (forall a, hget (s_heap s) a <> None <-> In a (ids (q_regs q))).
Proof.
  intros T.
  destruct (sp_steps_tidy scr (negb del) T del ltac:(destruct del; [discriminate|reflexivity]) l sps0
              ltac:(split; [constructor|intros a []]) ltac:(vm_compute; reflexivity) eq_refl) as (q & E & G & Lo & Lk).
  pose proof (steps_ok scr del l sps0 st0 rel0) as H. rewrite E in H. destruct H as (s & Es & R).
  destruct (rel_shows _ _ R) as (S1 & S2 & S3 & S4 & S5 & S6).
  exists q, s. split; [exact E|]. split; [exact Es|]. split; [exact S1|]. split; [congruence|]. split; [rewrite S5; exact Lo|].
  split; [exact S4|]. intros a. rewrite (S6 a), Lk. cbn [sps0 q_leaks In]. tauto.
Qed.
Print Assumptions C99_tidy.
Example C99_tidy_ex :
  let scr := only1 [ARem 2 20; ASet; ARem 1 10; AAdd 1 11 true true] in
  (forall n c, tidy true c (scr n c) = true) /\
  exists s, steps scr false st0 (two ++ [ONotify]) = Ok s /\ rev (s_log s) = [(1, 10); (1, 11)].
Proof.
  cbv zeta. split.
  - intros n [f r]. unfold only1. cbn [fst]. destruct (Z.eqb_spec f 1); [|reflexivity]. subst f.
    cbn [tidy fst snd]. change (2 =? 1) with false. change (1 =? 1) with true. cbn [andb tidy fst snd]. change (1 =? 1) with true. cbn [andb].
    destruct (10 =? r); reflexivity.
  - eexists. split; vm_compute; reflexivity.
Qed.

(** A listener that withdraws itself and then the next one: the freed registration is followed. *)
Theorem C99_order_refuted :
  ~ (forall scr l, (forall n c a, In a (scr n c) -> match a with ARem _ _ => True | _ => False end) ->
     steps scr false st0 l <> Bad).
Proof.
  intros H. apply (H (only1 [ARem 1 10; ARem 2 20]) two).
  - intros n c a. unfold only1. destruct (fst c =? 1); [|intros []]. intros [<-|[<-|[]]]; exact I.
  - vm_compute. reflexivity.
Qed.
Print Assumptions C99_order_refuted.
(** … while in the other order all is well. *)
Example C99_order_ex : exists s, steps (only1 [ARem 2 20; ARem 1 10]) false st0 two = Ok s /\ s_log s = [(1, 10)] /\ s_heap s = [].
Proof. eexists. split; [|split]; vm_compute; reflexivity. Qed.

(** A listener that withdraws itself twice: its memory is never given back, though nothing is
    registered any more. *)
Theorem C99_leak_refuted :
  ~ (forall scr l q s, (forall n c a, In a (scr n c) -> match a with ARem _ _ => True | _ => False end) ->
     sp_steps scr false sps0 l = SOk q -> steps scr false st0 l = Ok s ->
     forall a, hget (s_heap s) a <> None -> In a (ids (q_regs q))).
Proof.
  intros H.
  apply (H (only1 [ARem 1 10; ARem 1 10]) [OAdd 1 10 true true; ONotify]
           (mkSps [] true 2 [(1, 10)] false [] [] [1]) (mkSt true false MTop 0 [(1, mkItem 1 10 0)] 2 [(1, 10)] false false [] [])
           ) with (a := 1).
  - intros n c a. unfold only1. destruct (fst c =? 1); [|intros []]. intros [<-|[<-|[]]]; exact I.
  - vm_compute. reflexivity.
  - vm_compute. reflexivity.
  - discriminate.
Qed.
Print Assumptions C99_leak_refuted.
Example C99_leak_ex : exists s, steps (only1 [ARem 1 10]) false st0 [OAdd 1 10 true true; ONotify] = Ok s /\ s_heap s = [].
Proof. eexists. split; vm_compute; reflexivity. Qed.

(** A listener that deletes the node, when other data was set after the first registration: the place
    of the list is looked up in the freed entry of that data. *)
Theorem C99_delete_refuted :
  ~ (forall scr l, (forall n c a, In a (scr n c) -> a = ADelete) -> steps scr false st0 l <> Bad).
Proof.
  intros H. apply (H (only1 [ADelete]) [OAdd 1 10 true true; OSet; ONotify]).
  - intros n c a. unfold only1. destruct (fst c =? 1); [|intros []]. intros [<-|[]]. reflexivity.
  - vm_compute. reflexivity.
Qed.
Print Assumptions C99_delete_refuted.
Example C99_delete_ex : exists s, steps (only1 [ADelete]) false st0 two = Ok s /\ s_gone s = true /\ s_log s = [(2, 20); (1, 10)].
Proof. eexists. split; [|split]; vm_compute; reflexivity. Qed.

(** After a listener has deleted the node the others are still called: one that withdraws itself then
    goes through the VMT of the deleted node. *)
Theorem C99_after_delete_refuted :
  ~ (forall scr l, (forall n f r, scr n (f, r) = [ADelete] \/ scr n (f, r) = [ARem f r]) -> steps scr false st0 l <> Null).
Proof.
  intros H. apply (H (fun n c => if fst c =? 1 then [ADelete] else [ARem (fst c) (snd c)]) two).
  - intros n f r. cbn [fst snd]. destruct (f =? 1); auto.
  - vm_compute. reflexivity.
Qed.
Print Assumptions C99_after_delete_refuted.
Example C99_after_delete_ex :
  exists s, steps (fun n c => if fst c =? 2 then [ADelete] else [ARem (fst c) (snd c)]) false st0 two = Ok s /\ s_gone s = true.
Proof. eexists. split; vm_compute; reflexivity. Qed.

(** While the node is being deleted, a listener that sets or removes other data: the wrong entry of
    the data list is freed, or the place of the list looked up in a freed entry. *)
Theorem C99_deleting_refuted :
  ~ (forall scr l s, (forall n c a, In a (scr n c) -> match a with ASet | AUnset _ => True | _ => False end) ->
     steps scr true st0 l = Ok s -> s_lost s = []) /\
  ~ (forall scr l, (forall n c a, In a (scr n c) -> match a with ASet | AUnset _ => True | _ => False end) ->
     steps scr true st0 l <> Bad).
Proof.
  split; intros H.
  - pose proof (H (only1 [ASet]) two
      (mkSt true false MNull 2 [(2, mkItem 1 10 1); (1, mkItem 2 20 0)] 4 [(2, 20); (1, 10)] false false [] [3])) as K.
    discriminate K.
    + intros n c a. unfold only1. destruct (fst c =? 1); [|intros []]. intros [<-|[]]. exact I.
    + vm_compute. reflexivity.
  - apply (H (only1 [AUnset 2]) [OAdd 1 10 true true; OSet; ONotify]).
    + intros n c a. unfold only1. destruct (fst c =? 1); [|intros []]. intros [<-|[]]. exact I.
    + vm_compute. reflexivity.
Qed.
Print Assumptions C99_deleting_refuted.
Example C99_deleting_ex : exists s, steps (only1 [ASet]) false st0 two = Ok s /\ s_lost s = [] /\ s_pre s = [3].
Proof. eexists. split; [|split]; vm_compute; reflexivity. Qed.

(** Removing the whole list from within a callback: it removes nothing, the listeners are called by
    the next event too; and a listener that then withdraws itself is used after it was freed. *)
Theorem C99_clear_refuted :
  ~ (forall scr l s, steps scr false st0 l = Ok s -> In AClear (concat (map (scr 0%nat) (s_log s))) ->
     steps scr false s [ONotify] = Ok s) /\
  ~ (forall scr l, (forall n c a, In a (scr n c) -> match a with ARem _ _ | AClear => True | _ => False end) ->
     steps scr false st0 l <> Bad).
Proof.
  split; intros H.
  - pose proof (H (only1 [AClear]) two (mkSt true false MTop 2 [(2, mkItem 1 10 1); (1, mkItem 2 20 0)] 3 [(2, 20); (1, 10)] false false [] [])) as K.
    assert (E : steps (only1 [AClear]) false
      (mkSt true false MTop 2 [(2, mkItem 1 10 1); (1, mkItem 2 20 0)] 3 [(2, 20); (1, 10)] false false [] []) [ONotify]
      = Ok (mkSt true false MTop 2 [(2, mkItem 1 10 1); (1, mkItem 2 20 0)] 3 [(2, 20); (1, 10); (2, 20); (1, 10)] false false [] []))
      by (vm_compute; reflexivity).
    rewrite E in K. discriminate K; [vm_compute; reflexivity|]. vm_compute. auto.
  - apply (H (only1 [AClear; ARem 1 10]) two).
    + intros n c a. unfold only1. destruct (fst c =? 1); [|intros []]. intros [<-|[<-|[]]]; exact I.
    + vm_compute. reflexivity.
Qed.
Print Assumptions C99_clear_refuted.
Example C99_clear_ex : exists s, steps (only1 []) false st0 (two ++ [OClear; ONotify]) = Ok s /\ s_log s = [(2, 20); (1, 10)] /\ s_heap s = [].
Proof. eexists. split; [|split]; vm_compute; reflexivity. Qed.

(** The result of Node_Notify: when it is 0, nothing is registered. *)
Theorem C100_zero scr del l q s s' :
  sp_steps scr del sps0 l = SOk q -> steps scr del st0 l = Ok s -> notify scr del s = Ok (false, s') ->
  q_regs q = [] /\ s' = s.
Proof.
  intros E Es N. pose proof (steps_ok scr del l sps0 st0 rel0) as H. rewrite E in H. destruct H as (s2 & Es2 & R).
  rewrite Es in Es2. injection Es2 as <-. unfold notify in N. rewrite (t_data _ _ R) in N.
  destruct (q_data q) eqn:D.
  - destruct (notify_internal scr del s); discriminate.
  - injection N as <-. split; [|reflexivity]. apply (t_none _ _ R), D.
Qed.
Print Assumptions C100_zero.
Example C100_zero_ex :
  exists s, steps (only1 []) false st0 (two ++ [ORem 1 10; ORem 2 20]) = Ok s /\ notify (only1 []) false s = Ok (false, s).
Proof. eexists. split; vm_compute; reflexivity. Qed.

(** … but not the other way round: 1 with nobody registered, after a listener withdrew itself. *)
Theorem C100_one_refuted :
  ~ (forall scr l q s s', sp_steps scr false sps0 l = SOk q -> steps scr false st0 l = Ok s ->
     notify scr false s = Ok (true, s') -> q_regs q <> []).
Proof.
  intros H.
  apply (H (only1 [ARem 1 10]) [OAdd 1 10 true true; ONotify] (mkSps [] true 2 [(1, 10)] false [] [] [])
           (mkSt true false MTop 0 [] 2 [(1, 10)] false false [] []) (mkSt true false MTop 0 [] 2 [(1, 10)] false false [] [])).
  - vm_compute. reflexivity.
  - vm_compute. reflexivity.
  - vm_compute. reflexivity.
  - reflexivity.
Qed.
Print Assumptions C100_one_refuted.
Example C100_one_ex : exists s s', steps (only1 []) false st0 two = Ok s /\ notify (only1 []) false s = Ok (true, s') /\ length (s_log s') = 4%nat.
Proof. eexists. eexists. split; [|split]; vm_compute; reflexivity. Qed.
