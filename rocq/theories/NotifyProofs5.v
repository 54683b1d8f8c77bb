From Verif Require Import Base Tree Notify NotifySpec NotifyProofs NotifyProofs2 NotifyProofs3 NotifyProofs4.

Lemma ss_refl {A} (l : list A) : subseq l l.
Proof. induction l as [|x l IH]; [apply ss_nil|apply ss_keep, IH]. Qed.
Lemma ss_trans {A} (b c : list A) : subseq b c -> forall a, subseq a b -> subseq a c.
Proof.
  induction 1 as [|x b c H IH|x b c H IH]; intros a Ha.
  - exact Ha.
  - apply ss_skip. apply IH, Ha.
  - inversion Ha as [|y a' b' H1|y a' b' H1]; subst.
    + apply ss_skip. apply IH. assumption.
    + apply ss_keep. apply IH. assumption.
Qed.
Lemma ss_filter {A} (P : A -> bool) l : subseq (filter P l) l.
Proof. induction l as [|x l IH]; cbn [filter]; [apply ss_nil|]. destruct (P x); [apply ss_keep|apply ss_skip]; exact IH. Qed.
Lemma ss_in {A} (a b : list A) : subseq a b -> forall x, In x a -> In x b.
Proof. induction 1 as [|y a b H IH|y a b H IH]; cbn [In]; intros x Hx; [tauto|auto|]. destruct Hx; auto. Qed.

(** What one action does to the registrations. *)
Record moved (p p' : sp) : Prop := mkMoved {
  m_live : live (p_regs p') (p_new p');
  m_new : p_new p <= p_new p';
  m_todo : subseq (p_todo p') (p_todo p);
  m_gone : forall x, r_id x < p_new p -> ~ In x (p_regs p) -> ~ In x (p_regs p');
  m_out : forall x, In x (p_todo p) -> In x (p_todo p') \/ ~ In x (p_regs p') }.

Lemma in_reg x l : In x l -> In (r_id x) (ids l).
Proof. intros H. apply in_map_iff. eauto. Qed.
Lemma in_without_reg x g l : In x (without g l) <-> In x l /\ r_id x <> g.
Proof.
  unfold without. rewrite filter_In. destruct (Z.eqb_spec (r_id x) g); cbn [negb]; split; intros [H1 H2]; split; auto; congruence.
Qed.

Lemma moved_refl p : live (p_regs p) (p_new p) -> moved p p.
Proof. intros L. constructor; auto; [lia|apply ss_refl]. Qed.
Lemma moved_trans p p1 p2 : (forall x, In x (p_todo p) -> r_id x < p_new p) -> moved p p1 -> moved p1 p2 -> moved p p2.
Proof.
  intros T M N. destruct M, N. constructor; auto.
  - lia.
  - eapply ss_trans; eassumption.
  - intros x Hx Hn. apply m_gone1; [lia|]. apply m_gone0; assumption.
  - intros x Hx. destruct (m_out0 x Hx) as [H|H].
    + apply m_out1, H.
    + right. apply m_gone1; [|exact H]. specialize (T x Hx). lia.
Qed.

Lemma live_more l n m : live l n -> n <= m -> live l m.
Proof. intros [N L] H. split; [exact N|]. intros a Ha. apply L in Ha. lia. Qed.
Lemma live_cons l n f r : live l n -> 0 < n -> live ((n, f, r) :: l) (n + 1).
Proof.
  intros [N L] H. split; cbn [ids map r_id fst].
  - constructor; [|exact N]. intros K. apply L in K. lia.
  - intros a [K|K]; [lia|]. apply L in K. lia.
Qed.

Lemma sp_act_moved cur p a p' : live (p_regs p) (p_new p) -> 0 < p_new p -> sp_act cur p a = Some p' -> moved p p'.
Proof.
  intros L Hp E. unfold sp_act in E. destruct (p_dead p); [discriminate|]. injection E as <-.
  assert (Same : forall q, p_regs q = p_regs p -> p_todo q = p_todo p -> p_new p <= p_new q -> moved p q).
  { intros q H1 H2 H3. constructor; rewrite ?H1, ?H2; auto; [|apply ss_refl]. eapply live_more; eassumption. }
  destruct a as [f r m1 m2|f r| | | |e|]; try (apply Same; proj; auto; lia).
  - destruct m2; [|apply Same; auto; lia]. constructor; proj; auto.
    + apply live_cons; assumption.
    + lia.
    + apply ss_refl.
    + intros x Hx Hn [H|H]; [|tauto]. subst x. cbn [r_id fst] in Hx. lia.
  - unfold sp_rem. destruct (find (matches f r) (p_regs p)) as [g|]; [|apply Same; auto; proj; lia].
    cbv zeta.
    assert (Gone : forall x, ~ In x (p_regs p) -> ~ In x (without (r_id g) (p_regs p))).
    { intros x Hn H. apply in_without_reg in H. tauto. }
    destruct (r_id g =? cur); constructor; proj; auto; try lia.
    + apply live_without, L.
    + apply ss_refl.
    + apply live_without, L.
    + apply ss_filter.
    + intros x Hx. destruct (Z.eq_dec (r_id x) (r_id g)) as [Eq|Ne].
      * right. intros H. apply in_without_reg in H. tauto.
      * left. apply in_without_reg. auto.
Qed.

Lemma sp_acts_moved cur : forall l p p', live (p_regs p) (p_new p) -> 0 < p_new p ->
  (forall x, In x (p_todo p) -> r_id x < p_new p) -> sp_acts cur p l = Some p' -> moved p p'.
Proof.
  induction l as [|a l IH]; cbn [sp_acts]; intros p p' L Hp T E.
  - injection E as <-. apply moved_refl, L.
  - destruct (sp_act cur p a) as [p1|] eqn:Ea; [|discriminate].
    pose proof (sp_act_moved _ _ _ _ L Hp Ea) as M. apply (moved_trans p p1 p' T M).
    apply IH; auto.
    + apply M.
    + destruct M. lia.
    + intros x Hx. destruct M. apply (ss_in _ _ m_todo0) in Hx. apply T in Hx. lia.
Qed.

Lemma acts_suffix g : forall l p p', live (p_regs p) (p_new p) -> 0 < p_new p -> r_id g < p_new p ->
  (p_self p = false -> exists a, p_regs p = a ++ g :: p_todo p) ->
  (p_self p = true -> ~ In (r_id g) (ids (p_regs p)) /\ exists a, p_regs p = a ++ p_todo p) ->
  sp_acts (r_id g) p l = Some p' ->
  (p_self p' = false -> exists a, p_regs p' = a ++ g :: p_todo p') /\
  (p_self p' = true -> exists a, p_regs p' = a ++ p_todo p').
Proof.
  induction l as [|a l IH]; cbn [sp_acts]; intros p p' L1 H1 Hg S0 S1 E.
  { injection E as <-. split; [exact S0|]. intros H. apply S1, H. }
  destruct (sp_act (r_id g) p a) as [p2|] eqn:E2; [|discriminate].
  pose proof (sp_act_moved _ _ _ _ L1 H1 E2) as M. destruct M.
  apply (IH p2 p'); auto; [lia|lia| |]; clear IH E m_todo0 m_gone0 m_out0; unfold sp_act in E2;
    (destruct (p_dead p); [discriminate|]); injection E2 as <-;
    (destruct a as [f r m1 m2|f r| | | |e|]; try (proj; assumption)).
  - destruct m2; proj; [|assumption]. intros H. destruct (S0 H) as [b Hb]. exists ((p_new p, f, r) :: b). rewrite Hb. reflexivity.
  - unfold sp_rem. destruct (find _ _) as [x|]; proj; [|assumption].
    destruct (Z.eqb_spec (r_id x) (r_id g)) as [Eq|Ne]; proj; [discriminate|].
    intros H. destruct (S0 H) as [b Hb]. exists (without (r_id x) b). rewrite Hb, without_app. f_equal.
    cbn [without filter]. destruct (Z.eqb_spec (r_id g) (r_id x)); [congruence|reflexivity].
  - destruct m2; proj; [|assumption]. intros H. destruct (S1 H) as [Hn [b Hb]]. split.
    + cbn [ids map r_id fst In]. intros [K|K]; [unfold r_id in *; lia|]. apply Hn, K.
    + exists ((p_new p, f, r) :: b). rewrite Hb. reflexivity.
  - unfold sp_rem. destruct (find _ _) as [x|] eqn:Fd; proj; [|assumption].
    destruct (find_split _ _ _ Fd) as (a0 & b0 & Es & _ & _).
    assert (Hx : In x (p_regs p)) by (rewrite Es; apply in_or_app; right; left; reflexivity).
    destruct (Z.eqb_spec (r_id x) (r_id g)) as [Eq|Ne]; proj.
    + intros _. destruct (p_self p) eqn:Sp.
      * destruct (S1 eq_refl) as [Hn _]. exfalso. apply Hn. rewrite <- Eq. apply in_reg, Hx.
      * split; [intros K; apply in_without in K; rewrite Eq in K; tauto|].
        destruct (S0 eq_refl) as [b Hb]. exists b. rewrite Hb, Eq. apply without_mid. rewrite <- Hb. apply L1.
    + intros H. destruct (S1 H) as [Hn [b Hb]]. split; [intros K; apply in_without in K; tauto|].
      exists (without (r_id x) b). rewrite Hb, without_app. reflexivity.
Qed.

Section Calls.
Context (scr : nat -> Z * Z -> list action).

Lemma sp_loop_calls : forall n o o', live (p_regs (o_sp o)) (p_new (o_sp o)) -> 0 < p_new (o_sp o) ->
  (forall x, In x (p_todo (o_sp o)) -> r_id x < p_new (o_sp o)) ->
  (length (p_todo (o_sp o)) <= n)%nat -> sp_loop scr n o = SOk o' ->
  exists called, o_log o' = rev (map r_call called) ++ o_log o /\ subseq called (p_todo (o_sp o)) /\
    (forall x, In x (p_todo (o_sp o)) -> In x called \/ ~ In x (p_regs (o_sp o'))) /\
    (forall x, r_id x < p_new (o_sp o) -> ~ In x (p_regs (o_sp o)) -> ~ In x (p_regs (o_sp o'))).
Proof.
  induction n as [|n IH]; intros o o' L Hp T Hn E; cbn [sp_loop] in E.
  - injection E as <-. destruct (p_todo (o_sp o)) as [|g t]; [|cbn [length] in Hn; lia].
    exists []. split; [reflexivity|]. split; [apply ss_nil|]. split; [intros x []|auto].
  - cbv zeta in E. destruct (p_todo (o_sp o)) as [|g t] eqn:Et.
    { injection E as <-. exists []. split; [reflexivity|]. split; [apply ss_nil|]. split; [intros x []|auto]. }
    set (p0 := mkSp _ _ _ _ _ _ _ _) in E.
    destruct (sp_acts (r_id g) p0 _) as [p1|] eqn:Ea; [|discriminate].
    destruct (p_haz p1); [discriminate|].
    assert (T0 : forall x, In x (p_todo p0) -> r_id x < p_new p0).
    { unfold p0; proj. intros x Hx. apply T. right. exact Hx. }
    pose proof (sp_acts_moved (r_id g) _ p0 p1 L Hp T0 Ea) as M. destruct M.
    change (p_new p0) with (p_new (o_sp o)) in *. change (p_todo p0) with t in *. change (p_regs p0) with (p_regs (o_sp o)) in *.
    apply IH in E; proj; auto.
    + proj_in E. destruct E as (c & E1 & E2 & E3 & E4). exists (g :: c). split; [|split; [|split]].
      * rewrite E1. cbn [map rev]. rewrite <- app_assoc. reflexivity.
      * apply ss_keep. eapply ss_trans; eassumption.
      * intros x [->|Hx]; [left; left; reflexivity|].
        destruct (m_out0 x Hx) as [H|H].
        -- destruct (E3 x H); [left; right; assumption|auto].
        -- right. apply E4; [|exact H]. specialize (T x (or_intror Hx)). lia.
      * intros x Hx Hn1. apply E4; [lia|]. apply m_gone0; assumption.
    + lia.
    + intros x Hx. apply (ss_in _ _ m_todo0) in Hx. apply T0 in Hx. lia.
    + cbn [length] in Hn. clear -Hn m_todo0.
      assert (length (p_todo p1) <= length t)%nat; [|lia].
      induction m_todo0; cbn [length] in *; lia.
Qed.

Lemma sp_notify_calls del q q' : live (q_regs q) (q_new q) -> 0 < q_new q -> sp_notify scr del q = SOk q' ->
  exists called, q_log q' = rev (map r_call called) ++ q_log q /\ subseq called (q_regs q) /\
    (forall x, In x (q_regs q) -> In x called \/ ~ In x (q_regs q')).
Proof.
  intros L Hp E. unfold sp_notify in E. set (o := mkRound _ _ _ _ _) in E.
  destruct (sp_loop scr _ o) as [| |o'] eqn:El; [discriminate..|].
  assert (T : forall x, In x (q_regs q) -> r_id x < q_new q).
  { intros x Hx. apply in_reg in Hx. apply L in Hx. lia. }
  apply sp_loop_calls in El; [|unfold o; proj; auto..].
  destruct El as (c & E1 & E2 & E3 & _).
  assert (q_log q' = o_log o' /\ q_regs q' = p_regs (o_sp o')) as [-> ->].
  { cbv zeta in E. destruct (_ || _ || _); [destruct (o_at o'); [destruct (in_dec _ _ _); [|discriminate]|destruct (p_pre (o_sp o'))]|];
      injection E as <-; auto. }
  exists c. auto.
Qed.

(** Tidy callbacks. *)
Lemma sp_act_dead_ok cur p a : p_dead p = false -> exists p', sp_act cur p a = Some p'.
Proof. intros D. unfold sp_act. rewrite D. eauto. Qed.

Record calm (other : bool) (g : reg) (p p1 : sp) : Prop := mkCalm {
  c_msg : p_msg p1 = false; c_haz : p_haz p1 = false; c_dead : p_dead p1 = false;
  c_in : p_self p1 = true \/ In g (p_regs p1);
  c_pre : other = false -> p_pre p1 = p_pre p }.

Lemma rest_calm other g : forall l p p0, calm other g p0 p ->
  forallb (fun a => match a with ARem _ _ | AClear | ADelete => false | ASet | AUnset _ => other | _ => true end) l = true ->
  exists p1, sp_acts (r_id g) p l = Some p1 /\ calm other g p0 p1.
Proof.
  induction l as [|a l IH]; intros p p0 C F; cbn [sp_acts forallb] in *; [eauto|].
  apply andb_true_iff in F as [Fa F].
  destruct C as [C1 C2 C3 C4 C5]. unfold sp_act. rewrite C3.
  destruct a as [f r m1 m2|f r| | | |e|]; try discriminate.
  - apply IH; [|exact F]. destruct m2; constructor; proj; auto. destruct C4; [auto|right; right; assumption].
  - apply IH; [constructor; auto|exact F].
  - apply IH; [|exact F]. constructor; proj; auto. intros H. congruence.
  - apply IH; [|exact F]. constructor; proj; auto. intros H. congruence.
Qed.

Lemma tidy_calm other g : forall l p p0, calm other g p0 p -> p_self p = false -> live (p_regs p) (p_new p) -> 0 < p_new p ->
  tidy other (r_call g) l = true -> exists p1, sp_acts (r_id g) p l = Some p1 /\ calm other g p0 p1.
Proof.
  induction l as [|a l IH]; intros p p0 C S L Hp F; cbn [sp_acts tidy] in *; [eauto|].
  destruct C as [C1 C2 C3 C4 C5]. destruct C4 as [C4|C4]; [congruence|].
  pose proof (sp_act_moved (r_id g) p a) as M.
  destruct (sp_act_dead_ok (r_id g) p a C3) as [p2 E2]. specialize (M p2 L Hp E2). rewrite E2.
  pose proof E2 as E. unfold sp_act in E. rewrite C3 in E. injection E as E.
  assert (Next : calm other g p0 p2 -> p_self p2 = false -> tidy other (r_call g) l = true ->
    exists p1, sp_acts (r_id g) p2 l = Some p1 /\ calm other g p0 p1).
  { intros H1 H2 H3. apply IH; auto; destruct M; auto; lia. }
  destruct a as [f r m1 m2|f r| | | |e|]; try discriminate.
  - apply Next; [|destruct m2; subst p2; proj; auto|exact F].
    destruct m2; subst p2; constructor; proj; auto. right. right. exact C4.
  - unfold sp_rem in E. destruct (find (matches f r) (p_regs p)) as [x|] eqn:Fd.
    2:{ assert (Em : empty (p_regs p) = false) by (destruct (p_regs p); [destruct C4|reflexivity]).
        rewrite Em, C1 in E. cbn [orb] in E.
        assert (Cm : calm other g p0 p2) by (subst p2; constructor; proj; auto).
        destruct (_ && _).
        - apply rest_calm; assumption.
        - apply Next; [exact Cm|subst p2; proj; auto|exact F]. }
    cbv zeta in E. destruct (find_split _ _ _ Fd) as (a0 & b0 & Es & _ & Mx).
    assert (Hx : In x (p_regs p)) by (rewrite Es; apply in_or_app; right; left; reflexivity).
    destruct (Z.eqb_spec (r_id x) (r_id g)) as [Eq|Ne].
    + assert (x = g) as ->.
      { destruct L as [N _]. clear -N Eq Hx C4. induction (p_regs p) as [|y l IH]; [destruct Hx|].
        cbn [ids map] in N. inversion N as [|? ? N1 N2]; subst.
        destruct Hx as [->|Hx]; destruct C4 as [->|C4]; auto.
        - exfalso. apply N1. rewrite Eq. apply in_reg, C4.
        - exfalso. apply N1. rewrite <- Eq. apply in_reg, Hx. }
      unfold matches in Mx. rewrite (Z.eqb_sym f), (Z.eqb_sym r), Mx in F.
      apply rest_calm; [|exact F]. subst p2. constructor; proj; auto. rewrite C1, C2. reflexivity.
    + assert (Hg : In g (without (r_id x) (p_regs p))) by (apply in_without_reg; auto).
      assert (Em : empty (without (r_id x) (p_regs p)) = false) by (destruct (without _ _); [destruct Hg|reflexivity]).
      rewrite Em, C1, C2, S in E. cbn [orb andb] in E.
      assert (Cm : calm other g p0 p2) by (subst p2; constructor; proj; auto).
      destruct (_ && _).
      * apply rest_calm; assumption.
      * apply Next; [exact Cm|subst p2; proj; auto|exact F].
  - apply Next; [|subst p2; auto|exact F]. subst p2. constructor; auto.
  - apply andb_true_iff in F as [Fo F]. apply Next; [|subst p2; auto|exact F].
    subst p2. constructor; proj; auto. intros H; congruence.
  - apply andb_true_iff in F as [Fo F]. apply Next; [|subst p2; auto|exact F].
    subst p2. constructor; proj; auto. intros H; congruence.
Qed.

Lemma last_of_in l e : last_of l = Some e -> In e l.
Proof.
  unfold last_of. destruct (rev l) as [|x r] eqn:E; [discriminate|]. intros [= <-].
  apply in_rev. rewrite E. left. reflexivity.
Qed.
Lemma last_of_none l : last_of l = None -> l = [].
Proof.
  unfold last_of. destruct (rev l) as [|x r] eqn:E; [|discriminate]. intros _.
  rewrite <- (rev_involutive l), E. reflexivity.
Qed.

Context (other : bool).
Context (Htidy : forall n c, tidy other c (scr n c) = true).

Definition okat (o : round) : Prop :=
  p_dead (o_sp o) = false /\ o_clear o = false /\
  (other = false \/ p_regs (o_sp o) = [] -> o_at o = last_of (p_pre (o_sp o))).

Lemma sp_loop_tidy : forall n o, live (p_regs (o_sp o)) (p_new (o_sp o)) -> 0 < p_new (o_sp o) ->
  (exists a, p_regs (o_sp o) = a ++ p_todo (o_sp o)) -> okat o ->
  exists o', sp_loop scr n o = SOk o' /\ okat o' /\ o_leaks o' = o_leaks o /\
    live (p_regs (o_sp o')) (p_new (o_sp o')) /\ p_new (o_sp o) <= p_new (o_sp o').
Proof.
  induction n as [|n IH]; intros o L Hp Sf O; cbn [sp_loop].
  - exists o. split; [reflexivity|]. split; [exact O|]. split; [reflexivity|]. split; [exact L|lia].
  - cbv zeta. destruct (p_todo (o_sp o)) as [|g t] eqn:Et.
    { exists o. split; [reflexivity|]. split; [exact O|]. split; [reflexivity|]. split; [exact L|lia]. }
    destruct Sf as [a0 Ea]. destruct O as (O1 & O2 & O3).
    set (p0 := mkSp _ _ _ _ _ _ _ _).
    assert (Hg : In g (p_regs (o_sp o))) by (rewrite Ea; apply in_or_app; right; left; reflexivity).
    assert (C0 : calm other g p0 p0) by (unfold p0; constructor; proj; auto).
    destruct (tidy_calm other g _ p0 p0 C0 eq_refl L Hp (Htidy (length (o_log o)) (r_call g))) as (p1 & E1 & C1).
    rewrite E1. destruct C1 as [D1 D2 D3 D4 D5]. rewrite D2, D1, D3. cbn [orb negb]. rewrite andb_true_r, andb_false_r.
    assert (T0 : forall x, In x (p_todo p0) -> r_id x < p_new p0).
    { unfold p0; proj. intros x Hx. assert (In x (p_regs (o_sp o))) as H by (rewrite Ea; apply in_or_app; right; right; exact Hx).
      apply in_reg in H. apply L in H. lia. }
    pose proof (sp_acts_moved (r_id g) _ p0 p1 L Hp T0 E1) as M. destruct M.
    change (p_new p0) with (p_new (o_sp o)) in m_new0.
    destruct (IH (mkRound p1 (r_call g :: o_log o) (if p_self p1 then last_of (p_pre p1) else o_at o) (o_clear o || false) (o_leaks o)))
      as (o' & E' & O' & K' & L' & N').
    + proj. exact m_live0.
    + proj. lia.
    + proj. revert E1. clear -L Hp Ea. intros E1.
      assert (Hgn : r_id g < p_new p0).
      { unfold p0; proj. assert (In g (p_regs (o_sp o))) as H by (rewrite Ea; apply in_or_app; right; left; reflexivity).
        apply in_reg in H. apply L in H. lia. }
      destruct (acts_suffix g (scr (length (o_log o)) (r_call g)) p0 p1 L Hp Hgn (fun _ => ex_intro _ a0 Ea) ltac:(discriminate) E1) as [G0 G1].
      destruct (p_self p1).
      * apply G1. reflexivity.
      * destruct (G0 eq_refl) as [b Hb]. exists (b ++ [g]). rewrite <- app_assoc. exact Hb.
    + unfold okat. proj. rewrite O2. split; [exact D3|]. split; [reflexivity|].
      destruct (p_self p1) eqn:Sp; [auto|]. intros H. destruct D4 as [D4|D4]; [discriminate|].
      destruct H as [H|H]; [|rewrite H in D4; destruct D4].
      rewrite (D5 H). apply O3. left. exact H.
    + exists o'. proj_in K'. proj_in N'. split; [exact E'|]. split; [exact O'|]. split; [exact K'|]. split; [exact L'|lia].
Qed.

(** A whole history with tidy callbacks; when [other], the event is not that of the deletion. *)
Lemma sp_steps_tidy del : (other = true -> del = false) -> forall l q, live (q_regs q) (q_new q) -> 0 < q_new q ->
  q_gone q = false -> exists q', sp_steps scr del q l = SOk q' /\ q_gone q' = false /\
    q_lost q' = q_lost q /\ q_leaks q' = q_leaks q.
Proof.
  intros Hod. induction l as [|op l IH]; intros q L Hp G; cbn [sp_steps]; [exists q; auto|].
  assert (St : exists q1, sp_step scr del q op = SOk q1 /\ live (q_regs q1) (q_new q1) /\ 0 < q_new q1 /\ q_gone q1 = false /\
             q_lost q1 = q_lost q /\ q_leaks q1 = q_leaks q).
  { unfold sp_step. rewrite G. destruct op as [f r m1 m2|f r| | | |e].
    - destruct (q_data q || m1); [destruct m2|]; cbv zeta; (eexists; split; [reflexivity|]); proj; auto 10.
      split; [apply live_cons; assumption|]. split; [lia|auto].
    - destruct (q_data q); [|eexists; split; [reflexivity|]; auto 10]. cbv zeta. eexists. split; [reflexivity|]. proj.
      split; [|auto 10]. destruct (find _ _); [apply live_without|]; exact L.
    - destruct (q_data q); [|eexists; split; [reflexivity|]; auto 10].
      unfold sp_notify. set (o := mkRound _ _ _ _ _).
      destruct (sp_loop_tidy (length (q_regs q)) o) as (o' & -> & (O1 & O2 & O3) & K & L' & N').
      + exact L.
      + exact Hp.
      + exists []. reflexivity.
      + unfold okat, o; proj. auto.
      + cbv zeta. unfold o in K, N'; proj_in K; proj_in N'. rewrite O2. cbn [orb].
        destruct (del || empty (p_regs (o_sp o'))) eqn:Nd.
        * assert (Ha : o_at o' = last_of (p_pre (o_sp o'))).
          { apply O3. destruct other; [|auto]. rewrite (Hod eq_refl) in Nd. cbn [orb] in Nd.
            right. destruct (p_regs (o_sp o')); [reflexivity|discriminate]. }
          rewrite Ha. destruct (last_of (p_pre (o_sp o'))) as [e|] eqn:La.
          -- destruct (in_dec _ _ _) as [|Ni]; [|exfalso; apply Ni, last_of_in, La].
             eexists. split; [reflexivity|]. proj. repeat (split; [first [assumption|lia|reflexivity]|]). exact K.
          -- rewrite (last_of_none _ La). eexists. split; [reflexivity|]. proj. repeat (split; [first [assumption|lia|reflexivity]|]). exact K.
        * eexists. split; [reflexivity|]. proj. repeat (split; [first [assumption|lia|reflexivity]|]). exact K.
    - destruct (q_data q); (eexists; split; [reflexivity|]); proj; auto 10.
      split; [split; [constructor|intros a []]|auto 10].
    - eexists. split; [reflexivity|]. proj. split; [eapply live_more; [exact L|lia]|]. split; [lia|auto].
    - eexists. split; [reflexivity|]. proj. auto 10. }
  destruct St as (q1 & -> & L1 & P1 & G1 & Lo1 & Lk1).
  destruct (IH q1 L1 P1 G1) as (q' & E & Gq & Lo & Lk). exists q'. split; [exact E|]. split; [exact Gq|]. split; congruence.
Qed.
End Calls.
