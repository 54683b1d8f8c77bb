From Verif Require Import Base Tree Notify NotifySpec NotifyProofs NotifyProofs2 NotifyProofs3.

Record rel (q : sps) (s : st) : Prop := mkRel {
  t_base : base (q_regs q) (q_new q) (q_leaks q) s;
  t_data : s_data s = q_data q;
  t_none : q_data q = false -> q_regs q = [];
  t_busy : s_busy s = false;
  t_dead : s_dead s = q_gone q;
  t_gone : s_gone s = q_gone q;
  t_pre : s_pre s = q_pre q;
  t_lost : s_lost s = q_lost q;
  t_log : s_log s = q_log q;
  t_mark : forall a, mark_eqb (s_mark s) (MItem a) = false }.

Ltac proj := cbn [set_mark set_list set_busy add_log s_data s_busy s_mark s_top s_heap s_new s_log s_dead s_gone s_pre s_lost
  q_regs q_data q_new q_log q_gone q_pre q_lost q_leaks p_regs p_todo p_new p_self p_msg p_haz p_dead p_pre
  o_sp o_log o_at o_clear o_leaks].
Ltac proj_in H := cbn [set_mark set_list set_busy add_log s_data s_busy s_mark s_top s_heap s_new s_log s_dead s_gone s_pre s_lost
  q_regs q_data q_new q_log q_gone q_pre q_lost q_leaks p_regs p_todo p_new p_self p_msg p_haz p_dead p_pre
  o_sp o_log o_at o_clear o_leaks] in H.

Lemma base_len regs new lk s : base regs new lk s -> (length regs < S (length (s_heap s)))%nat.
Proof.
  intros B. pose proof (chain_len _ _ (b_chain _ _ _ _ B) (proj1 (b_live _ _ _ _ B))). lia.
Qed.

Lemma base_same regs new lk s s' : base regs new lk s -> s_heap s' = s_heap s -> s_top s' = s_top s -> s_new s' = s_new s ->
  base regs new lk s'.
Proof. intros B H1 H2 H3. destruct B. constructor; rewrite ?H1, ?H2, ?H3; auto. Qed.

Lemma base_add regs new lk s s' f r : base regs new lk s ->
  s_heap s' = (s_new s, mkItem f r (s_top s)) :: s_heap s -> s_top s' = s_new s -> s_new s' = s_new s + 1 ->
  base ((new, f, r) :: regs) (new + 1) lk s'.
Proof.
  intros B H1 H2 H3. pose proof (base_dom _ _ _ _ B) as Hd. destruct B as [Bc Bt Bl Bn Bp Bk Bks].
  destruct Bl as [N L].
  assert (Hn : hget (s_heap s) new = None).
  { destruct (hget (s_heap s) new) eqn:E; [|reflexivity].
    assert (hget (s_heap s) new <> None) as H by (rewrite E; discriminate). apply Hd in H. lia. }
  assert (Hfr : forall a, a <> new -> hget (s_heap s') a = hget (s_heap s) a).
  { intros a Ha. rewrite H1. cbn [hget]. rewrite Bn. destruct (Z.eqb_spec new a); [congruence|reflexivity]. }
  assert (Hnew : hget (s_heap s') new = Some (mkItem f r (s_top s))).
  { rewrite H1. cbn [hget]. rewrite Bn, Z.eqb_refl. reflexivity. }
  constructor.
  - cbn [chain]. split; [cbn [r_id r_call fst snd]; rewrite Hnew, Bt; reflexivity|].
    apply chain_frame with (h := s_heap s); [|exact Bc]. intros a Ha. apply Hfr. apply L in Ha. lia.
  - rewrite H2, Bn. reflexivity.
  - split; cbn [ids map r_id fst].
    + constructor; [|exact N]. intros H. apply L in H. lia.
    + intros a [H|H]; [lia|]. apply L in H. lia.
  - lia.
  - lia.
  - intros a. cbn [ids map r_id fst In]. fold (ids regs). destruct (Z.eq_dec a new) as [->|Ne].
    + rewrite Hnew. split; [auto|discriminate].
    + rewrite (Hfr a Ne), (Bk a). split; [tauto|]. intros [[H|H]|H]; auto. congruence.
  - intros a Ha. destruct (Bks a Ha) as [H4 H5]. cbn [ids map r_id fst In]. fold (ids regs).
    split; [|lia]. intros [H|H]; [lia|tauto].
Qed.

Lemma base_clear regs new lk s h : base regs new lk s ->
  (forall a, hget h a = if in_dec Z.eq_dec a (ids regs) then None else hget (s_heap s) a) ->
  forall s', s_heap s' = h -> s_top s' = 0 -> s_new s' = s_new s -> base [] new lk s'.
Proof.
  intros B H s' E1 E2 E3. destruct B as [Bc Bt Bl Bn Bp Bk Bks].
  constructor; rewrite ?E1, ?E2, ?E3; auto.
  - exact I.
  - split; [constructor|]. intros a [].
  - intros a. rewrite H. destruct (in_dec Z.eq_dec a (ids regs)) as [i|i].
    + cbn [ids map In]. split; [congruence|]. intros [[]|K]. apply Bks in K. tauto.
    + rewrite (Bk a). cbn [ids map In]. tauto.
  - intros a Ha. destruct (Bks a Ha). split; [intros []|auto].
Qed.

Lemma remove_data_rel q s : rel q s -> q_data q = true ->
  exists s', remove_data s = Ok s' /\
    rel (mkSps [] false (q_new q) (q_log q) (q_gone q) [] (q_lost q) (q_leaks q)) s'.
Proof.
  intros R D. destruct R as [B Rd Rn Rb Rde Rg Rp Rlo Rl Rm].
  unfold remove_data, data_free. rewrite Rd, D, Rb.
  destruct (free_chain_ok (q_regs q) (S (length (s_heap s))) (s_heap s)) as (h & E & H).
  - apply (b_chain _ _ _ _ B).
  - apply (b_live _ _ _ _ B).
  - intros a Ha. apply (proj2 (b_live _ _ _ _ B)) in Ha. lia.
  - exact (base_len _ _ _ _ B).
  - rewrite (b_top _ _ _ _ B), E. cbn [bind]. eexists. split; [reflexivity|].
    constructor; proj; auto. eapply (base_clear _ _ _ _ h B H); reflexivity.
Qed.

Lemma base_unlink f r q s : rel q s ->
  let regs := match find (matches f r) (q_regs q) with None => q_regs q | Some g => without (r_id g) (q_regs q) end in
  exists s', rem_walk (S (length (s_heap s))) s None (s_top s) f r = Ok s' /\
    rel (mkSps regs (q_data q) (q_new q) (q_log q) (q_gone q) (q_pre q) (q_lost q) (q_leaks q)) s' /\ s_mark s' = s_mark s.
Proof.
  intros R. cbv zeta. pose proof R as R0. destruct R as [B Rd Rn Rb Rde Rg Rp Rlo Rl Rm].
  pose proof (base_len _ _ _ _ B) as Hl. pose proof B as B0. destruct B as [Bc Bt Bl Bn Bp Bk Bks].
  assert (Bl2 : live (q_regs q) (s_new s)) by (rewrite Bn; exact Bl).
  pose proof (rem_walk_ok s f r (q_regs q) [] (S (length (s_heap s))) Bc Bl2 Bt Hl (Forall_nil _)) as W.
  change (last_of (ids [])) with (@None Z) in W. rewrite <- Bt in W. cbn [app] in W.
  destruct (find (matches f r) (q_regs q)) as [g|] eqn:Fd.
  - destruct W as (h & t & U & W). rewrite W, Rm. eexists. split; [reflexivity|]. split; [|reflexivity].
    pose proof (unlinked_free _ _ _ _ _ U) as Cf. destruct U as (Uc & Ut & Ud & Uk).
    pose proof (find_split _ _ _ Fd) as (a0 & b0 & Es & _ & _).
    assert (Hg : In (r_id g) (ids (q_regs q))). { rewrite Es, ids_app, in_app_iff. cbn [ids map In]. auto. }
    constructor; proj; auto.
    + constructor; proj; auto.
      * apply live_without. exact Bl.
      * intros a. rewrite hget_free, (in_without (r_id g) (q_regs q) a).
        destruct (Z.eqb_spec (r_id g) a) as [<-|Ne].
        -- split; [congruence|]. intros [[_ H]|H]; [congruence|]. apply Bks in H. tauto.
        -- rewrite (Ud a), (Bk a). split; [|tauto]. intros [H|H]; auto.
      * intros a Ha. destruct (Bks a Ha) as [K1 K2]. split; [|auto]. intros H. apply in_without in H. tauto.
    + intros H. rewrite (Rn H). reflexivity.
  - rewrite W. eexists. split; [reflexivity|]. split; [|reflexivity].
    constructor; proj; auto.
Qed.

Section Steps.
Context (scr : nat -> Z * Z -> list action).

Lemma notify_ok del q s : rel q s -> q_data q = true -> q_gone q = false ->
  match sp_notify scr del q with
  | SFreed => notify_internal scr del s = Bad
  | SDeleted => notify_internal scr del s = Null
  | SOk q' => exists s', notify_internal scr del s = Ok s' /\ rel q' s'
  end.
Proof.
  intros R D G. destruct R as [B Rd Rn Rb Rde Rg Rp Rlo Rl Rm].
  unfold sp_notify, notify_internal.
  set (o := mkRound _ _ _ _ _).
  pose proof (loop_ok scr (q_lost q) (length (q_regs q)) (S (length (s_heap s))) o (set_busy s true) false) as L.
  assert (R0 : rinv (q_lost q) o (set_busy s true)).
  { constructor; unfold o; proj; auto; try congruence.
    - eapply base_same; [exact B|reflexivity..].
    - exists []. reflexivity. }
  specialize (L R0). change (p_todo (o_sp o)) with (q_regs q) in L.
  specialize (L (le_n _) (base_len _ _ _ _ B) eq_refl).
  change (p_dead (o_sp o)) with false in L. change (o_at o) with (last_of (q_pre q)) in L.
  rewrite <- (b_top _ _ _ _ B), <- Rp, <- data_start_ok in L.
  destruct (sp_loop scr (length (q_regs q)) o) as [| |o']; [rewrite L; reflexivity..|].
  destruct L as (s1 & pdl & -> & R1 & C1). cbn [bind]. cbv zeta. clear R0. clearbody o.
  destruct R1 as [B1 Wd Wb Wde Wp Wl Wg Wlo _].
  assert (Et : (s_top s1 =? 0) = empty (p_regs (o_sp o'))).
  { rewrite (b_top _ _ _ _ B1). eapply addr_zero. exact (b_live _ _ _ _ B1). }
  proj. rewrite Et, <- C1.
  assert (Fin : forall s2 pre lo, s_heap s2 = s_heap s1 -> s_top s2 = s_top s1 -> s_new s2 = s_new s1 -> s_data s2 = true ->
            s_busy s2 = false -> s_dead s2 = p_dead (o_sp o') -> s_gone s2 = p_dead (o_sp o') -> s_pre s2 = pre ->
            s_lost s2 = lo -> s_log s2 = o_log o' -> (forall a, mark_eqb (s_mark s2) (MItem a) = false) ->
            rel (mkSps (p_regs (o_sp o')) true (p_new (o_sp o')) (o_log o') (p_dead (o_sp o')) pre lo (o_leaks o')) s2).
  { intros s2 pre lo H1 H2 H3 H4 H5 H6 H7 H8 H9 H10 H11. constructor; proj; auto; [|congruence].
    eapply base_same; [exact B1|assumption..]. }
  destruct (p_dead (o_sp o')) eqn:Dd; cbn [orb].
  - unfold free_at, data_free. proj. rewrite Wp, Wb.
    destruct (o_at o') as [e|].
    + destruct (in_dec Z.eq_dec e (p_pre (o_sp o'))); [|reflexivity]. cbn [bind]. proj.
      eexists. split; [reflexivity|]. apply Fin; proj; auto.
    + destruct (p_pre (o_sp o')) as [|e l] eqn:Ep; cbn [bind]; proj;
        (eexists; split; [reflexivity|]; apply Fin; proj; auto; congruence).
  - rewrite (orb_comm pdl del), <- orb_assoc, (orb_comm pdl (empty _)), orb_assoc.
    destruct (del || empty (p_regs (o_sp o')) || pdl).
    + unfold free_at, data_free. proj. rewrite Wp, Wb.
      destruct (o_at o') as [e|].
      * destruct (in_dec Z.eq_dec e (p_pre (o_sp o'))); [|reflexivity]. cbn [bind]. proj.
        eexists. split; [reflexivity|]. apply Fin; proj; auto.
      * destruct (p_pre (o_sp o')) as [|e l] eqn:Ep; cbn [bind]; proj;
          (eexists; split; [reflexivity|]; apply Fin; proj; auto; congruence).
    + cbn [bind]. eexists. split; [reflexivity|]. apply Fin; proj; auto.
Qed.

Lemma step_ok del q s op : rel q s ->
  match sp_step scr del q op with
  | SFreed => step scr del s op = Bad
  | SDeleted => step scr del s op = Null
  | SOk q' => exists s', step scr del s op = Ok s' /\ rel q' s'
  end.
Proof.
  intros R. unfold sp_step, step. rewrite (t_dead _ _ R). destruct (q_gone q) eqn:G; [reflexivity|].
  pose proof R as R0. destruct R as [B Rd Rn Rb Rde Rg Rp Rlo Rl Rm]. rewrite G in Rde, Rg.
  destruct op as [f r m1 m2|f r| | | |e].
  - unfold add_notify. rewrite Rd. cbv zeta. destruct (q_data q) eqn:D; cbn [negb andb orb].
    + destruct m2; cbn [negb].
      * eexists. split; [reflexivity|]. constructor; proj; auto; try congruence.
        eapply base_add; [exact B|reflexivity..].
      * eexists. split; [reflexivity|]. constructor; proj; auto; congruence.
    + destruct m1; cbn [negb].
      * assert (B2 : base (q_regs q) (q_new q) (q_leaks q)
                  (mkSt true false MNull 0 (s_heap s) (s_new s) (s_log s) (s_dead s) (s_gone s) [] (s_lost s))).
        { eapply base_same; [exact B|reflexivity| |reflexivity]. proj. rewrite (b_top _ _ _ _ B), (Rn eq_refl). reflexivity. }
        destruct m2; cbn [negb].
        -- eexists. split; [reflexivity|]. constructor; proj; auto; try congruence.
           eapply base_add; [exact B2|reflexivity..].
        -- eexists. split; [reflexivity|]. constructor; proj; auto; congruence.
      * eexists. split; [reflexivity|exact R0].
  - unfold remove_notify. rewrite Rd. destruct (q_data q) eqn:D; [|eexists; split; [reflexivity|exact R0]].
    pose proof (base_unlink f r q s R0) as W. cbv zeta in W |- *.
    set (regs := match find (matches f r) (q_regs q) with None => q_regs q | Some g => without (r_id g) (q_regs q) end) in *.
    destruct W as (s1 & -> & R1 & M1). cbn [bind]. rewrite M1.
    assert (E1 : mark_eqb (s_mark s) (s_mark s) = true).
    { destruct (s_mark s) as [|a| |] eqn:E; cbn [mark_eqb]; auto. apply Z.eqb_refl. }
    rewrite E1, andb_true_r.
    pose proof (t_base _ _ R1) as B1. proj_in B1.
    assert (Et : (s_top s1 =? 0) = empty regs).
    { rewrite (b_top _ _ _ _ B1). eapply addr_zero. exact (b_live _ _ _ _ B1). }
    rewrite Et. destruct (empty regs) eqn:Em; cbn [negb].
    + destruct (remove_data_rel _ _ R1 ltac:(proj; assumption)) as (s2 & -> & R2). exists s2. split; [reflexivity|].
      proj_in R2. rewrite G in R2. destruct regs; [exact R2|discriminate].
    + exists s1. split; [reflexivity|]. rewrite D, G in R1. exact R1.
  - unfold notify. rewrite Rd. destruct (q_data q) eqn:D; [|eexists; split; [reflexivity|exact R0]].
    pose proof (notify_ok del q s R0 D G) as N.
    destruct (sp_notify scr del q) as [| |q']; [rewrite N; reflexivity..|].
    destruct N as (s1 & -> & R1). exists s1. split; [reflexivity|exact R1].
  - destruct (q_data q) eqn:D.
    + destruct (remove_data_rel _ _ R0 D) as (s2 & -> & R2). exists s2. split; [reflexivity|]. rewrite G in R2. exact R2.
    + unfold remove_data. rewrite Rd. eexists. split; [reflexivity|exact R0].
  - eexists. split; [reflexivity|]. unfold add_other. constructor; proj; auto.
    + destruct B as [Bc Bt Bl Bn Bp Bk Bks]. destruct Bl as [N L]. constructor; proj; auto; try lia.
      * split; [exact N|]. intros a Ha. apply L in Ha. lia.
      * intros a Ha. destruct (Bks a Ha). split; [auto|lia].
    + rewrite Rd, Rp, (b_new _ _ _ _ B). reflexivity.
  - eexists. split; [reflexivity|]. unfold remove_other. constructor; proj; auto.
    + eapply base_same; [exact B|reflexivity..].
    + rewrite Rp. reflexivity.
Qed.

Lemma steps_ok del : forall l q s, rel q s ->
  match sp_steps scr del q l with
  | SFreed => steps scr del s l = Bad
  | SDeleted => steps scr del s l = Null
  | SOk q' => exists s', steps scr del s l = Ok s' /\ rel q' s'
  end.
Proof.
  induction l as [|o l IH]; intros q s R; cbn [sp_steps steps].
  - exists s. auto.
  - pose proof (step_ok del q s o R) as H. destruct (sp_step scr del q o) as [| |q1]; [rewrite H; reflexivity..|].
    destruct H as (s1 & -> & R1). cbn [bind]. apply IH. exact R1.
Qed.
End Steps.

Lemma rel0 : rel sps0 st0.
Proof.
  constructor; try reflexivity.
  constructor; try reflexivity.
  - split; [constructor|intros a []].
  - intros a. cbn. split; [congruence|intros [[]|[]]].
  - intros a [].
Qed.
