From Verif Require Import Base Tree Notify NotifySpec NotifyProofs NotifyProofs2.

Record base (regs : list reg) (new : Z) (lk : list Z) (s : st) : Prop := mkBase {
  b_chain : chain (s_heap s) regs;
  b_top : s_top s = addr regs;
  b_live : live regs new;
  b_new : s_new s = new;
  b_pos : 0 < new;
  b_leak : forall a, hget (s_heap s) a <> None <-> In a (ids regs) \/ In a lk;
  b_leaks : forall a, In a lk -> ~ In a (ids regs) /\ 0 < a < new }.

Record rinv (lost : list Z) (o : round) (s : st) : Prop := mkRinv {
  w_base : base (p_regs (o_sp o)) (p_new (o_sp o)) (o_leaks o) s;
  w_data : s_data s = true;
  w_busy : s_busy s = true;
  w_dead : s_dead s = p_dead (o_sp o);
  w_pre : s_pre s = p_pre (o_sp o);
  w_log : s_log s = o_log o;
  w_gone : s_gone s = false;
  w_lost : s_lost s = lost;
  w_todo : exists a, p_regs (o_sp o) = a ++ p_todo (o_sp o) }.

Lemma base_dom regs new lk s : base regs new lk s -> forall a, hget (s_heap s) a <> None -> 0 < a < new.
Proof.
  intros B a H. apply (b_leak _ _ _ _ B) in H. destruct H as [H|H].
  - exact (proj2 (b_live _ _ _ _ B) a H).
  - exact (proj2 (b_leaks _ _ _ _ B a H)).
Qed.

Lemma data_start_ok s : data_start s = last_of (s_pre s).
Proof. reflexivity. Qed.

Lemma without_len x l : (length (without x l) <= length l)%nat.
Proof. induction l as [|g l IH]; cbn [without filter length]; [lia|]. destruct (negb _); cbn [length]; unfold without in IH; lia. Qed.

Section Loop.
Context (scr : nat -> Z * Z -> list action).

Lemma sp_acts_dead cur p l : p_dead p = true -> sp_acts cur p l = match l with [] => Some p | _ => None end.
Proof. intros D. destruct l as [|a l]; [reflexivity|]. cbn [sp_acts]. unfold sp_act. rewrite D. reflexivity. Qed.
Lemma acts_dead s l : s_dead s = true -> acts s l = match l with [] => Ok s | _ => Null end.
Proof. intros D. destruct l as [|a l]; [reflexivity|]. cbn [acts]. unfold act. rewrite D. reflexivity. Qed.

Lemma loop_ok lost : forall m n o s pdl, rinv lost o s ->
  (length (p_todo (o_sp o)) <= m)%nat -> (length (p_todo (o_sp o)) < n)%nat ->
  p_dead (o_sp o) || pdl = o_clear o ->
  match sp_loop scr m o with
  | SFreed => notify_loop scr n s (addr (p_todo (o_sp o))) (o_at o) (p_dead (o_sp o)) pdl = Bad
  | SDeleted => notify_loop scr n s (addr (p_todo (o_sp o))) (o_at o) (p_dead (o_sp o)) pdl = Null
  | SOk o' => exists s' pdl',
      notify_loop scr n s (addr (p_todo (o_sp o))) (o_at o) (p_dead (o_sp o)) pdl
      = Ok (s', o_at o', p_dead (o_sp o'), pdl')
      /\ rinv lost o' s' /\ p_dead (o_sp o') || pdl' = o_clear o'
  end.
Proof.
  induction m as [|m IH]; intros n o s pdl R Hm Hn Hc.
  - destruct (p_todo (o_sp o)) as [|g t] eqn:T; [|cbn [length] in Hm; lia].
    cbn [sp_loop addr]. destruct n as [|n]; [lia|]. cbn [notify_loop]. change (0 =? 0) with true. cbv iota.
    exists s, pdl. auto.
  - cbn [sp_loop]. cbv zeta. destruct (p_todo (o_sp o)) as [|g t] eqn:T.
    { cbn [addr]. destruct n as [|n]; [lia|]. cbn [notify_loop]. change (0 =? 0) with true. cbv iota.
      exists s, pdl. auto. }
    destruct n as [|n]; [lia|]. cbn [length] in Hm, Hn.
    destruct R as [B Rd Rb Rde Rp Rl Rg Rlo [a0 Ea]]. pose proof (base_dom _ _ _ _ B) as Hdom.
    destruct B as [Bc Bt Bl Bn Bp Bk Bks].
    rewrite T in Ea.
    assert (Hg : 0 < r_id g < p_new (o_sp o)).
    { apply (proj2 Bl). rewrite Ea, ids_app, in_app_iff. cbn [ids map In]. auto. }
    assert (Cg : hget (s_heap s) (r_id g) = Some (mkItem (fst (r_call g)) (snd (r_call g)) (addr t))).
    { rewrite Ea in Bc. apply chain_app in Bc. exact (proj1 Bc). }
    cbn [addr notify_loop]. destruct (Z.eqb_spec (r_id g) 0); [lia|].
    rewrite Cg. cbn [opt_res bind i_func i_ref]. rewrite <- surjective_pairing, Rl.
    set (p0 := mkSp (p_regs (o_sp o)) t (p_new (o_sp o)) false false false (p_dead (o_sp o)) (p_pre (o_sp o))).
    destruct (p_dead (o_sp o)) eqn:D.
    + rewrite (sp_acts_dead (r_id g) p0) by reflexivity.
      rewrite acts_dead by (cbn [add_log set_mark s_dead]; exact Rde).
      destruct (scr (length (o_log o)) (r_call g)) as [|a l]; [|reflexivity].
      cbn [bind add_log set_mark s_heap s_mark p_haz p0]. rewrite Cg. cbn [opt_res bind i_next].
      cbn [p_self p_msg p_dead orb andb].
      specialize (IH n (mkRound p0 (r_call g :: o_log o) (o_at o) (o_clear o || true) (o_leaks o))
                     (add_log (set_mark s (MItem (r_id g))) (r_call g)) pdl).
      cbn [o_sp p_todo p0 o_at p_dead] in IH.
      apply IH; [|lia|lia|cbn [o_clear]; cbn [orb] in *; rewrite <- Hc; reflexivity].
      constructor; cbn [o_sp o_leaks o_log p0 p_regs p_new p_dead p_pre p_todo add_log set_mark s_data s_busy s_dead s_pre s_log s_gone s_lost]; auto; try congruence.
      * constructor; auto.
      * exists (a0 ++ [g]). rewrite <- app_assoc. exact Ea.
    + assert (I0 : inv g (o_leaks o) (r_call g :: o_log o) lost p0 (add_log (set_mark s (MItem (r_id g))) (r_call g))).
      { constructor; cbn [p0 p_regs p_todo p_new p_self p_msg p_haz p_dead p_pre add_log set_mark
                          s_data s_busy s_mark s_top s_heap s_new s_log s_dead s_gone s_pre s_lost]; auto; try congruence; try lia.
        - intros _. split; [reflexivity|]. exists a0. exact Ea.
        - intros _. eexists. split; [exact Cg|reflexivity].
        - intros _ a. rewrite (Bk a). split; [tauto|]. intros [H|[H|H]]; [tauto|tauto|].
          left. subst a. rewrite Ea, ids_app, in_app_iff. cbn [ids map In]. auto.
        - intros a Ha. destruct (Bks a Ha) as [H1 H2]. split; [exact H1|]. rewrite Bn. split; [|exact H2].
          intros ->. apply H1. rewrite Ea, ids_app, in_app_iff. cbn [ids map In]. auto. }
      pose proof (acts_ok g _ _ _ (scr (length (o_log o)) (r_call g)) _ _ I0) as HA.
      destruct (sp_acts (r_id g) p0 (scr (length (o_log o)) (r_call g))) as [p1|] eqn:SA.
      2:{ rewrite HA. reflexivity. }
      destruct HA as (s1 & -> & I1). cbn [bind].
      destruct (p_haz p1) eqn:Hz.
      { (* use of a freed item *)
        destruct (v_haz _ _ _ _ _ _ I1 Hz) as [E|(it & E & Nx & K)]; rewrite E; [reflexivity|].
        cbn [opt_res bind].
        destruct n as [|n]; [lia|].
        assert (Lk : forall s2 i2 b1 b2, hget (s_heap s2) (i_next it) = None ->
                     notify_loop scr (S n) s2 (i_next it) i2 b1 b2 = Bad).
        { intros s2 i2 b1 b2 H2. cbn [notify_loop]. destruct (Z.eqb_spec (i_next it) 0); [lia|]. rewrite H2. reflexivity. }
        destruct (s_mark s1); apply Lk; cbn [set_list s_heap]; try exact K.
        rewrite hget_free. destruct (r_id g =? i_next it); [reflexivity|exact K]. }
      destruct (v_ok _ _ _ _ _ _ I1 Hz) as (it & E & Nx). rewrite E. cbn [opt_res bind]. rewrite Nx.
      assert (Tl : (length (p_todo p1) <= length t)%nat).
      { clear -SA. change t with (p_todo p0). clearbody p0. revert p0 SA.
        generalize (scr (length (o_log o)) (r_call g)); intros ll; induction ll as [|a l IH]; cbn [sp_acts]; intros p0 SA; [injection SA as ->; lia|].
        destruct (sp_act (r_id g) p0 a) as [p2|] eqn:Ea2; [|discriminate].
        specialize (IH p2 SA).
        assert (length (p_todo p2) <= length (p_todo p0))%nat; [|lia].
        clear -Ea2. unfold sp_act in Ea2. destruct (p_dead p0); [discriminate|]. injection Ea2 as <-.
        destruct a as [f r m1 m2|f r| | | |e|]; try (cbn [p_todo]; lia).
        - destruct m2; cbn [p_todo]; lia.
        - unfold sp_rem. destruct (find _ _) as [x|]; [|cbn [p_todo]; lia]. cbv zeta.
          destruct (r_id x =? r_id g); cbn [p_todo]; [lia|]. apply without_len. }
      pose proof I1 as I1'. destruct I1'.
      assert (Suf : exists a, p_regs p1 = a ++ p_todo p1).
      { destruct (p_self p1) eqn:Sf.
        - apply v_self1; reflexivity.
        - destruct (v_self0 eq_refl) as [_ [a Ha]]. exists (a ++ [g]). rewrite <- app_assoc. exact Ha. }
      set (told := p_msg p1 || p_dead p1).
      set (o1 := mkRound p1 (r_call g :: o_log o) (if p_self p1 && negb told then last_of (p_pre p1) else o_at o)
                         (o_clear o || told) (if p_self p1 && told then r_id g :: o_leaks o else o_leaks o)).
      cbn [orb] in Hc.
      assert (R1 : rinv lost o1 (if p_self p1 && negb told then set_list s1 (s_top s1) (hfree (s_heap s1) (r_id g)) else s1)).
      { destruct (p_self p1) eqn:Sf; [destruct told eqn:Td|]; cbn [andb negb].
        - destruct (v_self1 eq_refl) as [Hn1 _].
          constructor; unfold o1; cbn [andb o_sp o_leaks o_log]; auto.
          constructor; auto; try lia.
          + rewrite <- v_new. exact v_live.
          + intros a. rewrite (v_leak Hz a). cbn [In]. split; intros [H|[H|H]]; auto.
          + intros a [Ha|Ha].
            * subst a. rewrite <- v_new. auto.
            * destruct (v_leaks a Ha) as (H1 & H2 & H3). rewrite <- v_new. auto.
        - destruct (v_self1 eq_refl) as [Hn1 _].
          constructor; unfold o1; cbn [andb o_sp o_leaks o_log set_list s_data s_busy s_dead s_pre s_log s_gone s_lost]; auto.
          constructor; cbn [set_list s_heap s_top s_new]; auto; try lia.
          + apply chain_frame with (h := s_heap s1); [|exact v_chain]. intros a Ha. rewrite hget_free.
            destruct (Z.eqb_spec (r_id g) a); [subst; tauto|reflexivity].
          + rewrite <- v_new. exact v_live.
          + intros a. rewrite hget_free. destruct (Z.eqb_spec (r_id g) a) as [<-|Ne].
            * split; [congruence|]. intros [H|H]; [tauto|]. apply v_leaks in H. tauto.
            * rewrite (v_leak Hz a). split; [|tauto]. intros [H|[H|H]]; auto. congruence.
          + intros a Ha. destruct (v_leaks a Ha) as (H1 & H2 & H3). rewrite <- v_new. auto.
        - destruct (v_self0 eq_refl) as [_ [a1 Ha1]].
          constructor; unfold o1; cbn [andb o_sp o_leaks o_log]; auto.
          constructor; auto; try lia.
          + rewrite <- v_new. exact v_live.
          + intros a. rewrite (v_leak Hz a). split; [|tauto]. intros [H|[H|H]]; auto.
            left. subst a. rewrite Ha1, ids_app, in_app_iff. cbn [ids map In]. auto.
          + intros a Ha. destruct (v_leaks a Ha) as (H1 & H2 & H3). rewrite <- v_new. auto. }
      specialize (IH n o1).
      change (p_todo (o_sp o1)) with (p_todo p1) in IH. change (p_dead (o_sp o1)) with (p_dead p1) in IH.
      rewrite v_mark.
      destruct (p_dead p1) eqn:D1.
      { assert (Td : told = true) by (unfold told; rewrite orb_true_r; reflexivity).
        rewrite Td, andb_false_r in R1. cbv iota in R1.
        specialize (IH s1 pdl R1 ltac:(lia) ltac:(lia) ltac:(unfold o1; cbn [o_clear]; rewrite Td; destruct (o_clear o); reflexivity)).
        unfold o1 in IH. cbn [o_at] in IH. rewrite Td, andb_false_r in IH. cbv iota in IH. rewrite andb_true_r in IH.
        unfold o1. rewrite Td, andb_false_r, andb_true_r. exact IH. }
      destruct (p_msg p1) eqn:Mg.
      { assert (Td : told = true) by reflexivity.
        rewrite Td, andb_false_r in R1. cbv iota in R1.
        specialize (IH s1 true R1 ltac:(lia) ltac:(lia) ltac:(unfold o1; cbn [o_clear]; rewrite Td; destruct (o_clear o); reflexivity)).
        unfold o1 in IH. cbn [o_at] in IH. rewrite Td, andb_false_r in IH. cbv iota in IH. rewrite andb_true_r in IH.
        unfold o1. rewrite Td, andb_false_r, andb_true_r. exact IH. }
      assert (Td : told = false) by reflexivity.
      rewrite Td in R1. cbn [negb] in R1. rewrite andb_true_r in R1.
      assert (Hc1 : false || pdl = o_clear o1) by (unfold o1; cbn [o_clear]; rewrite Td, orb_false_r; exact Hc).
      specialize (IH _ pdl R1 ltac:(lia) ltac:(lia) Hc1).
      unfold o1 in IH. cbn [o_at] in IH. rewrite Td, andb_false_r in IH. cbn [negb] in IH. rewrite andb_true_r in IH. cbv iota in IH.
      unfold o1. rewrite Td, andb_false_r. cbn [negb]. rewrite andb_true_r. cbv iota.
      destruct (p_self p1); [|exact IH].
      rewrite data_start_ok, v_pre. exact IH.
Qed.
End Loop.
