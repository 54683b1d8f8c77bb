From Verif Require Import Base Tree Notify NotifySpec NotifyProofs.

Record inv (cur : reg) (leaks : list Z) (lg : list (Z * Z)) (lost : list Z) (p : sp) (s : st) : Prop := mkInv {
  v_chain : chain (s_heap s) (p_regs p);
  v_top : s_top s = addr (p_regs p);
  v_live : live (p_regs p) (s_new s);
  v_new : s_new s = p_new p;
  v_data : s_data s = true;
  v_busy : s_busy s = true;
  v_dead : s_dead s = p_dead p;
  v_pre : s_pre s = p_pre p;
  v_log : s_log s = lg;
  v_gone : s_gone s = false;
  v_lost : s_lost s = lost;
  v_mark : s_mark s = if p_dead p then MNode else if p_msg p then MTop
                      else if p_self p then MNull else MItem (r_id cur);
  v_cur : 0 < r_id cur < s_new s;
  v_self0 : p_self p = false -> p_haz p = false /\ exists a, p_regs p = a ++ cur :: p_todo p;
  v_self1 : p_self p = true -> ~ In (r_id cur) (ids (p_regs p)) /\ exists a, p_regs p = a ++ p_todo p;
  v_ok : p_haz p = false -> exists it, hget (s_heap s) (r_id cur) = Some it /\ i_next it = addr (p_todo p);
  v_haz : p_haz p = true -> hget (s_heap s) (r_id cur) = None \/
    exists it, hget (s_heap s) (r_id cur) = Some it /\ 0 < i_next it < s_new s /\ hget (s_heap s) (i_next it) = None;
  v_dom : forall a, hget (s_heap s) a <> None -> 0 < a < s_new s;
  v_leak : p_haz p = false -> forall a,
    hget (s_heap s) a <> None <-> In a (ids (p_regs p)) \/ In a leaks \/ a = r_id cur;
  v_leaks : forall a, In a leaks -> ~ In a (ids (p_regs p)) /\ a <> r_id cur /\ 0 < a < s_new s
}.

Lemma inv_len cur lk lg lo p s : inv cur lk lg lo p s -> (length (p_regs p) < S (length (s_heap s)))%nat.
Proof.
  intros I. pose proof (chain_len _ _ (v_chain _ _ _ _ _ _ I) (proj1 (v_live _ _ _ _ _ _ I))). lia.
Qed.

Lemma add_ok cur lk lg lo p s f r (m1 m2 : bool) : inv cur lk lg lo p s ->
  inv cur lk lg lo
    (if m2 then mkSp ((p_new p, f, r) :: p_regs p) (p_todo p) (p_new p + 1) (p_self p) (p_msg p) (p_haz p) (p_dead p) (p_pre p) else p)
    (add_notify s f r m1 m2).
Proof.
  intros I. unfold add_notify. rewrite (v_data _ _ _ _ _ _ I). cbn [negb andb]. cbv zeta.
  destruct m2; cbn [negb]; [|exact I].
  destruct I. cbn [p_regs p_todo p_new p_self p_msg p_haz p_dead p_pre].
  assert (Hn : hget (s_heap s) (s_new s) = None).
  { destruct (hget (s_heap s) (s_new s)) eqn:E; [|reflexivity].
    assert (hget (s_heap s) (s_new s) <> None) as H by (rewrite E; discriminate). apply v_dom0 in H. lia. }
  assert (Hfr : forall a, a <> s_new s -> hget ((s_new s, mkItem f r (s_top s)) :: s_heap s) a = hget (s_heap s) a).
  { intros a Ha. cbn [hget]. destruct (Z.eqb_spec (s_new s) a); [congruence|reflexivity]. }
  destruct v_live0 as [N L].
  constructor; cbn [s_data s_busy s_mark s_top s_heap s_new s_log s_dead s_gone s_pre s_lost
                    p_regs p_todo p_new p_self p_msg p_haz p_dead p_pre]; auto.
  - cbn [chain]. rewrite <- v_new0. split.
    + cbn [r_id r_call fst snd hget]. rewrite Z.eqb_refl, v_top0. reflexivity.
    + apply chain_frame with (h := s_heap s); [|exact v_chain0]. intros a Ha. apply Hfr. apply L in Ha. lia.
  - split.
    + cbn [ids map r_id fst]. rewrite <- v_new0. constructor; [|exact N]. intros H. apply L in H. lia.
    + cbn [ids map r_id fst]. intros a [H|H]; [lia|]. apply L in H. lia.
  - lia.
  - lia.
  - intros H. destruct (v_self2 H) as [H1 [a H2]]. split; [exact H1|]. exists ((p_new p, f, r) :: a). rewrite H2. reflexivity.
  - intros H. destruct (v_self3 H) as [H1 [a H2]]. split.
    + cbn [ids map r_id fst In]. intros [E|E]; [cbn [r_id fst] in v_cur0; unfold r_id in *; cbn [fst] in *; lia|tauto].
    + exists ((p_new p, f, r) :: a). rewrite H2. reflexivity.
  - intros H. destruct (v_ok0 H) as (it & E & G). exists it. split; [|exact G]. rewrite Hfr; [exact E|lia].
  - intros H. destruct (v_haz0 H) as [E|(it & E & G & K)].
    + left. rewrite Hfr; [exact E|lia].
    + right. exists it. split; [rewrite Hfr; [exact E|lia]|]. split; [lia|]. rewrite Hfr; [exact K|lia].
  - intros a Ha. destruct (Z.eq_dec a (s_new s)) as [->|Ne]; [lia|]. rewrite Hfr in Ha by exact Ne. apply v_dom0 in Ha. lia.
  - intros H a. destruct (Z.eq_dec a (s_new s)) as [->|Ne].
    + cbn [hget]. rewrite Z.eqb_refl. split; [|discriminate]. intros _. left. cbn [ids map r_id fst In]. left. lia.
    + rewrite Hfr by exact Ne. rewrite (v_leak0 H a). cbn [ids map r_id fst In]. fold (ids (p_regs p)).
      split; [tauto|]. intros [[E|E]|[E|E]]; try tauto. lia.
  - intros a Ha. destruct (v_leaks0 a Ha) as (H1 & H2 & H3). split; [|split; [exact H2|lia]].
    cbn [ids map r_id fst In]. fold (ids (p_regs p)). intros [E|E]; [lia|tauto].
Qed.

Lemma head_is_addr x l n : 0 < x -> live l n -> head_is x l = (addr l =? x).
Proof. intros H L. destruct l as [|g l]; cbn [head_is addr]; [|reflexivity]. destruct (Z.eqb_spec 0 x); [lia|reflexivity]. Qed.

Lemma without_todo_addr x l : head_is x l = false -> NoDup (ids l) -> addr (without x l) = addr l.
Proof.
  destruct l as [|g l]; cbn [head_is without filter addr]; intros H N; [reflexivity|].
  rewrite H. reflexivity.
Qed.

Lemma remove_data_busy s : s_data s = true -> s_busy s = true -> remove_data s = Ok (set_mark s MTop).
Proof. intros H1 H2. unfold remove_data, data_free. rewrite H1, H2. reflexivity. Qed.

Lemma live_app a b n : live (a ++ b) n -> live b n.
Proof.
  intros [N L]. rewrite ids_app in N, L. split.
  - clear L. induction a as [|g a IH]; cbn [ids map app] in N; [exact N|]. inversion N; subst. apply IH. assumption.
  - intros x Hx. apply L. rewrite in_app_iff. auto.
Qed.

(** Node_RemoveNotify in a callback. *)
Lemma rem_ok cur lk lg lo p s f r : inv cur lk lg lo p s -> p_dead p = false ->
  exists s', remove_notify s f r = Ok s' /\ inv cur lk lg lo (sp_rem (r_id cur) p f r) s'.
Proof.
  intros I D. pose proof (inv_len _ _ _ _ _ _ I) as Hlen. destruct I.
  unfold remove_notify. rewrite v_data0.
  pose proof (rem_walk_ok s f r (p_regs p) [] (S (length (s_heap s))) v_chain0 v_live0 v_top0 Hlen (Forall_nil _)) as W.
  change (last_of (ids [])) with (@None Z) in W. rewrite <- v_top0 in W. cbn [app] in W.
  unfold sp_rem. rewrite D in *.
  destruct (find (matches f r) (p_regs p)) as [g|] eqn:Fd.
  2:{ rewrite W. cbn [bind].
      assert (E1 : mark_eqb (s_mark s) (s_mark s) = true).
      { destruct (s_mark s); cbn [mark_eqb]; auto. apply Z.eqb_refl. }
      rewrite E1, andb_true_r, v_top0, (addr_zero _ _ v_live0).
      destruct (empty (p_regs p)) eqn:Em.
      - rewrite remove_data_busy by assumption. eexists. split; [reflexivity|].
        rewrite orb_true_r.
        constructor; cbn [set_mark s_data s_busy s_mark s_top s_heap s_new s_log s_dead s_gone s_pre s_lost
                    p_regs p_todo p_new p_self p_msg p_haz p_dead p_pre]; auto.
      - eexists. split; [reflexivity|]. rewrite orb_false_r.
        constructor; cbn [p_regs p_todo p_new p_self p_msg p_haz p_dead p_pre]; auto. }
  destruct W as (h & t & U & W). rewrite W. clear W. cbn [bind].
  pose proof (find_split _ _ _ Fd) as (a0 & b0 & Es & _ & _).
  assert (Hg : In (r_id g) (ids (p_regs p))). { rewrite Es, ids_app, in_app_iff. cbn [ids map In]. auto. }
  pose proof (live_without (r_id g) _ _ v_live0) as Lw.
  pose proof (unlinked_free _ _ _ _ _ U) as Cf.
  destruct U as (Uc & Ut & Ud & Uk).
  assert (Hgpos := proj2 v_live0 _ Hg).
  cbv zeta.
  destruct (Z.eqb_spec (r_id g) (r_id cur)) as [Ec|Ec].
  - (* the registration being called *)
    destruct (p_self p) eqn:Sf.
    { destruct (v_self3 eq_refl) as [H _]. rewrite <- Ec in H. tauto. }
    destruct (v_self2 eq_refl) as [Hz [a Ea]]. clear v_self2 v_self3.
    assert (Ew : without (r_id g) (p_regs p) = a ++ p_todo p).
    { rewrite Ea, Ec. apply without_mid. rewrite <- Ea. exact (proj1 v_live0). }
    rewrite Hz in *. cbn [orb].
    destruct (p_msg p) eqn:Mg.
    + (* the mark has been overwritten: the item is freed while being called *)
      rewrite v_mark0. change (mark_eqb MTop (MItem (r_id g))) with false. cbv iota.
      set (s1 := set_list s t (hfree h (r_id g))).
      assert (E1 : mark_eqb MTop (s_mark s1) = true) by (unfold s1; cbn [set_list s_mark]; rewrite v_mark0; reflexivity).
      rewrite E1, andb_true_r.
      assert (G : forall s', s' = s1 \/ s' = set_mark s1 MTop -> inv cur lk lg lo
         {| p_regs := without (r_id g) (p_regs p); p_todo := p_todo p; p_new := p_new p; p_self := true;
            p_msg := true; p_haz := true; p_dead := false; p_pre := p_pre p |} s').
      { intros s' Hs'.
        assert (Hm : s_mark s' = MTop /\ s_data s' = true /\ s_busy s' = true /\ s_top s' = t /\ s_heap s' = hfree h (r_id g)
                     /\ s_new s' = s_new s /\ s_log s' = lg /\ s_dead s' = false /\ s_gone s' = false /\ s_pre s' = p_pre p /\ s_lost s' = lo).
        { destruct Hs' as [-> | ->]; unfold s1; cbn [set_mark set_list s_data s_busy s_mark s_top s_heap s_new s_log s_dead s_gone s_pre s_lost]; auto 20. }
        destruct Hm as (M1 & M2 & M3 & M4 & M5 & M6 & M7 & M8 & M9 & M10 & M11).
        constructor; cbn [p_regs p_todo p_new p_self p_msg p_haz p_dead p_pre]; rewrite ?M4, ?M5, ?M6; auto; try congruence.
        - intros _. split; [|exists a; exact Ew]. intros H. apply in_without in H. rewrite Ec in H. tauto.
        - intros _. left. rewrite hget_free, Ec, Z.eqb_refl. reflexivity.
        - intros y Hy. rewrite hget_free in Hy. destruct (r_id g =? y); [congruence|]. apply v_dom0, Ud, Hy.
        - intros y Hy. destruct (v_leaks0 y Hy) as (H1 & H2 & H3). split; [|auto]. intros H. apply in_without in H. tauto. }
      destruct (s_top s1 =? 0).
      * rewrite remove_data_busy by (unfold s1; cbn [set_list s_data s_busy]; assumption).
        eexists. split; [reflexivity|]. apply G. auto.
      * eexists. split; [reflexivity|]. apply G. auto.
    + rewrite v_mark0.
      replace (mark_eqb (MItem (r_id cur)) (MItem (r_id g))) with true by (cbn [mark_eqb]; rewrite Ec, Z.eqb_refl; reflexivity).
      cbn [set_mark s_mark s_top mark_eqb]. rewrite andb_false_r.
      eexists. split; [reflexivity|].
      assert (Ecur : hget h (r_id cur) = hget (s_heap s) (r_id cur)) by (apply Uk; auto).
      constructor; cbn [set_mark set_list s_data s_busy s_mark s_top s_heap s_new s_log s_dead s_gone s_pre s_lost
                    p_regs p_todo p_new p_self p_msg p_haz p_dead p_pre]; rewrite <- ?Ec; auto; try discriminate.
      * intros _. split; [|exists a; exact Ew]. intros H. apply in_without in H. tauto.
      * intros _. rewrite Ec, Ecur. apply v_ok0; reflexivity.
      * intros y Hy. apply v_dom0, Ud, Hy.
      * intros _ y. rewrite (Ud y), (v_leak0 eq_refl y), (in_without (r_id g) (p_regs p) y), Ec.
        destruct (Z.eq_dec y (r_id cur)); subst; tauto.
      * intros y Hy. destruct (v_leaks0 y Hy) as (H1 & H2 & H3). rewrite Ec. split; [|auto].
        intros H. apply in_without in H. tauto.
  - (* another one *)
    assert (Em : mark_eqb (s_mark s) (MItem (r_id g)) = false).
    { rewrite v_mark0. destruct (p_msg p); [reflexivity|]. destruct (p_self p); [reflexivity|].
      cbn [mark_eqb]. destruct (Z.eqb_spec (r_id cur) (r_id g)); congruence. }
    rewrite Em.
    set (s1 := set_list s t (hfree h (r_id g))).
    assert (E1 : mark_eqb (s_mark s) (s_mark s1) = true).
    { unfold s1; cbn [set_list s_mark]. destruct (s_mark s); cbn [mark_eqb]; auto. apply Z.eqb_refl. }
    rewrite E1, andb_true_r. change (s_top s1) with t. rewrite Ut, (addr_zero _ _ Lw).
    assert (G : forall s' m, (s' = s1 /\ m = p_msg p) \/ (s' = set_mark s1 MTop /\ m = true) ->
         inv cur lk lg lo
         {| p_regs := without (r_id g) (p_regs p); p_todo := without (r_id g) (p_todo p); p_new := p_new p;
            p_self := p_self p; p_msg := m; p_haz := p_haz p || (p_self p && head_is (r_id g) (p_todo p));
            p_dead := false; p_pre := p_pre p |} s').
    { intros s' m Hs'.
      assert (Hm : s_mark s' = (if m then MTop else if p_self p then MNull else MItem (r_id cur))
                   /\ s_data s' = true /\ s_busy s' = true /\ s_top s' = t /\ s_heap s' = hfree h (r_id g)
                   /\ s_new s' = s_new s /\ s_log s' = lg /\ s_dead s' = false /\ s_gone s' = false /\ s_pre s' = p_pre p /\ s_lost s' = lo).
      { destruct Hs' as [[-> ->] | [-> ->]]; unfold s1; cbn [set_mark set_list s_data s_busy s_mark s_top s_heap s_new s_log s_dead s_gone s_pre s_lost]; auto 20. }
      destruct Hm as (M1 & M2 & M3 & M4 & M5 & M6 & M7 & M8 & M9 & M10 & M11).
      assert (Hc : In (r_id cur) (ids (p_regs p)) -> exists a, without (r_id g) (p_regs p) = a ++ cur :: without (r_id g) (p_todo p) -> True) by (intros _; exists []; auto).
      clear Hc.
      assert (S0 : p_self p = false -> exists a, without (r_id g) (p_regs p) = a ++ cur :: without (r_id g) (p_todo p)).
      { intros Sf. destruct (v_self2 Sf) as [_ [a Ea]]. exists (without (r_id g) a).
        rewrite Ea, without_app. f_equal. cbn [without filter].
        destruct (Z.eqb_spec (r_id cur) (r_id g)); [congruence|reflexivity]. }
      assert (Kc : p_self p = true -> hget (hfree h (r_id g)) (r_id cur) = hget (s_heap s) (r_id cur)).
      { intros Sf. destruct (v_self3 Sf) as [Hn _]. rewrite hget_free.
        destruct (Z.eqb_spec (r_id g) (r_id cur)); [congruence|]. apply Uk. auto. }
      constructor; cbn [p_regs p_todo p_new p_self p_msg p_haz p_dead p_pre]; rewrite ?M4, ?M5, ?M6; auto.
      - intros Sf. destruct (v_self2 Sf) as [Hz _]. rewrite Hz, Sf. split; [reflexivity|]. apply S0, Sf.
      - intros Sf. destruct (v_self3 Sf) as [Hn [a Ea]]. split.
        + intros H. apply in_without in H. tauto.
        + exists (without (r_id g) a). rewrite Ea, without_app. reflexivity.
      - intros Hz. apply orb_false_iff in Hz as [Hz Hh].
        destruct (p_self p) eqn:Sf.
        + rewrite (Kc eq_refl). destruct (v_ok0 Hz) as (it & E & Nx). exists it. split; [exact E|].
          cbn [andb] in Hh. destruct (v_self3 eq_refl) as [_ [a Ea]].
          rewrite without_todo_addr; [exact Nx|exact Hh|].
          pose proof v_live0 as Lx. rewrite Ea in Lx. exact (proj1 (live_app _ _ _ Lx)).
        + destruct (S0 eq_refl) as [a Ea]. rewrite Ea in Cf. apply chain_app in Cf. destruct Cf as [Cf _].
          eexists. split; [exact Cf|]. reflexivity.
      - intros Hz. apply orb_true_iff in Hz.
        assert (Sf : p_self p = true).
        { destruct Hz as [Hz|Hz]; [|apply andb_true_iff in Hz; tauto].
          destruct (p_self p) eqn:Sf; [reflexivity|]. destruct (v_self2 eq_refl) as [Hz' _]. congruence. }
        rewrite (Kc Sf).
        destruct (p_haz p) eqn:Hzz.
        + destruct (v_haz0 eq_refl) as [E|(it & E & Nx & K)]; [left; exact E|].
          right. exists it. split; [exact E|]. split; [exact Nx|].
          rewrite hget_free. destruct (r_id g =? i_next it); [reflexivity|].
          destruct (hget h (i_next it)) eqn:E2; [|reflexivity].
          exfalso. pose proof (proj1 (Ud (i_next it))) as Q. rewrite E2 in Q. apply Q; [discriminate|exact K].
        + destruct Hz as [Hz|Hz]; [discriminate|]. apply andb_true_iff in Hz as [_ Hh].
          destruct (v_ok0 eq_refl) as (it & E & Nx). right. exists it. split; [exact E|].
          assert (Ha : addr (p_todo p) = r_id g).
          { destruct (p_todo p) as [|x td]; cbn [head_is] in Hh; [discriminate|]. cbn [addr]. apply Z.eqb_eq. exact Hh. }
          rewrite Nx, Ha. split; [exact Hgpos|]. rewrite hget_free, Z.eqb_refl. reflexivity.
      - intros y Hy. rewrite hget_free in Hy. destruct (r_id g =? y); [congruence|]. apply v_dom0, Ud, Hy.
      - intros Hz y. apply orb_false_iff in Hz as [Hz _]. rewrite hget_free, (in_without (r_id g) (p_regs p) y).
        destruct (Z.eqb_spec (r_id g) y) as [<-|Ne].
        + split; [congruence|]. intros [[_ H]|[H|H]]; [congruence| |congruence].
          apply v_leaks0 in H. tauto.
        + rewrite (Ud y), (v_leak0 Hz y). split; [|tauto]. intros [H|H]; [|tauto]. left. split; auto.
      - intros y Hy. destruct (v_leaks0 y Hy) as (H1 & H2 & H3). split; [|auto]. intros H. apply in_without in H. tauto. }
    destruct (empty (without (r_id g) (p_regs p))) eqn:Ee.
    + rewrite remove_data_busy by (unfold s1; cbn [set_list s_data s_busy]; assumption).
      eexists. split; [reflexivity|]. rewrite orb_true_r. apply G. auto.
    + eexists. split; [reflexivity|]. rewrite orb_false_r. apply G. auto.
Qed.

Lemma act_ok cur lk lg lo p s a : inv cur lk lg lo p s ->
  match sp_act (r_id cur) p a with
  | None => act s a = Null
  | Some p' => exists s', act s a = Ok s' /\ inv cur lk lg lo p' s'
  end.
Proof.
  intros I. unfold sp_act, act. rewrite (v_dead _ _ _ _ _ _ I).
  destruct (p_dead p) eqn:D; [reflexivity|].
  destruct a as [f r m1 m2|f r| | | |e|].
  - eexists. split; [reflexivity|]. rewrite <- D. apply (add_ok cur lk lg lo p s f r m1 m2 I).
  - destruct (rem_ok cur lk lg lo p s f r I D) as (s' & E & I'). exists s'. split; assumption.
  - eexists. split; [reflexivity|exact I].
  - rewrite remove_data_busy by (destruct I; assumption). eexists. split; [reflexivity|].
    destruct I. rewrite D in v_mark0, v_dead0. constructor; cbn [set_mark s_data s_busy s_mark s_top s_heap s_new s_log s_dead s_gone s_pre s_lost
                    p_regs p_todo p_new p_self p_msg p_haz p_dead p_pre]; auto.
  - eexists. split; [reflexivity|]. destruct I. rewrite D in v_mark0, v_dead0. destruct v_live0 as [N L].
    constructor; cbn [add_other s_data s_busy s_mark s_top s_heap s_new s_log s_dead s_gone s_pre s_lost
                    p_regs p_todo p_new p_self p_msg p_haz p_dead p_pre]; auto; try lia.
    + split; [exact N|]. intros y Hy. apply L in Hy. lia.
    + rewrite v_data0, v_new0, v_pre0. reflexivity.
    + intros H. destruct (v_haz0 H) as [E|(it & E & G & K)]; [auto|]. right. exists it. split; [exact E|]. split; [lia|exact K].
    + intros y Hy. destruct (v_leaks0 y Hy) as (H1 & H2 & H3). split; [auto|]. split; [auto|lia].
  - eexists. split; [reflexivity|]. destruct I. rewrite D in v_mark0, v_dead0.
    constructor; cbn [remove_other s_data s_busy s_mark s_top s_heap s_new s_log s_dead s_gone s_pre s_lost
                    p_regs p_todo p_new p_self p_msg p_haz p_dead p_pre]; auto; congruence.
  - unfold delete_node, data_free. rewrite (v_data _ _ _ _ _ _ I), (v_busy _ _ _ _ _ _ I). cbn [bind].
    eexists. split; [reflexivity|]. destruct I. rewrite D in v_mark0, v_dead0.
    constructor; cbn [set_mark s_data s_busy s_mark s_top s_heap s_new s_log s_dead s_gone s_pre s_lost
                    p_regs p_todo p_new p_self p_msg p_haz p_dead p_pre]; auto.
Qed.

Lemma acts_ok cur lk lg lo : forall l p s, inv cur lk lg lo p s ->
  match sp_acts (r_id cur) p l with
  | None => acts s l = Null
  | Some p' => exists s', acts s l = Ok s' /\ inv cur lk lg lo p' s'
  end.
Proof.
  induction l as [|a l IH]; intros p s I; cbn [sp_acts acts].
  - eexists. split; [reflexivity|exact I].
  - pose proof (act_ok _ _ _ _ _ _ a I) as H. destruct (sp_act (r_id cur) p a) as [p'|].
    + destruct H as (s' & -> & I'). cbn [bind]. apply IH. exact I'.
    + rewrite H. reflexivity.
Qed.
