From Verif Require Import Base Tree Notify NotifySpec.

(** Heaps. *)
Lemma hget_set : forall h a b i, hget h a <> None -> hget (hset h a i) b = if a =? b then Some i else hget h b.
Proof.
  induction h as [|[c j] h IH]; cbn [hget hset]; intros a b i H; [congruence|].
  destruct (Z.eqb_spec c a) as [->|Hca].
  - cbn [hget]. destruct (Z.eqb_spec a b); reflexivity.
  - cbn [hget]. destruct (Z.eqb_spec c b) as [->|].
    + destruct (Z.eqb_spec a b); [congruence|reflexivity].
    + apply IH; exact H.
Qed.
Lemma hget_free : forall h a b, hget (hfree h a) b = if a =? b then None else hget h b.
Proof.
  induction h as [|[c j] h IH]; cbn [hget hfree]; intros a b.
  - destruct (a =? b); reflexivity.
  - destruct (Z.eqb_spec c a) as [->|Hca].
    + rewrite IH. destruct (a =? b) eqn:E; reflexivity.
    + cbn [hget]. rewrite IH. destruct (Z.eqb_spec c b) as [->|].
      * destruct (Z.eqb_spec a b); [congruence|reflexivity].
      * reflexivity.
Qed.
Lemma hget_keys : forall h a, hget h a <> None -> In a (map fst h).
Proof.
  induction h as [|[c j] h IH]; cbn [hget map fst In]; intros a H; [congruence|].
  destruct (Z.eqb_spec c a); auto.
Qed.

(** The chain of items of a list of registrations. *)
Definition addr (l : list reg) : Z := match l with [] => 0 | g :: _ => r_id g end.
Fixpoint chain (h : heap) (l : list reg) : Prop :=
  match l with
  | [] => True
  | g :: l => hget h (r_id g) = Some (mkItem (fst (r_call g)) (snd (r_call g)) (addr l)) /\ chain h l
  end.

Lemma chain_frame : forall h h' l, (forall a, In a (ids l) -> hget h' a = hget h a) -> chain h l -> chain h' l.
Proof.
  induction l as [|g l IH]; cbn [chain ids map In]; intros H C; [auto|].
  destruct C as [C1 C2]. split.
  - rewrite H; auto.
  - apply IH; auto.
Qed.
Lemma chain_app : forall h a b, chain h (a ++ b) -> chain h b.
Proof. induction a as [|g a IH]; cbn [app chain]; intros b C; [auto|]. apply IH, C. Qed.
Lemma chain_in : forall h l a, chain h l -> In a (ids l) -> hget h a <> None.
Proof.
  induction l as [|g l IH]; cbn [chain ids map In]; intros a C H; [tauto|].
  destruct C as [C1 C2]. destruct H as [<-|H]; [rewrite C1; discriminate|auto].
Qed.
Lemma chain_len : forall h l, chain h l -> NoDup (ids l) -> (length l <= length h)%nat.
Proof.
  intros h l C N. rewrite <- (map_length r_id l), <- (map_length fst h).
  apply NoDup_incl_length; [exact N|]. intros a H. apply hget_keys. exact (chain_in h l a C H).
Qed.

(** Taking a registration out. *)
Lemma ids_app a b : ids (a ++ b) = ids a ++ ids b.
Proof. apply map_app. Qed.
Lemma without_app x a b : without x (a ++ b) = without x a ++ without x b.
Proof. apply filter_app. Qed.
Lemma without_id : forall x l, ~ In x (ids l) -> without x l = l.
Proof.
  induction l as [|g l IH]; cbn [without filter ids map In]; intros H; [reflexivity|].
  destruct (Z.eqb_spec (r_id g) x); [tauto|]. cbn [negb]. f_equal. apply IH. tauto.
Qed.
Lemma in_without : forall x l a, In a (ids (without x l)) <-> In a (ids l) /\ a <> x.
Proof.
  intros x l a. unfold ids, without. rewrite in_map_iff. split.
  - intros (g & <- & H). apply filter_In in H as [H1 H2]. split; [apply in_map_iff; eauto|].
    destruct (Z.eqb_spec (r_id g) x); [discriminate|auto].
  - intros [H N]. apply in_map_iff in H as (g & <- & H). exists g. split; [reflexivity|].
    apply filter_In. split; [exact H|]. destruct (Z.eqb_spec (r_id g) x); [tauto|reflexivity].
Qed.
Lemma nodup_without x l : NoDup (ids l) -> NoDup (ids (without x l)).
Proof.
  induction l as [|g l IH]; cbn [without filter ids map]; intros N; [constructor|].
  inversion N as [|y m N1 N2]; subst.
  destruct (negb (r_id g =? x)); cbn [map]; [|apply IH; exact N2].
  constructor; [|apply IH; exact N2].
  intros H. apply (in_without x l) in H. tauto.
Qed.
Lemma without_mid g a b : NoDup (ids (a ++ g :: b)) -> without (r_id g) (a ++ g :: b) = a ++ b.
Proof.
  intros N. rewrite without_app. rewrite ids_app in N. cbn [ids map] in N.
  pose proof (NoDup_remove_2 _ _ _ N) as H. rewrite in_app_iff in H.
  rewrite (without_id (r_id g) a) by tauto.
  cbn [without filter]. rewrite Z.eqb_refl. cbn [negb]. f_equal. apply without_id. tauto.
Qed.
Lemma find_split : forall (P : reg -> bool) l g, find P l = Some g ->
  exists a b, l = a ++ g :: b /\ Forall (fun x => P x = false) a /\ P g = true.
Proof.
  induction l as [|x l IH]; cbn [find]; intros g H; [discriminate|].
  destruct (P x) eqn:E.
  - injection H as ->. exists [], l. repeat split; auto.
  - destruct (IH g H) as (a & b & -> & F & G). exists (x :: a), b. repeat split; auto.
Qed.

(** Unlinking an item. *)
Lemma chain_unlink_top h g l : chain h (g :: l) -> chain h l.
Proof. intros [_ C]; exact C. Qed.
Lemma addr_app a g b : a <> [] -> addr (a ++ g :: b) = addr (a ++ b).
Proof. destruct a; [congruence|reflexivity]. Qed.
Lemma chain_unlink : forall h a p g b, chain h (a ++ p :: g :: b) -> NoDup (ids (a ++ p :: g :: b)) ->
  chain (hset h (r_id p) (mkItem (fst (r_call p)) (snd (r_call p)) (addr b))) (a ++ p :: b).
Proof.
  induction a as [|x a IH]; intros p g b C N.
  - destruct C as (C1 & C2 & C3). cbn [app chain]. split.
    + rewrite hget_set by (rewrite C1; discriminate). rewrite Z.eqb_refl. reflexivity.
    + apply chain_frame with (h := h); [|exact C3]. intros y Hy.
      rewrite hget_set by (rewrite C1; discriminate).
      destruct (Z.eqb_spec (r_id p) y) as [<-|]; [|reflexivity].
      cbn [app ids map] in N. inversion N as [|? ? N1 N2]; subst. exfalso. apply N1. right. exact Hy.
  - cbn [app chain] in C. destruct C as [C1 C2]. cbn [app chain].
    assert (Hp : hget h (r_id p) <> None).
    { apply (chain_in h _ (r_id p) C2). rewrite ids_app, in_app_iff. cbn [ids map In]. auto. }
    cbn [app ids map] in N. inversion N as [|? ? N1 N2]; subst.
    split.
    + rewrite hget_set by exact Hp.
      destruct (Z.eqb_spec (r_id p) (r_id x)) as [E|].
      * exfalso. apply N1. rewrite <- E. fold (ids (a ++ p :: g :: b)). rewrite ids_app, in_app_iff. cbn [ids map In]. auto.
      * rewrite C1. f_equal. f_equal. destruct a; reflexivity.
    + apply (IH p g b C2). exact N2.
Qed.

Definition live (l : list reg) (n : Z) : Prop := NoDup (ids l) /\ (forall a, In a (ids l) -> 0 < a < n).

(** The loop of Node_RemoveNotify. *)
Definition unlinked (s : st) (l : list reg) (g : reg) (h : heap) (t : Z) : Prop :=
  chain h (without (r_id g) l) /\ t = addr (without (r_id g) l) /\
  (forall y, hget h y <> None <-> hget (s_heap s) y <> None) /\
  (forall y, ~ In y (ids l) \/ y = r_id g -> hget h y = hget (s_heap s) y).

Lemma rem_walk_ok s f r : forall l a n, chain (s_heap s) (a ++ l) -> live (a ++ l) (s_new s) ->
  s_top s = addr (a ++ l) -> (length l < n)%nat ->
  Forall (fun x => matches f r x = false) a ->
  match find (matches f r) l with
  | None => rem_walk n s (last_of (ids a)) (addr l) f r = Ok s
  | Some g => exists h t, unlinked s (a ++ l) g h t /\
      rem_walk n s (last_of (ids a)) (addr l) f r
      = Ok (if mark_eqb (s_mark s) (MItem (r_id g)) then set_mark (set_list s t h) MNull
            else set_list s t (hfree h (r_id g)))
  end.
Proof.
  induction l as [|g l IH]; intros a n C L T Hn F.
  - cbn [find addr]. destruct n as [|n]; [cbn [length] in Hn; lia|]. reflexivity.
  - destruct n as [|n]; [cbn [length] in Hn; lia|]. cbn [length] in Hn.
    pose proof (chain_app _ _ _ C) as Cl. destruct Cl as [C1 C2].
    destruct L as [N L].
    assert (Hg : 0 < r_id g < s_new s). { apply L. rewrite ids_app, in_app_iff. cbn [ids map In]. auto. }
    cbn [find addr rem_walk].
    destruct (Z.eqb_spec (r_id g) 0); [lia|].
    rewrite C1. cbn [opt_res bind i_func i_ref i_next].
    change ((fst (r_call g) =? f) && (snd (r_call g) =? r)) with (matches f r g).
    destruct (matches f r g) eqn:M.
    + rewrite T.
      assert (W : without (r_id g) (a ++ g :: l) = a ++ l) by (apply without_mid; exact N).
      destruct (Z.eqb_spec (r_id g) (addr (a ++ g :: l))) as [E|E].
      * assert (a = []) as ->.
        { destruct a as [|x a]; [reflexivity|]. cbn [app addr] in E. cbn [app ids map] in N.
          inversion N as [|? ? N1 N2]; subst. exfalso. apply N1. rewrite <- E.
          fold (ids (a ++ g :: l)). rewrite ids_app, in_app_iff. cbn [ids map In]. auto. }
        exists (s_heap s), (addr l). split.
        { unfold unlinked. rewrite W. cbn [app]. repeat split; auto. }
        cbn [bind set_list s_mark s_top]. destruct (mark_eqb _ _); reflexivity.
      * destruct a as [|x0 a0] using rev_ind; [cbn [app addr] in E; congruence|]. clear IHa0.
        assert (La : last_of (ids (a0 ++ [x0])) = Some (r_id x0)).
        { unfold last_of. rewrite ids_app, rev_app_distr. reflexivity. }
        rewrite La. rewrite <- app_assoc in C, N, L |- *. cbn [app] in C, N, L |- *.
        assert (Cx := chain_app _ _ _ C). destruct Cx as [Cx _]. rewrite Cx.
        cbn [opt_res bind i_func i_ref].
        assert (Hx : hget (s_heap s) (r_id x0) <> None) by (rewrite Cx; discriminate).
        exists (hset (s_heap s) (r_id x0) (mkItem (fst (r_call x0)) (snd (r_call x0)) (addr l))), (addr (a0 ++ x0 :: l)).
        rewrite <- app_assoc in W. cbn [app] in W. rewrite <- app_assoc in W. cbn [app] in W.
        split.
        { unfold unlinked. rewrite W. split; [|split; [|split]].
          - apply (chain_unlink _ a0 x0 g l); assumption.
          - reflexivity.
          - intros y. rewrite hget_set by exact Hx. destruct (Z.eqb_spec (r_id x0) y) as [<-|]; [|reflexivity].
            split; intros _; [exact Hx|discriminate].
          - intros y Hy. rewrite hget_set by exact Hx. destruct (Z.eqb_spec (r_id x0) y) as [<-|]; [|reflexivity].
            exfalso. rewrite ids_app in N, Hy. cbn [ids map] in N, Hy. destruct Hy as [Hy|Hy].
            + apply Hy. rewrite in_app_iff. cbn [In]. auto.
            + apply NoDup_remove_2 in N. apply N. rewrite in_app_iff, Hy. cbn [In]. auto. }
        replace (addr (a0 ++ x0 :: g :: l)) with (addr (a0 ++ x0 :: l)) by (destruct a0; reflexivity).
        cbn [set_list s_mark]. destruct (mark_eqb _ _); reflexivity.
    + specialize (IH (a ++ [g]) n).
      rewrite <- app_assoc in IH. cbn [app] in IH.
      assert (La : last_of (ids (a ++ [g])) = Some (r_id g)).
      { unfold last_of. rewrite ids_app, rev_app_distr. reflexivity. }
      rewrite La in IH. apply IH; auto; [split; assumption|lia|].
      apply Forall_app. split; auto.
Qed.

Lemma unlinked_free s l g h t : unlinked s l g h t -> chain (hfree h (r_id g)) (without (r_id g) l).
Proof.
  intros (C & _ & _ & _). apply chain_frame with (h := h); [|exact C].
  intros a H. apply in_without in H. rewrite hget_free.
  destruct (Z.eqb_spec (r_id g) a); [subst; tauto|reflexivity].
Qed.

Lemma addr_zero l n : live l n -> (addr l =? 0) = empty l.
Proof.
  intros [_ L]. destruct l as [|g l]; [reflexivity|]. cbn [addr empty].
  specialize (L (r_id g)). cbn [ids map In] in L. destruct (Z.eqb_spec (r_id g) 0); [lia|reflexivity].
Qed.
Lemma live_without x l n : live l n -> live (without x l) n.
Proof.
  intros [N L]. split; [apply nodup_without; exact N|].
  intros a H. apply in_without in H. apply L. tauto.
Qed.

Lemma free_chain_ok : forall l n h, chain h l -> NoDup (ids l) -> (forall a, In a (ids l) -> a <> 0) ->
  (length l < n)%nat ->
  exists h', free_chain n h (addr l) = Ok h' /\
    forall a, hget h' a = if in_dec Z.eq_dec a (ids l) then None else hget h a.
Proof.
  induction l as [|g l IH]; intros n h C N Z0 Hn; (destruct n as [|n]; [cbn [length] in Hn; lia|]).
  - exists h. split; [reflexivity|]. intros a. destruct (in_dec _ _ _) as [[]|]; reflexivity.
  - cbn [addr free_chain]. destruct C as [C1 C2]. cbn [ids map] in N. inversion N as [|? ? N1 N2]; subst.
    destruct (Z.eqb_spec (r_id g) 0) as [E|_]; [exfalso; apply (Z0 (r_id g)); cbn [ids map In]; auto|].
    rewrite C1. cbn [opt_res bind i_next].
    destruct (IH n (hfree h (r_id g))) as (h' & E & H).
    + apply chain_frame with (h := h); [|exact C2]. intros a Ha. rewrite hget_free.
      destruct (Z.eqb_spec (r_id g) a); [subst; tauto|reflexivity].
    + exact N2.
    + intros a Ha. apply Z0. cbn [ids map In]. auto.
    + cbn [length] in Hn. lia.
    + exists h'. split; [exact E|]. intros a. rewrite H, hget_free.
      destruct (in_dec Z.eq_dec a (ids l)) as [i|i]; destruct (in_dec Z.eq_dec a (ids (g :: l))) as [i'|i'].
      * reflexivity.
      * exfalso. apply i'. cbn [ids map In]. auto.
      * destruct (Z.eqb_spec (r_id g) a); [reflexivity|]. exfalso. cbn [ids map In] in i'. tauto.
      * destruct (Z.eqb_spec (r_id g) a); [|reflexivity]. exfalso. apply i'. cbn [ids map In]. auto.
Qed.
