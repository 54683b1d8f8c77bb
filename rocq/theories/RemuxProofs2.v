(** Rounds, clusters and the whole remux. *)
From Verif Require Import Base BaseProofs Tree Stream Frame BlockTime Arr Remux RemuxSpec RemuxProofs.

Lemma of_track_app t a b : of_track t (a ++ b) = of_track t a ++ of_track t b.
Proof. unfold of_track. rewrite filter_app, map_app. reflexivity. Qed.
Lemma of_track_pair t u o : of_track t (map (pair u) o) = if u =? t then o else [].
Proof.
  unfold of_track. induction o as [|i o IH]; cbn [map filter fst]; [destruct (u =? t); reflexivity|].
  destruct (u =? t); cbn [map snd]; rewrite IH; reflexivity.
Qed.

Section P.
Context (w : option Z) (s0 : tracks) (order : list Z) (main : Z) (Hmain : ~ In main order).
(** The state of all the tracks: what was written of each and what is left. *)
Definition inv (s : tracks) (o : list (Z * item)) : Prop := forall t,
  good (fst (s0 t)) (fst (s t)) (snd (s t)) (of_track t o) /\ started_ok (fst (s t)) (snd (s t)) /\ Forall bi_ok (fst (s t)).

Lemma others_loop_spec mainend masterend tst : masterend <= INVALID_TIMESTAMP -> forall ord s s' o o0, incl ord order ->
  others_loop w mainend masterend tst ord s = Ok (Some (s', o)) -> inv s o0 ->
  inv s' (o0 ++ o) /\ s' main = s main /\ of_track main o = [] /\
  (mainend = INVALID_TIMESTAMP -> masterend = INVALID_TIMESTAMP -> forall t, In t ord \/ fst (s t) = [] -> fst (s' t) = []) /\
  Forall (fun p => In (fst p) order /\ bi_dec (i_blk (snd p)) <= mainend) o.
Proof.
  intros Hm ord. induction ord as [|t ord IH]; intros s s' o o0 Hin H Hi; cbn [others_loop] in H.
  - injection H as <- <-. rewrite app_nil_r. split; [exact Hi|]. split; [reflexivity|]. split; [reflexivity|]. split; [|constructor]. intros _ _ t [[]|E]; exact E.
  - destruct (other_loop w mainend masterend tst (snd (s t)) (fst (s t))) as [| | |r] eqn:E1; try discriminate. cbn [bind] in H.
    destruct r as [[[l st] o1]|]; [|discriminate].
    destruct (others_loop w mainend masterend tst ord (tset s t (l, st))) as [| | |r] eqn:E2; try discriminate. cbn [bind] in H.
    destruct r as [[s2 o2]|]; [|discriminate]. injection H as <- <-.
    destruct (Hi t) as (G & St & Ok). pose proof (other_loop_spec w mainend masterend tst (fst (s0 t)) Hm _ _ _ _ _ Ok E1 _ G St) as (A1 & A2 & A3 & A4 & A5).
    assert (Hi' : inv (tset s t (l, st)) (o0 ++ map (pair t) o1)).
    { intros u. rewrite of_track_app, of_track_pair. unfold tset. destruct (Z.eqb_spec u t) as [->|Hu].
      - rewrite Z.eqb_refl. auto.
      - replace (t =? u) with false by lia. rewrite app_nil_r. apply Hi. }
    assert (Ht : In t order) by (apply Hin; left; reflexivity).
    assert (Hmt : main <> t) by (intros ->; contradiction).
    destruct (IH _ _ _ _ (fun x Hx => Hin x (or_intror Hx)) E2 Hi') as (B1 & B2 & B3 & B4 & B5).
    rewrite <- app_assoc in B1. split; [exact B1|]. split; [rewrite B2; unfold tset; replace (main =? t) with false by lia; reflexivity|].
    split; [rewrite of_track_app, of_track_pair; replace (t =? main) with false by lia; exact B3|].
    split.
    + intros Em Es u Hu. apply B4; [exact Em|exact Es|]. unfold tset. destruct (Z.eqb_spec u t) as [->|Hn].
      * right. cbn [fst]. apply A4; assumption.
      * destruct Hu as [[->|Hu]|Hu]; [contradiction|left; exact Hu|right; exact Hu].
    + apply Forall_app. split; [|exact B5]. apply Forall_forall. intros p Hp. apply in_map_iff in Hp. destruct Hp as (i & <- & Hp). cbn [fst snd].
      split; [exact Ht|]. rewrite Forall_forall in A5. apply A5, Hp.
Qed.

Definition next_dec (l : list binfo) : Z := match l with [] => INVALID_TIMESTAMP | n :: _ => bi_dec n end.
Lemma next_dec_lt l : Forall bi_ok l -> l <> [] -> next_dec l < INVALID_TIMESTAMP.
Proof. intros H Hn. destruct l as [|b l]; [contradiction|]. apply Forall_cons_iff in H. destruct H as [H _]. apply bi_dec_lt, H. Qed.
Lemma next_dec_inv l : Forall bi_ok l -> next_dec l = INVALID_TIMESTAMP -> l = [].
Proof. intros H E. destruct l; [reflexivity|]. pose proof (next_dec_lt _ H ltac:(discriminate)). lia. Qed.

Lemma round_spec masterend tst s b l reached s' o o0 : masterend <= INVALID_TIMESTAMP ->
  fst (s main) = b :: l -> snd (s main) = O -> inv s o0 ->
  round w masterend tst order main s = Ok (Some (reached, s', o)) ->
  inv s' (o0 ++ o) /\ s' main = (l, O) /\ reached = ((next_dec l =? INVALID_TIMESTAMP) || (next_dec l =? masterend)) /\
  (exists oo p, o = oo ++ [(main, mkItem b true O (k_frames (bi_blk b)) (Some p))] /\ local_of w (k_time (bi_blk b)) tst = Ok (Some p) /\
     Forall (fun p => In (fst p) order /\ bi_dec (i_blk (snd p)) <= next_dec l) oo) /\
  (l = [] -> masterend = INVALID_TIMESTAMP -> forall t, In t order -> fst (s' t) = []).
Proof.
  intros Hm El Es Hi H. unfold round in H. rewrite El in H. fold (next_dec l) in H. cbv zeta in H.
  destruct (others_loop w (next_dec l) masterend tst order s) as [| | |r] eqn:E1; try discriminate. cbn [bind] in H.
  destruct r as [[s1 o1]|]; [|discriminate].
  destruct (others_loop_spec _ _ _ Hm _ _ _ _ _ (incl_refl _) E1 Hi) as (A1 & A2 & A3 & A4 & A5).
  destruct (Hi main) as (G & _ & Bok). rewrite El in Bok. pose proof (bi_ok_ne _ Bok) as Bne. apply Forall_cons_iff in Bne. destruct Bne as [Bne Lne].
  apply Forall_cons_iff in Bok. destruct Bok as [Bok Lok].
  unfold frames_ne in Bne. destruct (k_frames (bi_blk b)) as [|f fs] eqn:Ef; [contradiction|]. rewrite <- Ef in *.
  destruct (local_of w (k_time (bi_blk b)) tst) as [| | |p] eqn:Ep; try discriminate. cbn [bind] in H.
  destruct p as [p|]; [|discriminate]. injection H as <- <- <-.
  split; [|split; [unfold tset; rewrite Z.eqb_refl; reflexivity|split; [reflexivity|split]]].
  - intros t. rewrite !of_track_app. unfold tset. destruct (Z.eqb_spec t main) as [->|Ht].
    + cbn [fst snd]. rewrite A3. cbn [app].
      split; [|split; [destruct l; cbn [started_ok]; auto|exact Lok]].
      unfold of_track at 2. cbn [filter fst]. rewrite Z.eqb_refl. cbn [map snd].
      apply good_whole with b; cbn [i_whole i_blk i_frames]; auto. rewrite El, Es in G. exact G.
    + unfold of_track at 3. cbn [filter fst]. replace (main =? t) with false by lia. cbn [map]. rewrite app_nil_r, <- of_track_app. apply A1.
  - exists o1, p. auto.
  - intros -> Em t Ht. unfold tset. replace (t =? main) with false by (destruct (Z.eqb_spec t main); [subst; contradiction|reflexivity]).
    apply A4; [reflexivity|exact Em|left; exact Ht].
Qed.

(** Cluster times still to come are among the decoding times of the blocks after the next one. *)
Inductive sub : list Z -> list Z -> Prop :=
| sub_nil l : sub [] l
| sub_take x a l : sub a l -> sub (x :: a) (x :: l)
| sub_skip x a l : sub a l -> sub a (x :: l).
Lemma sub_tail x a l : sub (x :: a) l -> exists y l', l = y :: l' /\ sub a l'.
Proof.
  intros H. remember (x :: a) as xa eqn:E. revert x a E. induction H as [l|y b l H IH|y b l H IH]; intros x a E; [discriminate| |].
  - injection E as -> ->. exists x, l. auto.
  - subst b. destruct (IH x a eq_refl) as (z & l' & -> & H'). exists y, (z :: l'). split; [reflexivity|]. apply sub_skip; exact H'.
Qed.
Lemma sub_take_inv x a y l : sub (x :: a) (y :: l) -> (x = y /\ sub a l) \/ sub (x :: a) l.
Proof. intros H. inversion H; subst; [left|right]; auto. Qed.

Definition times_ok (times : list Z) (l : list binfo) : Prop := Forall (fun t => t < INVALID_TIMESTAMP) times /\ sub times (map bi_dec (tl l)).
Definition limit (times : list Z) : Z := match times with [] => INVALID_TIMESTAMP | n :: _ => n end.

Lemma cluster_loop_spec times tst : forall fuel s s' o o0,
  fst (s main) <> [] -> snd (s main) = O -> inv s o0 -> times_ok times (fst (s main)) ->
  cluster_loop w fuel (limit times) tst order main s = Ok (Some (s', o)) ->
  inv s' (o0 ++ o) /\ snd (s' main) = O /\
  match times with
  | [] => fst (s' main) = [] /\ forall t, In t order -> fst (s' t) = []
  | _ :: times => fst (s' main) <> [] /\ times_ok times (fst (s' main))
  end.
Proof.
  intros fuel. induction fuel as [|f IH]; intros s s' o o0 Hne Hs Hi Ht H; cbn [cluster_loop] in H;
    destruct (fst (s main)) as [|b l] eqn:El; try contradiction; [discriminate|].
  assert (Hm : limit times <= INVALID_TIMESTAMP).
  { destruct Ht as [Ht _]. destruct times as [|x times]; cbn [limit]; [lia|]. apply Forall_cons_iff in Ht. lia. }
  destruct (round w (limit times) tst order main s) as [| | |r] eqn:E1; try discriminate. cbn [bind] in H.
  destruct r as [[[reached s1] o1]|]; [|discriminate].
  destruct (round_spec _ _ _ _ _ _ _ _ _ Hm El Hs Hi E1) as (A1 & A2 & A3 & A4 & A5).
  destruct Ht as [Ht1 Ht2]. cbn [tl] in Ht2.
  assert (Lok : Forall bi_ok l). { destruct (A1 main) as (_ & _ & A6). rewrite A2 in A6. exact A6. }
  destruct reached.
  - injection H as <- <-. split; [exact A1|]. rewrite A2. cbn [fst snd]. split; [reflexivity|].
    symmetry in A3. apply orb_true_iff in A3.
    destruct times as [|x times]; cbn [limit] in *.
    + assert (l = []) as -> by (apply next_dec_inv; [exact Lok|lia]). split; [reflexivity|]. apply A5; reflexivity.
    + destruct l as [|n l]; [inversion Ht2|]. split; [discriminate|].
      cbn [map tl] in *. apply Forall_cons_iff in Ht1. destruct Ht1 as [Hx Ht1]. split; [exact Ht1|]. cbn [tl].
      destruct (sub_take_inv _ _ _ _ Ht2) as [[_ H2]|H2]; [exact H2|].
      destruct (sub_tail _ _ _ H2) as (y & l' & Ey & H3). rewrite Ey. apply sub_skip. exact H3.
  - destruct (cluster_loop w f (limit times) tst order main s1) as [| | |r] eqn:E2; try discriminate. cbn [bind] in H.
    destruct r as [[s2 o2]|]; [|discriminate]. injection H as <- <-.
    symmetry in A3. apply orb_false_iff in A3. destruct A3 as [A3 A3'].
    assert (Hl : l <> []) by (intros ->; cbn [next_dec] in A3; lia).
    rewrite app_assoc. apply IH with s1; [rewrite A2; exact Hl|rewrite A2; reflexivity|exact A1| |exact E2].
    rewrite A2. cbn [fst]. split; [exact Ht1|]. destruct times as [|x times]; [apply sub_nil|]. cbn [limit] in *.
    destruct l as [|n l]; [contradiction|]. cbn [map tl next_dec] in *.
    destruct (sub_take_inv _ _ _ _ Ht2) as [[H1 _]|H2]; [lia|exact H2].
Qed.

Lemma clusters_loop_step fuel t times s : clusters_loop w fuel (t :: times) order main s =
  (do r <- cluster_loop w fuel (limit times) t order main s;
   match r with
   | None => Ok None
   | Some (s, o) => do r <- clusters_loop w fuel times order main s; Ok (match r with None => None | Some (s, c) => Some (s, (t, o) :: c) end)
   end).
Proof. reflexivity. Qed.
Lemma clusters_loop_spec fuel : forall times tst s s' c o0,
  fst (s main) <> [] -> snd (s main) = O -> inv s o0 -> times_ok times (fst (s main)) ->
  clusters_loop w fuel (tst :: times) order main s = Ok (Some (s', c)) ->
  inv s' (o0 ++ concat (map snd c)) /\ (forall t, In t (main :: order) -> fst (s' t) = []) /\ map fst c = tst :: times.
Proof.
  intros times. induction times as [|x times IH]; intros tst s s' c o0 Hne Hs Hi Ht H; rewrite clusters_loop_step in H.
  - destruct (cluster_loop w fuel (limit []) tst order main s) as [| | |r] eqn:E1; try discriminate. cbn [bind clusters_loop] in H.
    destruct r as [[s1 o1]|]; [|discriminate]. cbn [bind] in H. injection H as <- <-.
    destruct (cluster_loop_spec _ _ _ _ _ _ _ Hne Hs Hi Ht E1) as (A1 & A2 & A3 & A4).
    cbn [map snd concat fst]. rewrite app_nil_r. split; [exact A1|]. split; [|reflexivity]. intros t [<-|Hin]; auto.
  - destruct (cluster_loop w fuel (limit (x :: times)) tst order main s) as [| | |r] eqn:E1; try discriminate. cbn [bind] in H.
    destruct r as [[s1 o1]|]; [|discriminate].
    destruct (cluster_loop_spec _ _ _ _ _ _ _ Hne Hs Hi Ht E1) as (A1 & A2 & A3 & A4).
    destruct (clusters_loop w fuel (x :: times) order main s1) as [| | |r] eqn:E2; try discriminate.
    cbn [bind] in H. destruct r as [[s2 c2]|]; [|discriminate]. injection H as <- <-.
    destruct (IH x s1 s2 c2 (o0 ++ o1) A3 A2 A1 A4 E2) as (B1 & B2 & B3).
    cbn [map snd concat fst]. rewrite app_assoc. split; [exact B1|]. split; [exact B2|]. rewrite B3. reflexivity.
Qed.
End P.
