(** The statements of the remux in the form of the theorems. *)
From Verif Require Import Base BaseProofs Tree Stream Frame BlockTime Arr ArrSpec ArrProofs ArrProofs2 BlockTimeProofs Remux RemuxSpec RemuxProofs RemuxProofs2 RemuxProofs3 RemuxProofs4 RemuxProofs5.

Lemma limit_next c : limit (map fst c) = next_time c.
Proof. destruct c as [|[t o] c]; reflexivity. Qed.
Lemma each_split P c1 : forall T o c2, each P (c1 ++ (T, o) :: c2) -> P (next_time c2) T o.
Proof.
  induction c1 as [|[t u] c1 IH]; intros T o c2 H; cbn [app each] in H.
  - rewrite <- limit_next. apply H.
  - apply IH, H.
Qed.
Lemma cls_split order main ord l c1 : forall first T o c2, cls_ok order main ord first l (c1 ++ (T, o) :: c2) ->
  cl_ok order main ord (fun b => if match c1 with [] => true | _ => false end then first b else In b l /\ bi_dec b = T) (next_time c2) o.
Proof.
  induction c1 as [|[t u] c1 IH]; intros first T o c2 H; cbn [app cls_ok] in H; destruct H as [H1 H2].
  - rewrite <- limit_next. exact H1.
  - apply IH in H2. destruct c1 as [|[t2 u2] c1]; cbn [app map fst limit] in H2; exact H2.
Qed.
Lemma thin_stuck a i prev t : nth_error a i = Some t ->
  negb (prev =? INVALID_TIMESTAMP) && (t <? prev + 1000000000) && match nth_error a (S i) with Some n => n <? prev + 2000000000 | None => false end = true ->
  array_remove timcode_cmp a t = Some (a, false) -> forall fuel, thin fuel a i prev = Fuel.
Proof.
  intros H1 H2 H3 fuel. induction fuel as [|f IH]; cbn [thin]; rewrite H1; [reflexivity|]. rewrite H2, H3. cbn [opt_res bind fst]. exact IH.
Qed.
Lemma strict_same l : StronglySorted Z.lt (map bi_dec l) -> forall a b, In a l -> In b l -> bi_dec a = bi_dec b -> a = b.
Proof.
  induction l as [|x l IH]; intros H a b Ha Hb E; [destruct Ha|]. cbn [map] in H. apply StronglySorted_inv in H. destruct H as [H1 H2].
  rewrite Forall_forall in H2. destruct Ha as [<-|Ha], Hb as [<-|Hb]; auto.
  - specialize (H2 (bi_dec b) (in_map _ _ _ Hb)). lia.
  - specialize (H2 (bi_dec a) (in_map _ _ _ Ha)). lia.
Qed.
Lemma key_in l T : In T (key_times l) -> exists b, In b l /\ k_key (bi_blk b) = true /\ bi_dec b = T.
Proof. unfold key_times. intros H. apply in_map_iff in H. destruct H as (b & E & H). apply filter_In in H. exists b. tauto. Qed.
Lemma lt_le l : StronglySorted Z.lt l -> in_order l.
Proof. unfold in_order. induction 1 as [|x l H IH HF]; constructor; [exact IH|]. revert HF. apply Forall_impl. intros y. lia. Qed.
