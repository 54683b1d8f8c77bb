(** Proofs about name lists and FourCC texts. *)
From Verif Require Import Base BaseProofs VintProofs TextProofs Tree Arr Str StrSpec StrProofs.

(** ** Name lists *)
Lemma same_comma x y : same_letter x y -> (x = 44 <-> y = 44).
Proof. unfold same_letter. lia. Qed.
Lemma char_at_app (a : list Z) b r : char_at (a ++ b :: r) (zlen a) = Ok b.
Proof.
  unfold char_at, mem_get. pose proof (zlen_nonneg a). pose proof (zlen_nonneg r). rewrite zlen_app, zlen_cons. replace ((zlen a <? 0) || (1 <? 0) || (zlen a + (zlen r + 1) <? zlen a + 1)) with false by lia. cbn [opt_res bind].
  rewrite skipn_app. replace (Z.to_nat (zlen a)) with (length a) by (unfold zlen; lia). rewrite skipn_all, Nat.sub_diag. reflexivity.
Qed.
Lemma tcschr_app a r c : Forall (fun b => b <> c /\ b <> 0) a -> tcschr (a ++ c :: r) c = Ok (Some (c :: r)).
Proof. induction 1 as [|b a [H1 H2] H IH]; cbn [app tcschr]; [rewrite Z.eqb_refl; reflexivity|]. replace (b =? c) with false by lia. replace (b =? 0) with false by lia. exact IH. Qed.
Lemma tcschr_none a t c : c <> 0 -> Forall (fun b => b <> c /\ b <> 0) a -> tcschr (a ++ 0 :: t) c = Ok None.
Proof. intros Hc. induction 1 as [|b a [H1 H2] H IH]; cbn [app tcschr]; [replace (0 =? c) with false by lia; reflexivity|]. replace (b =? c) with false by lia. replace (b =? 0) with false by lia. exact IH. Qed.
Definition item_ok (i : list Z) : Prop := Forall (fun b => 0 < b < 256 /\ b <> 44) i.
Lemma item_text i : item_ok i -> text i.
Proof. apply Forall_impl. intros; lia. Qed.
Lemma item_chr i : item_ok i -> Forall (fun b => b <> 44 /\ b <> 0) i.
Proof. apply Forall_impl. intros; lia. Qed.
Lemma join_text items : Forall item_ok items -> text (join items).
Proof.
  induction 1 as [|i items Hi H IH]; [constructor|]. cbn [join]. destruct items; [apply item_text; exact Hi|]. apply Forall_app. split; [apply item_text; exact Hi|]. constructor; [lia|exact IH].
Qed.
Lemma same_text_sym a b : same_text a b -> same_text b a.
Proof. induction 1 as [|x y a b H H' IH]; constructor; [|exact IH]. unfold same_letter in *. lia. Qed.
Lemma same_length a b : same_text a b -> length a = length b.
Proof. induction 1; cbn [length]; congruence. Qed.
Lemma same_no_comma : forall s a b, item_ok s -> same_text (firstn (length s) (a ++ 44 :: b)) s -> (length s <= length a)%nat.
Proof.
  induction s as [|x s IH]; intros a b Hs H; cbn [length firstn] in *; [lia|]. apply Forall_cons_iff in Hs. destruct Hs as [Hx Hs]. destruct a as [|y a]; cbn [app] in H; inversion H; subst.
  - match goal with K : same_letter _ _ |- _ => apply same_comma in K; lia end.
  - cbn [length]. specialize (IH a b Hs ltac:(assumption)). lia.
Qed.
(** The item at the front of the list and what follows it. *)
Lemma item_here s i d rest full t : item_ok s -> item_ok i -> text full -> full ++ 0 :: t = i ++ d :: rest -> (d = 0 \/ d = 44) ->
  exists c, tcsnicmp_ascii (length s) (full ++ 0 :: t) (s ++ [0]) = Ok c /\
    (c = 0 <-> exists tail, i = firstn (length s) i ++ tail /\ same_text s (firstn (length s) i) /\ (length s <= length i)%nat /\ exists e, char_at (full ++ 0 :: t) (zlen s) = Ok e /\ e = hd d tail).
Proof.
  intros Hs Hi Hf E Hd. destruct (nicmp_gen (length s) full s t [] Hf (item_text _ Hs)) as (c & Ec & Sc). exists c. split; [exact Ec|].
  rewrite (firstn_all s) in Sc. unfold sign_is in Sc.
  assert (F : full = i \/ exists r, full = i ++ 44 :: r).
  { clear -E Hd Hf Hi. revert i Hi E. induction Hf as [|x full Hx Hf IH]; intros [|y i] Hi E; cbn [app] in E; injection E as E1 E2; subst.
    - left. reflexivity.
    - apply Forall_cons_iff in Hi. lia.
    - right. exists full. destruct Hd; [lia|]. subst. reflexivity.
    - apply Forall_cons_iff in Hi. destruct Hi as [_ Hi]. destruct (IH i Hi E2) as [->|(r & ->)]; [left; reflexivity|right; exists r; reflexivity]. }
  assert (T : text (firstn (length s) full)) by (clear -Hf; revert full Hf; induction (length s) as [|n IH]; intros [|x f] Hf; cbn [firstn]; try constructor; inversion Hf; subst; [assumption|apply IH; assumption]).
  assert (C0 : c = 0 <-> same_text (firstn (length s) full) s).
  { rewrite <- (order_eq _ _ T (item_text _ Hs)), <- Sc. split; intros H; [subst; reflexivity|apply Z.compare_eq; exact H]. }
  assert (K : same_text (firstn (length s) full) s <-> same_text s (firstn (length s) i) /\ (length s <= length i)%nat).
  { split.
    - intros H. assert (L : (length s <= length i)%nat).
      { destruct F as [->|(r & ->)]; [|exact (same_no_comma s i r Hs H)]. apply same_length in H. rewrite firstn_length in H. lia. }
      split; [|exact L]. apply same_text_sym. destruct F as [->|(r & ->)]; [exact H|]. rewrite firstn_app in H. replace (length s - length i)%nat with 0%nat in H by lia. cbn [firstn] in H. rewrite app_nil_r in H. exact H.
    - intros [H L]. apply same_text_sym in H. destruct F as [->|(r & ->)]; [exact H|]. rewrite firstn_app. replace (length s - length i)%nat with 0%nat by lia. cbn [firstn]. rewrite app_nil_r. exact H. }
  rewrite C0, K. split.
  - intros [H L]. exists (skipn (length s) i). rewrite firstn_skipn. repeat split; try assumption. exists (hd d (skipn (length s) i)). split; [|reflexivity].
    rewrite E. replace (i ++ d :: rest) with (firstn (length s) i ++ (skipn (length s) i ++ d :: rest)) by (rewrite app_assoc, firstn_skipn; reflexivity).
    replace (zlen s) with (zlen (firstn (length s) i)) by (unfold zlen; rewrite firstn_length; lia). destruct (skipn (length s) i) as [|e tl']; cbn [app hd]; apply char_at_app.
  - intros (tail & _ & H & L & _). split; assumption.
Qed.
Lemma list_index_ok s : item_ok s -> s <> [] -> forall items fuel i0 t, Forall item_ok items -> items <> [] -> (length items <= fuel)%nat ->
  exists r, list_index fuel (s ++ [0]) (zlen s) i0 (join items ++ 0 :: t) = Ok r /\
    ((exists k, r = i0 + Z.of_nat k /\ (exists it, nth_error items k = Some it /\ names s it) /\ forall j it, (j < k)%nat -> nth_error items j = Some it -> ~ names s it) \/
     (r = -1 /\ forall it, In it items -> ~ names s it)).
Proof.
  intros Hs Hn. induction items as [|i items IH]; intros fuel i0 t H Hne Hf; [contradiction|]. cbn [length] in Hf. destruct fuel as [|fuel]; [lia|]. apply Forall_cons_iff in H. destruct H as [Hi H].
  cbn [list_index]. replace (Z.to_nat (zlen s)) with (length s) by (unfold zlen; lia).
  assert (Ed : exists d rest, join (i :: items) ++ 0 :: t = i ++ d :: rest /\ (d = 0 \/ d = 44)).
  { cbn [join]. destruct items; [exists 0, t; split; [reflexivity|left; reflexivity]|]. exists 44, (join (l :: items) ++ 0 :: t). split; [rewrite <- app_assoc; reflexivity|right; reflexivity]. }
  destruct Ed as (d & rest & Ed & Hd).
  destruct (item_here s i d rest (join (i :: items)) t Hs Hi (join_text _ (Forall_cons _ Hi H)) Ed Hd) as (c & Ec & Hc). rewrite Ec. cbn [bind].
  assert (NX : ~ names s i -> exists r, (do p <- tcschr (join (i :: items) ++ 0 :: t) 44; match p with Some r => list_index fuel (s ++ [0]) (zlen s) (i0 + 1) (tl r) | None => Ok (-1) end) = Ok r /\
    ((exists k, r = i0 + Z.of_nat k /\ (exists it, nth_error (i :: items) k = Some it /\ names s it) /\ forall j it, (j < k)%nat -> nth_error (i :: items) j = Some it -> ~ names s it) \/
     (r = -1 /\ forall it, In it (i :: items) -> ~ names s it))).
  { intros N. destruct items as [|i2 items].
    - cbn [join]. rewrite tcschr_none by (lia || apply item_chr; exact Hi). cbn [bind]. eexists. split; [reflexivity|]. right. split; [reflexivity|]. intros it [->|[]]. exact N.
    - change (join (i :: i2 :: items)) with (i ++ 44 :: join (i2 :: items)). rewrite <- app_assoc. cbn [app]. rewrite tcschr_app by (apply item_chr; exact Hi). cbn [bind tl].
      destruct (IH fuel (i0 + 1) t H ltac:(discriminate) ltac:(lia)) as (r & Er & Hr). exists r. split; [exact Er|]. destruct Hr as [(k & -> & Hk & Hm)|[-> Hm]].
      + left. exists (S k). split; [lia|]. split; [exact Hk|]. intros [|j] it Hj Hit; [injection Hit as <-; exact N|]. apply (Hm j it); [lia|exact Hit].
      + right. split; [reflexivity|]. intros it [->|Hit]; [exact N|]. apply Hm. exact Hit. }
  assert (LS : (0 < length s)%nat) by (destruct s; [contradiction|cbn [length]; lia]).
  destruct (c =? 0) eqn:E0.
  - apply Z.eqb_eq in E0. apply Hc in E0. destruct E0 as (tail & Et & Hsm & Hl & e & Ee & He). rewrite Ee. cbn [bind].
    assert (Hst : Forall (fun b => 0 < b < 256 /\ b <> 44) tail) by (red in Hi; rewrite Et in Hi; apply Forall_app in Hi; destruct Hi; assumption).
    destruct ((e =? 0) || (e =? 44) || (e =? 32)) eqn:Eb.
    + eexists. split; [reflexivity|]. left. exists 0%nat. split; [lia|]. split; [|intros; lia]. exists i. split; [reflexivity|]. destruct tail as [|e' tail].
      * left. rewrite app_nil_r in Et. rewrite Et. exact Hsm.
      * cbn [hd] in He. subst e'. apply Forall_cons_iff in Hst. right. exists (firstn (length s) i), tail. split; [|exact Hsm]. rewrite Et at 1. replace e with 32 by lia. reflexivity.
    + apply NX. intros [N|(name & note & N1 & N2)].
      * apply same_length in N. destruct tail as [|e' tail]; [cbn [hd] in He; lia|]. apply (f_equal (@length Z)) in Et. rewrite app_length, firstn_length in Et. cbn [length] in Et. lia.
      * apply same_length in N2. subst i. rewrite N2, firstn_app, firstn_all, Nat.sub_diag in Et. cbn [firstn] in Et. rewrite app_nil_r in Et. apply app_inv_head in Et. subst tail. cbn [hd] in He. lia.
  - apply NX. intros N. apply Z.eqb_neq in E0. apply E0, Hc. clear Hc Ec E0 NX IH.
    assert (Q : exists tail, i = firstn (length s) i ++ tail /\ same_text s (firstn (length s) i) /\ (length s <= length i)%nat).
    { destruct N as [N|(name & note & N1 & N2)].
      - exists []. pose proof (same_length _ _ N) as L. rewrite L, firstn_all, app_nil_r. repeat split; [exact N|lia].
      - pose proof (same_length _ _ N2) as L. exists (32 :: note). subst i. rewrite L, firstn_app, firstn_all, Nat.sub_diag. cbn [firstn]. rewrite app_nil_r. repeat split; [exact N2|rewrite app_length; lia]. }
    destruct Q as (tail & Q1 & Q2 & Q3). exists tail. repeat split; try assumption. exists (hd d tail). split; [|reflexivity].
    rewrite Ed, Q1 at 1. rewrite <- app_assoc. replace (zlen s) with (zlen (firstn (length s) i)) by (unfold zlen; rewrite firstn_length; lia). destruct tail as [|e tl']; cbn [app hd]; apply char_at_app.
Qed.
