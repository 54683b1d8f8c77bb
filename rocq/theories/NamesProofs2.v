(** Proofs about dotted expressions. *)
From Verif Require Import Base BaseProofs Tree Str StrSpec StrProofs StrProofs2 Names NamesSpec NamesProofs.

Lemma name_run_app a r : Forall (fun c => is_name c = true) a -> match r with [] => True | c :: _ => is_name c = false end -> name_run (a ++ r) = (a, r).
Proof.
  intros A R. induction A as [|c a C A IH]; cbn [app name_run].
  - destruct r as [|c r]; [reflexivity|]. cbn. rewrite R. reflexivity.
  - rewrite C, IH. reflexivity.
Qed.
Lemma name_run_spec e a r : name_run e = (a, r) -> e = a ++ r /\ Forall (fun c => is_name c = true) a /\ match r with [] => True | c :: _ => is_name c = false end.
Proof.
  revert a r. induction e as [|c e IH]; intros a r; cbn [name_run].
  - intros [= <- <-]. repeat split; auto.
  - destruct (is_name c) eqn:C.
    + destruct (name_run e) as [a1 r1]. intros [= <- <-]. destruct (IH a1 r1 eq_refl) as (-> & A & R). repeat split; auto.
    + intros [= <- <-]. repeat split; auto.
Qed.
Lemma firstn_short {A} (l : list A) n : (length l <= n)%nat -> firstn n l = l.
Proof. apply firstn_all2. Qed.
Lemma read_dot n r : can_stand n -> read_name (n ++ 46 :: r) = (n, r, true).
Proof.
  intros (_ & L & N). unfold read_name. rewrite name_run_app; auto. rewrite firstn_short; [reflexivity|]. unfold zlen in L. lia.
Qed.
Lemma read_stop n r : can_stand n \/ n = [] -> stops r -> read_name (n ++ r) = (n, r, false).
Proof.
  intros N R. unfold read_name. rewrite name_run_app.
  - rewrite firstn_short. 2: { destruct N as [(_ & L & _)| ->]; [unfold zlen in L; lia|cbn; lia]. }
    destruct r as [|c r]; [reflexivity|]. destruct R as (_ & R).
    destruct c as [|c|c]; try reflexivity. do 6 (destruct c as [c|c|]; try reflexivity). congruence.
  - destruct N as [(_ & _ & N)| ->]; auto.
  - destruct r as [|c r]; [exact I|]. apply R.
Qed.
Lemma read_used e tok r dot : read_name e = (tok, r, dot) ->
  exists used, e = used ++ r /\ Forall (fun c => is_name c = true \/ c = 46) used /\ (length used > 0 \/ (dot = false /\ tok = []))%nat /\
  Forall (fun c => is_name c = true) tok.
Proof.
  unfold read_name. destruct (name_run e) as [a r0] eqn:E. apply name_run_spec in E. destruct E as (-> & A & R).
  assert (A' : Forall (fun c => is_name c = true \/ c = 46) a) by (eapply Forall_impl; [|exact A]; auto).
  assert (T : Forall (fun c => is_name c = true) (firstn 31 a)).
  { apply Forall_forall. intros c C. rewrite Forall_forall in A. apply A. apply (In_nth _ _ 0) in C. destruct C as (i & I & <-).
    rewrite firstn_length in I. rewrite <- (firstn_skipn 31 a) at 2. apply in_or_app. left. apply nth_In. rewrite firstn_length. auto. }
  assert (G : (firstn 31 a, r0, false) = (tok, r, dot) ->
    exists used, a ++ r0 = used ++ r /\ Forall (fun c => is_name c = true \/ c = 46) used /\ (length used > 0 \/ (dot = false /\ tok = []))%nat /\
    Forall (fun c => is_name c = true) tok).
  { intros [= <- <- <-]. exists a. split; [auto|]. split; [auto|]. split; [|auto]. destruct a; [auto|cbn; left; lia]. }
  destruct r0 as [|c r0]; [exact G|].
  destruct (Z.eq_dec c 46) as [->|N].
  - intros [= <- <- <-]. exists (a ++ [46]). rewrite <- app_assoc. split; [auto|]. split; [apply Forall_app; auto|]. split; [|auto].
    left. rewrite app_length. cbn. lia.
  - intros H. apply G. rewrite <- H. destruct c as [|c|c]; try reflexivity. do 6 (destruct c as [c|c|]; try reflexivity). congruence.
Qed.

Lemma node_at_app t p q : node_at t (p ++ q) = match node_at t p with Some k => node_at k q | None => None end.
Proof.
  revert t. induction p as [|i p IH]; intros t; cbn; [reflexivity|]. destruct (nth_error (kids_of t) i); [apply IH|reflexivity].
Qed.
Lemma node_at_removelast t p k : node_at t p = Some k -> p <> [] -> exists k', node_at t (removelast p) = Some k'.
Proof.
  intros E N. rewrite (app_removelast_last O N), node_at_app in E. destruct (node_at t (removelast p)) as [k'|]; [eauto|discriminate].
Qed.
Lemma texts_at t p k : texts_only t -> node_at t p = Some k -> texts_only k.
Proof. intros T E q k' s H. apply (T (p ++ q)). rewrite node_at_app, E. auto. Qed.
Lemma is_name_text n : Forall (fun c => is_name c = true) n -> text n.
Proof. intros N. eapply Forall_impl; [|exact N]. intros c. cbn. unfold is_name. lia. Qed.

Section F.
Context (root : ntree) (single : list Z -> option place) (class : Z) (want : bool).
Notation find := (find_param root single class want).

Lemma find_ends e : forall fuel base, (length e < fuel)%nat -> exists r, find fuel base e = Ok r.
Proof.
  remember (length e) as n eqn:En. assert (Le : (length e <= n)%nat) by lia. clear En. revert e Le.
  induction n as [|n IH]; intros e Le fuel base F; (destruct fuel as [|fuel]; [lia|]); cbn [find_param];
    destruct (read_name e) as [[tok r] dot] eqn:R; pose proof (read_used _ _ _ _ R) as (used & Eu & _ & U & _).
  - destruct e; [|cbn in Le; lia]. destruct used; [|discriminate]. destruct U as [U|(-> & ->)]; [cbn in U; lia|].
    destruct (match base with Some p => _ | None => None end) as [[p t]|]; cbn [negb andb]; [|eauto].
    destruct (want && a_default (attrs_of t)); [eauto|]. destruct (a_is (attrs_of t) class); eauto.
  - assert (K : forall b, (length used > 0)%nat -> exists x, find fuel b r = Ok x).
    { intros b Lu. apply IH; rewrite Eu, app_length in Le; lia. }
    destruct (match match base with Some p => _ | None => None end with Some (p, t) => _ | None => _ end) as [p|]; [eauto|].
    destruct (negb dot && match tok with [] => true | _ => false end) eqn:Q; [eauto|].
    assert (Lu : (length used > 0)%nat).
    { destruct U as [U|(-> & ->)]; [auto|discriminate]. }
    destruct (match base with Some p => _ | None => None end) as [[p t]|].
    + destruct (same tok text_parent); [destruct p; [eauto|apply K; auto]|]. destruct (find_child tok t); [apply K; auto|eauto].
    + destruct (single tok); [apply K; auto|eauto].
Qed.

(** What is found is there and is what was asked for. *)
Lemma find_found fuel base e p r : texts_only root -> (forall n q, single n = Some q -> exists t, node_at root q = Some t) ->
  (forall q, base = Some q -> exists t, node_at root q = Some t) ->
  find fuel base e = Ok (Some (p, r)) ->
  exists t used, node_at root p = Some t /\ e = used ++ r /\ Forall (fun c => is_name c = true \/ c = 46) used /\
    (a_is (attrs_of t) class = true \/ want = true /\ (a_default (attrs_of t) = true \/ exists tok, Forall (fun c => is_name c = true) tok /\ a_def (attrs_of t) tok = true)).
Proof.
  intros T Sg. revert base e. induction fuel as [|fuel IH]; intros base e B; cbn [find_param]; [discriminate|].
  destruct (read_name e) as [[tok r1] dot] eqn:R. pose proof (read_used _ _ _ _ R) as (used & Eu & Fu & _ & Ft).
  assert (Go : forall b, (forall q, b = Some q -> exists t, node_at root q = Some t) -> find fuel b r1 = Ok (Some (p, r)) ->
    exists t used, node_at root p = Some t /\ e = used ++ r /\ Forall (fun c => is_name c = true \/ c = 46) used /\
    (a_is (attrs_of t) class = true \/ want = true /\ (a_default (attrs_of t) = true \/ exists tok, Forall (fun c => is_name c = true) tok /\ a_def (attrs_of t) tok = true))).
  { intros b Hb Hf. destruct (IH b r1 Hb Hf) as (t & used1 & N & Eu1 & Fu1 & X). exists t, (used ++ used1).
    split; [auto|]. split; [rewrite Eu, Eu1, app_assoc; auto|]. split; [apply Forall_app; auto|auto]. }
  assert (Here : forall q t, node_at root q = Some t -> Ok (Some (q, r1)) = Ok (Some (p, r)) ->
     (a_is (attrs_of t) class = true \/ want = true /\ (a_default (attrs_of t) = true \/ exists tok, Forall (fun c => is_name c = true) tok /\ a_def (attrs_of t) tok = true)) ->
    exists t used, node_at root p = Some t /\ e = used ++ r /\ Forall (fun c => is_name c = true \/ c = 46) used /\
    (a_is (attrs_of t) class = true \/ want = true /\ (a_default (attrs_of t) = true \/ exists tok, Forall (fun c => is_name c = true) tok /\ a_def (attrs_of t) tok = true))).
  { intros q t N [= <- <-] X. exists t, used. auto. }
  destruct base as [q|].
  - destruct (B q eq_refl) as (t & N). rewrite N.
    destruct dot; cbn [negb andb].
    + destruct (same tok text_parent).
      * destruct q as [|i q]; [discriminate|]. apply Go. intros q' [= <-]. exact (node_at_removelast root (i :: q) t N ltac:(discriminate)).
      * pose proof (find_child_spec tok t (is_name_text _ Ft) (texts_at _ _ _ T N)) as S. destruct (find_child tok t) as [p'|]; [|discriminate].
        apply Go. intros q' [= <-]. rewrite node_at_app, N. destruct S as (S & _). eapply goes_by_at; eauto.
    + destruct tok as [|c tok].
      * destruct want eqn:W; cbn [andb].
        -- destruct (a_default (attrs_of t)) eqn:D; [intros H; apply (Here q t N H); auto|]. destruct (a_is (attrs_of t) class) eqn:C; [intros H; apply (Here q t N H); auto|discriminate].
        -- destruct (a_is (attrs_of t) class) eqn:C; [intros H; apply (Here q t N H); auto|discriminate].
      * destruct (want && a_def (attrs_of t) (c :: tok)) eqn:D.
        -- apply andb_prop in D. destruct D as (D1 & D2). intros H; apply (Here q t N H). right. split; [auto|]. right. eauto.
        -- destruct (same (c :: tok) text_parent).
           ++ destruct q as [|i q]; [discriminate|]. apply Go. intros q' [= <-]. exact (node_at_removelast root (i :: q) t N ltac:(discriminate)).
           ++ pose proof (find_child_spec (c :: tok) t (is_name_text _ Ft) (texts_at _ _ _ T N)) as S. destruct (find_child (c :: tok) t) as [p'|]; [|discriminate].
              apply Go. intros q' [= <-]. rewrite node_at_app, N. destruct S as (S & _). eapply goes_by_at; eauto.
  - destruct (negb dot && match tok with [] => true | _ => false end); [discriminate|].
    destruct (single tok) as [q|] eqn:Sq; [|discriminate]. apply Go. intros q' [= <-]. eapply Sg; eauto.
Qed.

(** One name and a dot. *)
Lemma find_name fuel p t n q r : texts_only root -> can_stand n -> ~ same_text n text_parent -> node_at root p = Some t -> first_by n t q ->
  find (S fuel) (Some p) (n ++ 46 :: r) = find fuel (Some (p ++ q)) r.
Proof.
  intros T C P N F. cbn [find_param]. rewrite (read_dot n r C), N. cbn [negb andb].
  assert (Tn : text n) by (apply is_name_text; apply C).
  assert (E : same n text_parent = false).
  { destruct (same n text_parent) eqn:E; [|auto]. exfalso. apply P. apply same_ok; auto. apply is_name_text. repeat (apply Forall_cons; [reflexivity|]). constructor. }
  rewrite E, (find_child_first n t q Tn (texts_at _ _ _ T N) F). reflexivity.
Qed.
Lemma find_dotted ns : forall fuel p q r, texts_only root -> Forall (fun n => can_stand n /\ ~ same_text n text_parent) ns -> follows root p ns q ->
  find (length ns + fuel) (Some p) (dotted ns ++ r) = find fuel (Some q) r.
Proof.
  induction ns as [|n ns IH]; intros fuel p q r T A F; inversion F as [|p' t n' q1 ns' r' N F1 F2]; subst; [reflexivity|].
  inversion A as [|x l (A1 & A2) A3]; subst. cbn [length Nat.add]. unfold dotted. cbn [map concat]. rewrite <- !app_assoc. cbn [app].
  rewrite (find_name _ p t n q1 _ T A1 A2 N F1). apply IH; auto.
Qed.
Lemma find_last fuel p t x r : node_at root p = Some t -> want = true -> can_stand x -> a_def (attrs_of t) x = true -> stops r ->
  find (S fuel) (Some p) (x ++ r) = Ok (Some (p, r)).
Proof.
  intros N W C D R. cbn [find_param]. rewrite (read_stop x r (or_introl C) R), N, W. destruct C as (C & _).
  destruct x as [|c x]; [congruence|]. cbn [andb]. rewrite D. reflexivity.
Qed.
Lemma find_itself fuel p t r : node_at root p = Some t -> (want = true /\ a_default (attrs_of t) = true) \/ a_is (attrs_of t) class = true -> stops r ->
  find (S fuel) (Some p) r = Ok (Some (p, r)).
Proof.
  intros N D R. cbn [find_param]. pose proof (read_stop [] r (or_intror eq_refl) R) as E. cbn [app] in E. rewrite E, N.
  destruct D as [(-> & ->)| ->]; [reflexivity|]. destruct (want && a_default (attrs_of t)); reflexivity.
Qed.
Lemma find_parent fuel p i t r : node_at root (p ++ [i]) = Some t ->
  find (S fuel) (Some (p ++ [i])) (text_parent ++ 46 :: r) = find fuel (Some p) r.
Proof.
  intros N. cbn [find_param]. rewrite read_dot.
  2: { split; [discriminate|]. split; [vm_compute; discriminate|]. repeat (apply Forall_cons; [reflexivity|]). constructor. }
  rewrite N. cbn [negb andb].
  assert (E : same text_parent text_parent = true) by (vm_compute; reflexivity). rewrite E, removelast_last.
  destruct (p ++ [i]) eqn:Q; [destruct p; discriminate|]. reflexivity.
Qed.
End F.
