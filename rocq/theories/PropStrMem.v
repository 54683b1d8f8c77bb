(** C135: the storage of string elements, over every history of calls. *)
From Verif Require Import Base Ebml Stream Tree StrMem StrMemSpec StrMemProofs StrMemProofs2 StrMemProofs3.

(** Whatever calls were made, with allocations failing or not, no call frees storage that is not held. *)
Theorem C135_free h m o : happens h m -> step m o <> WrongFree.
Proof. apply step_no_free. Qed.
(** After calls in order, a call in order ends: it reads no storage that is not its own, none past its
    end and none through a NULL pointer. *)
Theorem C135_safe h m o : happens h m -> orderly h = true -> in_order h o = true -> exists m' r, step m o = Done (m', r).
Proof. apply step_done. Qed.
(** A text set is the text told; a text read is the announced bytes up to the first zero. *)
Theorem C135_set m k s m' : ~ In 0 s -> step m (OSet k s true) = Done (m', RCode ERR_NONE) -> tells m' k s.
Proof. apply set_tells. Qed.
Theorem C135_read h m k src ok m' n : happens h m -> orderly h = true -> size_told m k n ->
  step m (ORead k false (Some src) ok) = Done (m', RCode ERR_NONE) ->
  0 <= n <= zlen src /\ exists t, text_of t (firstn (Z.to_nat n) src) /\ tells m' k t.
Proof. apply read_tells. Qed.
(** A copy is a new element that tells the same text. *)
Theorem C135_copy h m k ok m' j t : happens h m -> orderly h = true -> in_order h (OCopy k ok) = true ->
  step m (OCopy k ok) = Done (m', RNew (Some j)) -> tells m k t -> tells m' j t /\ m_elts m j = None.
Proof. apply copy_tells. Qed.
(** Whatever is done to other elements, its copies and its originals among them, and however often it is
    measured, written, copied or asked, an element keeps its text. *)
Theorem C135_apart h m o m' r k t : happens h m -> step m o = Done (m', r) -> target o <> Some k -> tells m k t -> tells m' k t.
Proof. apply others_tell. Qed.
(** When nothing was read over a value and no element without value copied, deleting the elements gives
    all the storage back. *)
Theorem C135_given_back h m : happens h m -> tidy h = true -> (forall k, m_elts m k = None) -> forall b, m_blocks m b = None.
Proof.
  intros H D N b. destruct (happens_tidy h m H D) as (_ & A). destruct (m_blocks m b) eqn:E; [|auto].
  exfalso. destruct (A b) as (k & e & Ek & _); [congruence|]. rewrite N in Ek. discriminate.
Qed.

(** A program: its calls one after the other. *)
Fixpoint steps (m : smem) (h : history) (l : list call) : out (smem * history) :=
  match l with [] => Done (m, h) | o :: l => let! (m, r) := step m o in steps m ((o, r) :: h) l end.
Lemma steps_happen l m h m' h' : happens h m -> steps m h l = Done (m', h') -> happens h' m'.
Proof.
  revert m h. induction l as [|o l IH]; intros m h H; cbn [steps].
  - intros [= <- <-]. auto.
  - destruct (step m o) as [| | |[m1 r]] eqn:E; try discriminate. cbn [obind]. apply IH. econstructor; eauto.
Qed.
(** Without that, no: the storage of a value that is read again is never given back. *)
Theorem C135_given_back_refuted : exists h m, happens h m /\ orderly h = true /\ (forall k, m_elts m k = None) /\ exists b, m_blocks m b <> None.
Proof.
  eexists _, _. split.
  { eapply (steps_happen [OFound None 2; ORead 0 false (Some [97; 98]) true; ORead 0 false (Some [97; 98]) true; ODelete 0]); [constructor|reflexivity]. }
  split; [reflexivity|]. split.
  - intros k. cbn. unfold put. destruct k; reflexivity.
  - exists 0%nat. cbn. discriminate.
Qed.
(** The copy of an element without value cannot be asked for its text, although the element can. *)
Theorem C135_copy_refuted : exists h m m' j, happens h m /\ step m (OCopy 0 true) = Done (m', RNew (Some j)) /\
  tells m 0 [] /\ step m' (OGet j) = WrongRead.
Proof.
  eexists _, _, _, _. split.
  { eapply (steps_happen [OCreate None false true]); [constructor|reflexivity]. }
  split; [reflexivity|]. split; [eexists; reflexivity|reflexivity].
Qed.
(** An element with a default whose data was skipped cannot be written with its default. *)
Theorem C135_default_refuted d n : exists m,
  happens [(ORead 0 true None true, RCode ERR_NONE); (OFound (Some d) n, RNew (Some 0%nat))] m /\ step m (ORender 0 true) = NullRead.
Proof.
  eexists _. split.
  { eapply (steps_happen [OFound (Some d) n; ORead 0 true None true]); [constructor|reflexivity]. }
  reflexivity.
Qed.
(** An element whose new text found no storage keeps the mark of a value, and cannot be written. *)
Theorem C135_memory_refuted s t : t <> [] -> exists m,
  happens [(OSet 0 t false, RCode ERR_OUT_OF_MEMORY); (OSet 0 s true, RCode ERR_NONE); (OCreate None false true, RNew (Some 0%nat))] m /\
  step m (ORender 0 false) = NullRead.
Proof.
  intros Ht. eexists _. split.
  { eapply (steps_happen [OCreate None false true; OSet 0 s true; OSet 0 t false]); [constructor|reflexivity]. }
  cbn. destruct t; [congruence|]. reflexivity.
Qed.

(** An element read from a file, copied, the copy changed, both written, both deleted. *)
Definition ex_calls : list call :=
  [OFound (Some [101]) 3; ORead 0 false (Some [97; 98; 99; 100]) true; OCopy 0 true; OSet 1 [120] true; OGet 0; OGet 1;
   ORender 0 true; OUpdate 1 false; ORender 1 false; OSet 0 [101] true; ORender 0 false; ODelete 0; ODelete 1].
Definition ex_end : smem * history := match steps sm_start [] ex_calls with Done p => p | _ => (sm_start, []) end.
Lemma ex_happens : happens (snd ex_end) (fst ex_end).
Proof. apply (steps_happen ex_calls sm_start []); [constructor|]. vm_compute. reflexivity. Qed.
Example C135_ex : happens (snd ex_end) (fst ex_end) /\ orderly (snd ex_end) = true /\ tidy (snd ex_end) = true /\
  map snd (rev (snd ex_end)) =
    [RNew (Some 0%nat); RCode 0; RNew (Some 1%nat); RCode 0; RText [97; 98; 99]; RText [120];
     RBytes (Some [97; 98; 99]); RSize 1; RBytes (Some [120]); RCode 0; RBytes None; RNone; RNone].
Proof. split; [apply ex_happens|]. vm_compute. auto. Qed.
(** Four blocks were given out, and all are given back. *)
Example C135_ex_empty : m_next (fst ex_end) = 4%nat /\ (forall k, m_elts (fst ex_end) k = None) /\ forall b, m_blocks (fst ex_end) b = None.
Proof.
  assert (N : forall k, m_elts (fst ex_end) k = None).
  { intros k. destruct k as [|[|k]]; vm_compute; reflexivity. }
  split; [vm_compute; reflexivity|]. split; [exact N|].
  apply (C135_given_back (snd ex_end)); [apply ex_happens|vm_compute; reflexivity|exact N].
Qed.

Print Assumptions C135_free.
Print Assumptions C135_safe.
Print Assumptions C135_set.
Print Assumptions C135_read.
Print Assumptions C135_copy.
Print Assumptions C135_apart.
Print Assumptions C135_given_back.
Print Assumptions C135_given_back_refuted.
Print Assumptions C135_copy_refuted.
Print Assumptions C135_default_refuted.
Print Assumptions C135_memory_refuted.
