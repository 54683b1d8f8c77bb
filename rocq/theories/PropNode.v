(** C19, C20: node tree links and the child lists of masters. *)
From Coq Require Import Relations Permutation.
From Verif Require Import Base Arr ArrSpec ArrProofs ArrProofs2 NodeTree NodeTreeSpec NodeTreeProofs.

(** A forest used in the examples: 1 has the children 2, 3, 4; 3 has the child 5. *)
Definition ex_calls : list call := [(3, 1, 0); (2, 1, 3); (5, 4, 0); (4, 1, 0); (5, 3, 0)].
Lemma ex_calls_ok : calls_ok empty_forest ex_calls.
Proof. repeat split; try lia; try (left; reflexivity). right. split; [lia|left; reflexivity]. Qed.
Definition ex_heap : heap := match run_calls 10 empty_heap ex_calls with Some h => h | None => empty_heap end.
Definition ex_forest : forest := fold_left call_moves ex_calls empty_forest.
Lemma ex_rep : rep ex_heap ex_forest.
Proof.
  destruct (run_calls_ok ex_calls 10 empty_heap empty_forest rep_empty ex_calls_ok) as (h & E & R).
  - intros p Hp. cbn. lia.
  - unfold ex_heap. rewrite E. exact R.
Qed.
Example ex_forest_shape : ex_forest 1 = [2; 3; 4] /\ ex_forest 3 = [5] /\ ex_forest 4 = [].
Proof. repeat split. Qed.

(** ** C20 *)
(** Any history of set-parent calls leaves links that are exactly the forest obtained by carrying
    out the moves on lists. *)
Theorem C20_history_keeps_forest : forall cs, calls_ok empty_forest cs -> forall fuel, (length cs <= fuel)%nat ->
  exists h, run_calls fuel empty_heap cs = Some h /\ rep h (fold_left call_moves cs empty_forest).
Proof. intros cs H fuel Hf. apply run_calls_ok; [exact rep_empty|exact H|]. intros p _. cbn. lia. Qed.
Example C20_history_ex : calls_ok empty_forest ex_calls /\ map (fold_left call_moves ex_calls empty_forest) [1; 2; 3; 4] = [[2; 3; 4]; []; [5]; []].
Proof. split; [exact ex_calls_ok|reflexivity]. Qed.
Print Assumptions C20_history_keeps_forest.

(** One call, from any consistent state. *)
Theorem C20_set_parent_moves : forall fuel h F x parent b, rep h F -> call_ok F (x, parent, b) -> (forall p, p <> 0 -> (length (F p) <= fuel)%nat) ->
  exists h', set_parent fuel h x parent b = Some h' /\ rep h' (moved F x parent b).
Proof. exact set_parent_ok. Qed.
Example C20_set_parent_ex : rep ex_heap ex_forest /\ call_ok ex_forest (5, 1, 3) /\ moved ex_forest 5 1 3 1 = [2; 5; 3; 4] /\ moved ex_forest 5 1 3 3 = [].
Proof. split; [exact ex_rep|]. split; [split; [lia|right; split; [lia|right; left; reflexivity]]|]. split; reflexivity. Qed.
Print Assumptions C20_set_parent_moves.

(** What consistent links mean for a user walking them: every child has one parent and one place. *)
Theorem C20_listed_once : forall h F, rep h F -> forall c, c <> 0 ->
  (n_par (h c) = 0 -> forall p, p <> 0 -> ~ In c (F p)) /\
  (n_par (h c) <> 0 -> exists l1 l2, F (n_par (h c)) = l1 ++ c :: l2 /\ ~ In c l1 /\ ~ In c l2 /\ n_next (h c) = hd 0 l2 /\
    forall p, p <> 0 -> p <> n_par (h c) -> ~ In c (F p)).
Proof.
  intros h F R c Hc. split.
  - intros H0 p Hp Hi. apply (rep_par h F R p c Hp) in Hi. lia.
  - intros Hp. assert (Hi : In c (F (n_par (h c)))) by (apply (rep_par h F R); auto).
    pose proof (rep_nodup h F R _ Hp) as Hn. pose proof (rep_chain h F R _ Hp) as Hch.
    destruct (in_split _ _ Hi) as (l1 & l2 & El). exists l1, l2. rewrite El in Hn, Hch. split; [exact El|].
    apply NoDup_remove_2 in Hn. split; [intros H; apply Hn, in_or_app; auto|]. split; [intros H; apply Hn, in_or_app; auto|].
    split; [exact (chain_hd _ _ _ (chain_suffix h l2 l1 _ c Hch))|].
    intros q Hq Hqp H. apply (rep_par h F R q c Hq) in H. lia.
Qed.
Example C20_listed_once_ex : rep ex_heap ex_forest /\ n_par (ex_heap 3) = 1 /\ n_next (ex_heap 3) = 4 /\ n_par (ex_heap 1) = 0.
Proof. split; [exact ex_rep|]. vm_compute. auto. Qed.
Print Assumptions C20_listed_once.

(** As long as no node is put under itself or a descendant, no node becomes its own ancestor. *)
Theorem C20_no_cycles : forall cs, calls_sane empty_forest cs -> acyclic (fold_left call_moves cs empty_forest).
Proof. intros cs H. apply calls_acyclic; [exact empty_acyclic|exact H]. Qed.
Example C20_no_cycles_ex : calls_sane empty_forest [(2, 1, 0); (3, 2, 0)].
Proof.
  split; [|split; [|exact I]].
  - intros H. apply clos_rt_rt1n in H. inversion H as [|y z Hy Hr]; destruct Hy as [_ []].
  - intros H. apply clos_rt_rt1n in H. inversion H as [|y z Hy Hr]; destruct Hy as [_ []].
Qed.
Print Assumptions C20_no_cycles.

(** The library itself does not check this: a cycle can be made. *)
Theorem C20_cycle_possible_refuted : exists cs h, calls_ok empty_forest cs /\ run_calls 5 empty_heap cs = Some h /\ n_par (h 1) = 2 /\ n_par (h 2) = 1.
Proof.
  exists [(2, 1, 0); (1, 2, 0)]. eexists. split; [repeat split; try lia; left; reflexivity|]. split; [reflexivity|]. vm_compute. auto.
Qed.
Print Assumptions C20_cycle_possible_refuted.

(** With a sibling from another parent (only an assertion guards this) a node ends up in two lists. *)
Theorem C20_foreign_sibling_refuted : exists h, run_calls 5 empty_heap [(3, 2, 0); (4, 1, 3)] = Some h /\
  n_kids (h 1) = 4 /\ n_next (h 4) = 3 /\ n_kids (h 2) = 3 /\ n_par (h 3) = 2.
Proof. eexists. split; [reflexivity|]. vm_compute. auto. Qed.
Print Assumptions C20_foreign_sibling_refuted.

Theorem C20_clear_detaches : forall fuel h F p, rep h F -> p <> 0 -> (forall q, q <> 0 -> (length (F q) <= fuel)%nat) ->
  exists h', tree_clear fuel h p = Some h' /\ rep h' (fun q => if q =? p then [] else remove Z.eq_dec p (F q)).
Proof.
  intros fuel h F p R Hp Hf. destruct (tree_clear_ok fuel h F p R Hp Hf) as (h' & E & R'). exists h'. split; [exact E|].
  eapply rep_ext; [exact R'|]. intros q _. unfold detached, emptied. destruct (q =? p); reflexivity.
Qed.
Example C20_clear_ex :
  option_map (fun h' => (n_kids (h' 3), n_par (h' 3), n_par (h' 5), n_next (h' 2))) (tree_clear 10 ex_heap 3) = Some (0, 0, 0, 4).
Proof. vm_compute. reflexivity. Qed.
Print Assumptions C20_clear_detaches.

Theorem C20_move_before : forall fuel h F p x b, rep h F -> p <> 0 -> In x (F p) -> x = b \/ b = 0 \/ In b (F p) -> (length (F p) <= fuel)%nat ->
  exists h', move_before fuel h x b = Some h' /\ rep h' (moved F x p b).
Proof. exact move_before_ok. Qed.
Example C20_move_before_ex : rep ex_heap ex_forest /\ In 4 (ex_forest 1) /\ moved ex_forest 4 1 2 1 = [4; 2; 3].
Proof. split; [exact ex_rep|]. split; [right; right; left; reflexivity|reflexivity]. Qed.
Print Assumptions C20_move_before.

(** ** C19 *)
Theorem C19_find_first : forall fuel h F eid m id, rep h F -> m <> 0 -> (length (F m) <= fuel)%nat ->
  exists x, find_first fuel h eid m id = Some x /\
    ((x = 0 /\ forall y, In y (F m) -> eid y <> id) \/
     exists l1 l2, F m = l1 ++ x :: l2 /\ eid x = id /\ forall y, In y l1 -> eid y <> id).
Proof.
  intros fuel h F eid m id R Hm Hf. exists (first_with eid id (F m)).
  split; [exact (find_elt_ok h eid id (F m) fuel _ (rep_chain h F R m Hm) Hf)|]. clear.
  unfold first_with. induction (F m) as [|y l IH]; cbn [find].
  - left. split; [reflexivity|intros y []].
  - destruct (Z.eqb_spec (eid y) id) as [E|E].
    + right. exists [], l. split; [reflexivity|]. split; [exact E|intros z []].
    + destruct (find (fun x => eid x =? id) l) as [x|].
      * destruct IH as [(-> & IH)|(l1 & l2 & -> & IH1 & IH2)].
        -- left. split; [reflexivity|]. intros z [<-|Hz]; auto.
        -- right. exists (y :: l1), l2. split; [reflexivity|]. split; [exact IH1|]. intros z [<-|Hz]; auto.
      * destruct IH as [(_ & IH)|(l1 & l2 & -> & IH1 & IH2)].
        -- left. split; [reflexivity|]. intros z [<-|Hz]; auto.
        -- right. exists (y :: l1), l2. split; [reflexivity|]. split; [exact IH1|]. intros z [<-|Hz]; auto.
Qed.
Example C19_find_first_ex : rep ex_heap ex_forest /\ find_first 10 ex_heap (fun x => x / 3) 1 1 = Some 3 /\ find_first 10 ex_heap (fun x => x) 1 5 = Some 0.
Proof. split; [exact ex_rep|]. vm_compute. auto. Qed.
Print Assumptions C19_find_first.

Theorem C19_find_next : forall fuel h F eid m cur l1 l2, rep h F -> m <> 0 -> F m = l1 ++ cur :: l2 -> (length (F m) <= fuel)%nat ->
  exists x, find_next_elt fuel h eid cur = Some x /\
    ((x = 0 /\ forall y, In y l2 -> eid y <> eid cur) \/
     exists l3 l4, l2 = l3 ++ x :: l4 /\ eid x = eid cur /\ forall y, In y l3 -> eid y <> eid cur).
Proof.
  intros fuel h F eid m cur l1 l2 R Hm El Hf. exists (first_with eid (eid cur) l2).
  split; [exact (find_next_elt_ok fuel h F eid m cur l1 l2 R Hm El Hf)|]. clear. generalize (eid cur). intros id.
  unfold first_with. induction l2 as [|y l IH]; cbn [find].
  - left. split; [reflexivity|intros y []].
  - destruct (Z.eqb_spec (eid y) id) as [E|E].
    + right. exists [], l. split; [reflexivity|]. split; [exact E|intros z []].
    + destruct (find (fun x => eid x =? id) l) as [x|].
      * destruct IH as [(-> & IH)|(l3 & l4 & -> & IH1 & IH2)].
        -- left. split; [reflexivity|]. intros z [<-|Hz]; auto.
        -- right. exists (y :: l3), l4. split; [reflexivity|]. split; [exact IH1|]. intros z [<-|Hz]; auto.
      * destruct IH as [(_ & IH)|(l3 & l4 & -> & IH1 & IH2)].
        -- left. split; [reflexivity|]. intros z [<-|Hz]; auto.
        -- right. exists (y :: l3), l4. split; [reflexivity|]. split; [exact IH1|]. intros z [<-|Hz]; auto.
Qed.
Example C19_find_next_ex : rep ex_heap ex_forest /\ find_next_elt 10 ex_heap (fun x => x mod 2) 2 = Some 4 /\ find_next_elt 10 ex_heap (fun x => x mod 2) 3 = Some 0.
Proof. split; [exact ex_rep|]. vm_compute. auto. Qed.
Print Assumptions C19_find_next.

Theorem C19_count : forall fuel h F m, rep h F -> m <> 0 -> (length (F m) <= fuel)%nat -> master_count fuel h m = Some (zlen (F m)).
Proof. intros fuel h F m R Hm Hf. unfold master_count. rewrite (collect_ok h (F m) fuel _ (rep_chain h F R m Hm) Hf). reflexivity. Qed.
Example C19_count_ex : rep ex_heap ex_forest /\ master_count 10 ex_heap 1 = Some 3.
Proof. split; [exact ex_rep|reflexivity]. Qed.
Print Assumptions C19_count.

Theorem C19_append_last : forall fuel h F m e, rep h F -> m <> 0 -> e <> 0 -> n_par (h e) = 0 -> (length (F m) <= fuel)%nat ->
  exists h', master_append fuel h m e = Some h' /\ rep h' (fun q => if q =? m then F m ++ [e] else F q).
Proof. exact master_append_ok. Qed.
Example C19_append_last_ex : n_par (ex_heap 9) = 0 /\
  option_map (fun h' => (n_next (h' 4), n_next (h' 9), n_par (h' 9))) (master_append 10 ex_heap 1 9) = Some (9, 0, 1).
Proof. vm_compute. auto. Qed.
Print Assumptions C19_append_last.

Theorem C19_clear_empties : forall fuel h F m, rep h F -> m <> 0 -> (length (F m) <= fuel)%nat ->
  exists h', detach_all fuel h m = Some h' /\ rep h' (fun q => if q =? m then [] else F q) /\ (forall c, In c (F m) -> n_par (h' c) = 0 /\ n_next (h' c) = 0).
Proof.
  intros fuel h F m R Hm Hf. destruct (detach_all_ok m Hm (F m) fuel h F R eq_refl Hf) as (h' & E & R'). exists h'.
  split; [exact E|]. split; [exact R'|]. intros c Hc. apply (rep_par h F R m c Hm) in Hc. destruct Hc as [Hc Hcm].
  assert (H0 : n_par (h' c) = 0).
  { destruct (Z.eq_dec (n_par (h' c)) 0) as [H0|H0]; [exact H0|]. exfalso.
    assert (Hi : In c (emptied F m (n_par (h' c)))) by (apply (rep_par h' _ R'); auto). unfold emptied in Hi.
    destruct (Z.eqb_spec (n_par (h' c)) m) as [_|Hne]; [destruct Hi|]. apply (rep_par h F R _ c H0) in Hi. lia. }
  split; [exact H0|exact (rep_free h' _ R' c Hc H0)].
Qed.
Example C19_clear_empties_ex :
  option_map (fun h' => (n_kids (h' 1), n_next (h' 3), n_kids (h' 3))) (detach_all 10 ex_heap 1) = Some (0, 0, 5).
Proof. vm_compute. reflexivity. Qed.
Print Assumptions C19_clear_empties.

(** Sorting keeps exactly the same children, and orders them when the comparison is an order. *)
Theorem C19_sort_children : forall fuel h F (cmp : Z -> Z -> Z) m, rep h F -> m <> 0 -> (length (F m) <= fuel)%nat -> (forall x, 0 <= cmp x x) ->
  exists r h', master_sort fuel h cmp m = Some h' /\ rep h' (fun q => if q =? m then r else F q) /\ Permutation (F m) r /\
    (total_preorder cmp -> sorted_by cmp r).
Proof.
  intros fuel h F cmp m R Hm Hf Hc. destruct (master_sort_ok fuel h F cmp m R Hm Hf Hc) as (r & h' & Er & Hp & E & R').
  exists r, h'. split; [exact E|]. split; [exact R'|]. split; [exact Hp|]. intros Ht.
  destruct (array_sort_sorted cmp Ht true (F m)) as (r' & Er' & _ & Hs). rewrite Er in Er'. injection Er' as <-. exact Hs.
Qed.
Example C19_sort_children_ex :
  option_map (fun h' => (n_kids (h' 1), map (fun x => n_next (h' x)) [4; 3; 2])) (master_sort 10 ex_heap (fun x y => y - x) 1) = Some (4, [3; 2; 0]).
Proof. vm_compute. reflexivity. Qed.
Print Assumptions C19_sort_children.

(** The default comparison (EbmlCmp, ebmlmaster.c 106-113) calls elements with different IDs equal: it
    is no order, and elements with the same ID can stay unsorted. *)
Definition ebml_cmp (eid val : Z -> Z) (x y : Z) : Z := if eid x =? eid y then val x - val y else 0.
Theorem C19_default_sort_refuted : exists eid val h', rep ex_heap ex_forest /\
  master_sort 10 ex_heap (ebml_cmp eid val) 1 = Some h' /\ collect 10 h' (n_kids (h' 1)) = Some [2; 3; 4] /\ eid 2 = eid 4 /\ val 4 < val 2.
Proof.
  exists (fun x => if x =? 3 then 1 else 0), (fun x => - x).
  assert (H : match master_sort 10 ex_heap (ebml_cmp (fun x => if x =? 3 then 1 else 0) (fun x => - x)) 1 with
              | Some h' => collect 10 h' (n_kids (h' 1)) | None => None end = Some [2; 3; 4]) by (vm_compute; reflexivity).
  destruct (master_sort _ _ _ _) as [h'|]; [|discriminate]. exists h'. split; [exact ex_rep|]. split; [reflexivity|]. split; [exact H|].
  split; [reflexivity|]. lia.
Qed.
Print Assumptions C19_default_sort_refuted.
