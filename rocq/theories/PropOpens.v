(** C146: streams opened and closed. *)
From Coq Require Import Permutation.
From Verif Require Import Base BaseProofs Tree Stream Dirs DirsProofs Opens OpensSpec OpensProofs.

(** After every history of openings, that may fail at any point, and closings: nothing was deleted or closed twice; the program holds
    the streams it was given and did not close, all different and all there; there are as many nodes as these streams take,
    and the open handles are theirs and those of others. *)
Theorem C146_history : forall others nfd l cs, NoDup others -> Forall (fun n => (n < nfd)%nat) others -> holds_after l cs ->
  exists h held mine, sruns (sstart others nfd) [] l = Ok (h, held) /\ length held = length cs /\ NoDup held /\ (forall k, In k held -> exists x, In (k, x) (h_nodes h)) /\
    length (h_nodes h) = sum (map c_nodes cs) /\ Permutation (h_fds h) (mine ++ others) /\ NoDup (h_fds h) /\ length mine = sum (map c_fds cs).
Proof.
  intros others nfd l cs No Fo H. destruct (history others nfd l cs No Fo H) as (h & held & rs & E & (P & N & _ & F & M & _) & -> & ->). exists h, (map r_id rs), (flat_map fds_of rs).
  split; [exact E|]. split; [rewrite !map_length; reflexivity|]. split; [|split; [|split; [|split; [|split]]]].
  - apply (Permutation_NoDup (Permutation_map Datatypes.fst P)) in N. clear -N. induction rs as [|r rs IH]; [constructor|]. cbn [flat_map map] in *. rewrite map_app in N. constructor; [|apply IH; exact (nodup_tail _ _ N)].
    intros I. apply in_map_iff in I. destruct I as (q & Eq & I). assert (A : In (r_id r) (map Datatypes.fst (nodes_of r))) by (unfold nodes_of; destruct (r_in r); left; reflexivity).
    assert (B : In (r_id r) (map Datatypes.fst (flat_map nodes_of rs))). { rewrite <- Eq. rewrite flat_map_concat_map, concat_map, map_map. apply in_concat. exists (map Datatypes.fst (nodes_of q)). split; [apply in_map_iff; exists q; split; [reflexivity|exact I]|]. unfold nodes_of. destruct (r_in q); left; reflexivity. }
    revert A B N. generalize (map Datatypes.fst (nodes_of r)) as a. intros a A B N. apply in_split in A. destruct A as (a1 & a2 & ->). rewrite <- app_assoc in N. apply nodup_tail in N. cbn [app] in N. inversion N as [|? ? N1 _]; subst. apply N1. apply in_or_app. right. exact B.
  - intros k I. apply in_map_iff in I. destruct I as (r & <- & I). unfold nodes_of in P. destruct (r_in r) as [j|] eqn:J; eexists; apply (Permutation_in _ (Permutation_sym P)); apply in_flat_map; exists r; (split; [exact I|]); rewrite J; left; reflexivity.
  - rewrite (Permutation_length P), sum_flat, map_map. reflexivity.
  - exact F.
  - exact M.
  - rewrite sum_flat, map_map. reflexivity.
Qed.
(** Every history is such. *)
Theorem C146_every : forall l, exists cs, holds_after l cs.
Proof. exact always. Qed.
(** When all is closed, no node is left and only the handles of others are open; this is so whenever the program closes as many streams as it holds, whatever went before. *)
Theorem C146_closed : forall others nfd l cs n, NoDup others -> Forall (fun n => (n < nfd)%nat) others -> holds_after l cs -> (length cs <= n)%nat ->
  exists h, sruns (sstart others nfd) [] (l ++ repeat (SClose 0) n) = Ok (h, []) /\ h_nodes h = [] /\ Permutation (h_fds h) others.
Proof.
  intros others nfd l cs n No Fo H L. assert (H0 : holds_after (l ++ repeat (SClose 0) n) []).
  { revert l cs H L. induction n as [|n IH]; intros l cs H L; [destruct cs; [rewrite app_nil_r; exact H|cbn [length] in L; lia]|].
    cbn [repeat]. change (SClose 0 :: repeat (SClose 0) n) with ([SClose 0] ++ repeat (SClose 0) n). rewrite app_assoc. apply (IH _ (drop_nth 0 cs)); [apply ha_close; exact H|]. destruct cs; cbn [drop_nth length] in *; lia. }
  destruct (C146_history others nfd _ _ No Fo H0) as (h & held & mine & E & Lh & _ & _ & Ln & F & _ & Lm). destruct held; [|discriminate Lh]. destruct mine; [|discriminate Lm]. exists h. split; [exact E|]. split; [|exact F]. destruct (h_nodes h); [reflexivity|discriminate Ln].
Qed.
(** An opening that fails leaves the nodes and handles that were there. *)
Theorem C146_failed : forall others nfd l cs known err takes buffered memory, NoDup others -> Forall (fun n => (n < nfd)%nat) others -> holds_after l cs -> ~ given known err ->
  exists h held h', sruns (sstart others nfd) [] l = Ok (h, held) /\ sstep h held (SOpen known err takes buffered memory) = Ok (h', held) /\ length (h_nodes h') = length (h_nodes h) /\ length (h_fds h') = length (h_fds h).
Proof.
  intros others nfd l cs known err takes buffered memory No Fo H G. destruct (history others nfd l cs No Fo H) as (h & held & rs & E & I & _). destruct (open_ok others h rs known err takes buffered memory I) as (h' & o & E' & _ & K). destruct (K G) as (-> & I').
  exists h, held, h'. split; [exact E|]. split; [cbn [sstep]; rewrite E'; reflexivity|]. destruct I as (P & _ & _ & F & _). destruct I' as (P' & _ & _ & F' & _).
  rewrite (Permutation_length P), (Permutation_length P'), (Permutation_length F), (Permutation_length F'). split; reflexivity.
Qed.
(** A buffered stream, one that fails with its handle open, one whose buffer cannot be made; the first is closed. *)
Example C146_ex : holds_after [SOpen true 0 true true true; SOpen true (-8) true false false; SOpen true (-6) true true false; SClose 0] [mkCost 1 1] /\
  exists h, sruns (sstart [5] 6)%nat [] [SOpen true 0 true true true; SOpen true (-8) true false false; SOpen true (-6) true true false; SClose 0] = Ok (h, [3%nat]) /\ h_nodes h = [(3, NFile (Some 8))]%nat /\ h_fds h = [8; 5]%nat.
Proof.
  split; [|eexists; split; [vm_compute; reflexivity|split; reflexivity]].
  apply (ha_close [_; _; _] [mkCost 2 1; mkCost 1 1] 0). apply (ha_open [_; _] [mkCost 2 1] true (-6) true true false); [|split; [reflexivity|right; reflexivity]].
  apply (ha_fail [_] [mkCost 2 1]); [|intros (_ & [X|X]); discriminate]. apply (ha_open [] [] true 0 true true true); [constructor|split; [reflexivity|left; reflexivity]].
Qed.
Print Assumptions C146_history.
Print Assumptions C146_every.
Print Assumptions C146_closed.
Print Assumptions C146_failed.
