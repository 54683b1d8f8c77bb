From Coq Require Import Permutation.
From Verif Require Import Base BaseProofs Tree Stream Dirs DirsProofs Opens OpensSpec.

Record root := mkRoot { r_id : nat; r_fd : option nat; r_in : option nat }.
Definition nodes_of (r : root) : list (nat * snode) :=
  match r_in r with None => [(r_id r, NFile (r_fd r))] | Some j => [(r_id r, NBuf (Some j)); (j, NFile (r_fd r))] end.
Definition fds_of (r : root) : list nat := match r_fd r with Some n => [n] | None => [] end.
Definition cost_of (r : root) : cost := mkCost (length (nodes_of r)) (length (fds_of r)).
Notation keys l := (map Datatypes.fst l) (only parsing).

Definition inv (others : list nat) (h : heap) (rs : list root) : Prop :=
  Permutation (h_nodes h) (flat_map nodes_of rs) /\ NoDup (keys (h_nodes h)) /\ Forall (fun k => (k < h_next h)%nat) (keys (h_nodes h)) /\
  Permutation (h_fds h) (flat_map fds_of rs ++ others) /\ NoDup (h_fds h) /\ Forall (fun k => (k < h_nfd h)%nat) (h_fds h).

Lemma take_ok k x : forall l, In (k, x) l -> NoDup (keys l) -> exists l', take k l = Some (x, l') /\ Permutation l ((k, x) :: l').
Proof.
  induction l as [|(j, y) l IH]; [intros []|]. intros H N. cbn [map Datatypes.fst] in N. inversion N as [|? ? N1 N2]; subst. cbn [take]. destruct (Nat.eqb_spec j k) as [->|D].
  - destruct H as [H|H]; [injection H as ->; exists l; split; reflexivity|]. exfalso. apply N1. apply in_map_iff. exists (k, x). split; [reflexivity|exact H].
  - destruct H as [H|H]; [injection H as -> _; contradiction|]. destruct (IH H N2) as (l' & -> & P). exists ((j, y) :: l'). split; [reflexivity|]. rewrite P. apply perm_swap.
Qed.
Lemma close_ok r fds rest : Permutation fds (fds_of r ++ rest) -> exists o, close (r_fd r) fds = Ok o /\ Permutation o rest.
Proof.
  unfold fds_of. destruct (r_fd r) as [n|]; intros P; [|exists fds; split; [reflexivity|exact P]]. cbn [app] in P. cbn [close].
  destruct (remove_one_ok n fds) as (l' & -> & Q); [apply (Permutation_in (l := n :: rest)); [apply Permutation_sym; exact P|left; reflexivity]|].
  exists l'. split; [reflexivity|]. apply Permutation_cons_inv with n. rewrite <- Q. exact P.
Qed.
Lemma nodup_perm {A} (l l' : list A) : Permutation l l' -> NoDup l -> NoDup l'. Proof. apply Permutation_NoDup. Qed.
Lemma forall_perm {A} (P : A -> Prop) l l' : Permutation l l' -> Forall P l -> Forall P l'.
Proof. intros Q H. rewrite Forall_forall in *. intros x X. apply H. apply (Permutation_in x (Permutation_sym Q)). exact X. Qed.
Lemma nodup_tail {A} (a b : list A) : NoDup (a ++ b) -> NoDup b.
Proof. induction a as [|x a IH]; [intros H; exact H|]. intros H. inversion H; subst. apply IH. assumption. Qed.

(** The nodes of one stream, and its handle, are deleted. *)
Lemma delete_ok nodes next fds nfd r rest ofds : Permutation nodes (nodes_of r ++ rest) -> NoDup (keys nodes) -> Permutation fds (fds_of r ++ ofds) ->
  exists n' o', node_delete (length nodes) (mkHeap nodes next fds nfd) (r_id r) = Ok (mkHeap n' next o' nfd) /\ Permutation n' rest /\ Permutation o' ofds.
Proof.
  intros P N F. destruct (close_ok r fds ofds F) as (o' & C & Co). pose proof (Permutation_length P) as L. unfold nodes_of in *. destruct (r_in r) as [j|].
  - cbn [app length] in *. rewrite L. cbn [node_delete h_nodes h_fds h_next h_nfd].
    destruct (take_ok (r_id r) (NBuf (Some j)) nodes) as (l' & -> & Q); [apply (Permutation_in _ (Permutation_sym P)); left; reflexivity|exact N|].
    assert (Q' : Permutation l' ((j, NFile (r_fd r)) :: rest)) by (apply Permutation_cons_inv with (r_id r, NBuf (Some j)); rewrite <- Q; exact P).
    assert (N' : NoDup (keys l')). { apply (nodup_perm _ _ (Permutation_map Datatypes.fst Q)) in N. cbn [map] in N. inversion N; assumption. }
    destruct (take_ok j (NFile (r_fd r)) l') as (l2 & E & Q2); [apply (Permutation_in _ (Permutation_sym Q')); left; reflexivity|exact N'|].
    cbn [node_delete h_nodes h_fds h_next h_nfd]. rewrite E, C. cbn [bind]. exists l2, o'. split; [reflexivity|]. split; [|exact Co].
    apply Permutation_cons_inv with (j, NFile (r_fd r)). rewrite <- Q2. exact Q'.
  - cbn [app length] in *. rewrite L. cbn [node_delete h_nodes h_fds h_next h_nfd].
    destruct (take_ok (r_id r) (NFile (r_fd r)) nodes) as (l' & -> & Q); [apply (Permutation_in _ (Permutation_sym P)); left; reflexivity|exact N|].
    rewrite C. cbn [bind]. exists l', o'. split; [reflexivity|]. split; [|exact Co]. apply Permutation_cons_inv with (r_id r, NFile (r_fd r)). rewrite <- Q. exact P.
Qed.
Lemma delete_inv others h a r b : inv others h (a ++ r :: b) -> exists h', delete_node h (Some (r_id r)) = Ok h' /\ inv others h' (a ++ b).
Proof.
  intros (P & N & B & F & M & D). destruct h as [nodes next fds nfd]. cbn [h_nodes h_next h_fds h_nfd] in *.
  assert (P' : Permutation nodes (nodes_of r ++ flat_map nodes_of (a ++ b))). { rewrite P, !flat_map_app. cbn [flat_map]. rewrite !app_assoc. apply Permutation_app_tail, Permutation_app_comm. }
  assert (F' : Permutation fds (fds_of r ++ (flat_map fds_of (a ++ b) ++ others))). { rewrite F, !flat_map_app. cbn [flat_map]. rewrite !app_assoc. do 2 apply Permutation_app_tail. apply Permutation_app_comm. }
  destruct (delete_ok nodes next fds nfd r _ _ P' N F') as (n' & o' & E & Pn & Po). exists (mkHeap n' next o' nfd). split; [exact E|]. unfold inv. cbn [h_nodes h_next h_fds h_nfd].
  split; [exact Pn|]. pose proof (Permutation_map Datatypes.fst P') as K. rewrite map_app in K. pose proof (Permutation_sym (Permutation_map Datatypes.fst Pn)) as K2.
  split; [apply (nodup_perm _ _ K2); apply (nodup_tail (keys (nodes_of r))); apply (nodup_perm _ _ K); exact N|].
  split; [apply (forall_perm _ _ _ K2); apply (forall_perm _ _ _ K) in B; apply Forall_app in B; apply B|].
  split; [exact Po|]. apply Permutation_sym in Po. split; [apply (nodup_perm _ _ Po); apply (nodup_tail (fds_of r)); apply (nodup_perm _ _ F'); exact M|].
  apply (forall_perm _ _ _ Po). apply (forall_perm _ _ _ F') in D. apply Forall_app in D. apply D.
Qed.

Lemma put_other k x : forall l, Forall (fun j => (j < k)%nat) (keys l) -> map (fun p : nat * snode => if (Datatypes.fst p =? k)%nat then (k, x) else p) l = l.
Proof. induction l as [|(j, y) l IH]; intros H; [reflexivity|]. cbn [map Datatypes.fst] in *. inversion H; subst. replace (j =? k)%nat with false by (symmetry; apply Nat.eqb_neq; lia). rewrite IH by assumption. reflexivity. Qed.
Lemma fresh k l : Forall (fun j => (j < k)%nat) l -> ~ In k l.
Proof. intros H I. rewrite Forall_forall in H. specialize (H k I). lia. Qed.
Lemma forall_up k l : Forall (fun j => (j < k)%nat) l -> Forall (fun j => (j < S k)%nat) l.
Proof. apply Forall_impl. intros j. lia. Qed.

(** A new stream, opened or not. *)
Lemma opened others h rs takes : inv others h rs ->
  let h1 := stream_open (mkHeap ((h_next h, NFile None) :: h_nodes h) (S (h_next h)) (h_fds h) (h_nfd h)) (h_next h) takes in
  exists fd, h1 = mkHeap ((h_next h, NFile fd) :: h_nodes h) (S (h_next h)) ((match fd with Some n => [n] | None => [] end) ++ h_fds h) (h_nfd h1) /\
    inv others h1 (rs ++ [mkRoot (h_next h) fd None]) /\ length (fds_of (mkRoot (h_next h) fd None)) = (if takes then 1%nat else 0%nat).
Proof.
  intros (P & N & B & F & M & D). destruct h as [nodes next fds nfd]. cbn [h_nodes h_next h_fds h_nfd] in *. unfold stream_open, put. cbn [h_nodes h_next h_fds h_nfd].
  pose proof (fresh _ _ B) as I. pose proof (fresh _ _ D) as J. destruct takes.
  - cbn [map Datatypes.fst]. rewrite Nat.eqb_refl, put_other by exact B. exists (Some nfd). split; [reflexivity|]. split; [|reflexivity]. unfold inv. cbn [h_nodes h_next h_fds h_nfd map Datatypes.fst].
    rewrite !flat_map_app. cbn [flat_map nodes_of fds_of r_in r_fd r_id]. rewrite !app_nil_r.
    split; [rewrite P; apply Permutation_cons_append|]. split; [constructor; assumption|]. split; [constructor; [lia|apply forall_up; exact B]|].
    split; [rewrite F, <- app_assoc; apply Permutation_middle|]. split; [constructor; assumption|]. constructor; [lia|apply forall_up; exact D].
  - exists None. split; [reflexivity|]. split; [|reflexivity]. unfold inv. cbn [h_nodes h_next h_fds h_nfd map Datatypes.fst].
    rewrite !flat_map_app. cbn [flat_map nodes_of fds_of r_in r_fd r_id]. rewrite !app_nil_r.
    split; [rewrite P; apply Permutation_cons_append|]. split; [constructor; assumption|]. split; [constructor; [lia|apply forall_up; exact B]|]. split; [exact F|]. split; assumption.
Qed.

Lemma given_dec known err : {given known err} + {~ given known err}.
Proof. destruct known; [|right; intros (H & _); discriminate]. destruct (Z.eq_dec err 0); [left; split; auto|]. destruct (Z.eq_dec err (-6)); [left; split; auto|]. right. intros (_ & [H|H]); contradiction. Qed.
Lemma open_ok others h rs known err takes buffered memory : inv others h rs ->
  exists h' o, open_stream h known err takes buffered memory = Ok (h', o) /\
    (given known err -> exists r, o = Some (r_id r) /\ inv others h' (rs ++ [r]) /\ cost_of r = price takes buffered memory) /\
    (~ given known err -> o = None /\ inv others h' rs).
Proof.
  intros I. unfold open_stream, create. destruct known.
  2: { exists h, None. split; [reflexivity|]. split; [intros (X & _); discriminate|intros _; split; [reflexivity|exact I]]. }
  destruct (opened others h rs takes I) as (fd & E & I1 & Lf). cbv zeta in E. set (h1 := stream_open _ _ _) in *. clearbody h1.
  assert (G : given true err <-> negb (err =? ERR_NONE) && negb (err =? E_NEED_MORE_DATA) = false).
  { unfold given, ERR_NONE, E_NEED_MORE_DATA. split; [intros (_ & [-> | ->]); reflexivity|]. intros X. split; [reflexivity|]. lia. }
  destruct (negb (err =? ERR_NONE) && negb (err =? E_NEED_MORE_DATA)) eqn:K.
  - destruct (delete_inv others h1 rs _ [] I1) as (h' & E' & I'). cbn [r_id] in E'. rewrite E'. cbn [bind]. rewrite app_nil_r in I'. exists h', None. split; [reflexivity|]. split; [intros X; apply G in X; discriminate|]. intros _. split; [reflexivity|exact I'].
  - assert (G1 : given true err) by (apply G; reflexivity).
    assert (plain : price takes buffered memory = mkCost 1 (if takes then 1 else 0) -> exists r, Some (h_next h) = Some (r_id r) /\ inv others h1 (rs ++ [r]) /\ cost_of r = price takes buffered memory).
    { intros ->. exists (mkRoot (h_next h) fd None). split; [reflexivity|]. split; [exact I1|]. unfold cost_of. rewrite Lf. reflexivity. }
    destruct buffered; [destruct memory|].
    + eexists. eexists. split; [reflexivity|]. split; [|intros X; contradiction]. intros _. exists (mkRoot (h_next h1) fd (Some (h_next h))). split; [reflexivity|]. clear plain.
      split; [|unfold cost_of; unfold fds_of in *; cbn [r_fd] in *; rewrite Lf; reflexivity].
      destruct I1 as (P & N & B & F & M & D). unfold inv, put. cbn [h_nodes h_next h_fds h_nfd map Datatypes.fst]. rewrite Nat.eqb_refl, put_other by exact B. cbn [map Datatypes.fst].
      rewrite !flat_map_app in *. cbn [flat_map nodes_of fds_of r_in r_fd r_id] in *. rewrite !app_nil_r in *.
      split; [rewrite P; apply Permutation_trans with ((h_next h1, NBuf (Some (h_next h))) :: flat_map nodes_of rs ++ [(h_next h, NFile fd)]); [reflexivity|apply Permutation_middle]|].
      split; [constructor; [exact (fresh _ _ B)|exact N]|]. split; [constructor; [lia|apply forall_up; exact B]|]. split; [exact F|]. split; assumption.
    + eexists. eexists. split; [reflexivity|]. split; [|intros X; contradiction]. intros _. apply plain. reflexivity.
    + eexists. eexists. split; [reflexivity|]. split; [|intros X; contradiction]. intros _. apply plain. reflexivity.
Qed.

Lemma without_drop {A} : forall i (l : list A), without i l = drop_nth i l.
Proof. unfold without. induction i as [|i IH]; intros [|x l]; try reflexivity. cbn [firstn app drop_nth]. f_equal. apply (IH l). Qed.
Lemma drop_map {A B} (f : A -> B) : forall i l, drop_nth i (map f l) = map f (drop_nth i l).
Proof. induction i as [|i IH]; intros [|x l]; try reflexivity. cbn [map drop_nth]. f_equal. apply IH. Qed.
Lemma drop_past {A} : forall i (l : list A), nth_error l i = None -> drop_nth i l = l.
Proof. induction i as [|i IH]; intros [|x l] H; try reflexivity; try discriminate. cbn [drop_nth]. f_equal. apply IH. exact H. Qed.
Lemma drop_split {A} : forall i (l : list A) x, nth_error l i = Some x -> exists a b, l = a ++ x :: b /\ drop_nth i l = a ++ b.
Proof.
  induction i as [|i IH]; intros [|y l] x H; try discriminate; [injection H as ->; exists [], l; split; reflexivity|].
  destruct (IH l x H) as (a & b & -> & E). exists (y :: a), b. split; [reflexivity|]. cbn [drop_nth app]. f_equal. exact E.
Qed.
Lemma sruns_app l2 : forall l h held, sruns h held (l ++ l2) = do r <- sruns h held l; sruns (Datatypes.fst r) (Datatypes.snd r) l2.
Proof. induction l as [|c l IH]; intros h held; [reflexivity|]. cbn [app sruns]. destruct (sstep h held c) as [| | |r]; cbn [bind]; try reflexivity. apply IH. Qed.
Lemma step_last h held l h1 held1 c h2 held2 : sruns h held l = Ok (h1, held1) -> sstep h1 held1 c = Ok (h2, held2) -> sruns h held (l ++ [c]) = Ok (h2, held2).
Proof. intros E1 E2. rewrite sruns_app, E1. cbn [bind sruns Datatypes.fst Datatypes.snd]. rewrite E2. reflexivity. Qed.

Lemma history others nfd l cs : NoDup others -> Forall (fun n => (n < nfd)%nat) others -> holds_after l cs ->
  exists h held rs, sruns (sstart others nfd) [] l = Ok (h, held) /\ inv others h rs /\ held = map r_id rs /\ cs = map cost_of rs.
Proof.
  intros No Fo H. induction H as [|l c known err takes buffered memory _ IH G|l c known err takes buffered memory _ IH G|l c i _ IH].
  - exists (sstart others nfd), [], []. split; [reflexivity|]. split; [|split; reflexivity]. unfold inv. cbn. repeat split; try constructor; assumption || reflexivity.
  - destruct IH as (h & held & rs & E & I & Hh & Hc). destruct (open_ok others h rs known err takes buffered memory I) as (h' & o & E' & K & _). destruct (K G) as (r & -> & I' & C).
    exists h', (held ++ [r_id r]), (rs ++ [r]). split; [apply (step_last _ _ _ _ _ _ _ _ E); cbn [sstep]; rewrite E'; reflexivity|]. split; [exact I'|]. rewrite !map_app. cbn [map]. rewrite Hh, Hc, C. split; reflexivity.
  - destruct IH as (h & held & rs & E & I & Hh & Hc). destruct (open_ok others h rs known err takes buffered memory I) as (h' & o & E' & _ & K). destruct (K G) as (-> & I').
    exists h', held, rs. split; [apply (step_last _ _ _ _ _ _ _ _ E); cbn [sstep]; rewrite E'; reflexivity|]. split; [exact I'|]. split; assumption.
  - destruct IH as (h & held & rs & E & I & Hh & Hc). subst held c. destruct (nth_error rs i) as [r|] eqn:R.
    + destruct (drop_split i rs r R) as (a & b & Ers & Ed). rewrite Ers in I. destruct (delete_inv others h a r b I) as (h' & E' & I').
      exists h', (without i (map r_id rs)), (drop_nth i rs). split; [apply (step_last _ _ _ _ _ _ _ _ E); cbn [sstep]; rewrite (map_nth_error r_id i rs R), E'; reflexivity|]. rewrite Ed at 1. split; [exact I'|]. rewrite without_drop, !drop_map. split; reflexivity.
    + exists h, (without i (map r_id rs)), (drop_nth i rs). split; [apply (step_last _ _ _ _ _ _ _ _ E); cbn [sstep]; replace (nth_error (map r_id rs) i) with (@None nat) by (symmetry; apply nth_error_None; rewrite map_length; apply nth_error_None; exact R); reflexivity|].
      rewrite (drop_past i rs R) at 1. split; [exact I|]. rewrite without_drop, !drop_map. split; reflexivity.
Qed.
(** The histories are all there. *)
Lemma snoc_ind {A} (P : list A -> Prop) : P [] -> (forall l x, P l -> P (l ++ [x])) -> forall l, P l.
Proof. intros H0 H1 l. rewrite <- (rev_involutive l). induction (rev l) as [|x r IH]; [exact H0|]. cbn [rev]. apply H1. exact IH. Qed.
Lemma always l : exists cs, holds_after l cs.
Proof.
  induction l as [|l c (cs & IH)] using snoc_ind; [exists []; constructor|]. destruct c as [known err takes buffered memory|i]; [|eexists; apply ha_close; exact IH].
  destruct (given_dec known err) as [G|G]; eexists; [apply ha_open|apply ha_fail]; eassumption.
Qed.
Lemma sum_flat {A} (f : root -> list A) rs : length (flat_map f rs) = sum (map (fun r => length (f r)) rs).
Proof. induction rs as [|r rs IH]; [reflexivity|]. cbn [flat_map map sum fold_right]. rewrite app_length, IH. reflexivity. Qed.
