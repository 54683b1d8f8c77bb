(** Properties of the order of attachments. *)
From Coq Require Import Permutation Sorted.
From Verif Require Import Base BaseProofs Arr ArrSpec NodeTree NodeTreeSpec NodeTreeProofs PropNode Tree Str StrSpec StrProofs AttachSort AttachSortSpec AttachSortProofs.

(** ** C105 *)
(** Up to 17 attachments, or any number with at most one cover and at most one without a name: the sort
    ends in bounds, keeps every attachment and leaves a sound tree. *)
Theorem C105_kept : forall look fuel h F m, rep h F -> m <> 0 -> (length (F m) <= fuel)%nat ->
  (forall x n, In x (F m) -> look x = Some n -> text n) ->
  zlen (F m) <= 17 \/
    (forall k x y, k = None \/ k = Some (Some Cover) -> In x (F m) -> In y (F m) -> sort_of (look x) k -> sort_of (look y) k -> x = y) ->
  exists r h', attach_sort fuel h look m = Some h' /\ rep h' (fun q => if q =? m then r else F q) /\ Permutation (F m) r.
Proof.
  intros look fuel h F m R Hm Hf K O.
  destruct (attach_sort_ok look fuel h F m (fun _ _ => True) (fun _ => True) R Hm Hf) as (r & h' & E & R' & P & _).
  - intros x Hx n. exact (K x n Hx).
  - apply Forall_forall. intros; exact I.
  - destruct O as [O|O]; [left; exact O|right]. split; intros x y; apply O; auto.
  - exists r, h'. auto.
Qed.
Print Assumptions C105_kept.

(** If moreover none is called cover_land: covers first, then ordinary files by name, then the small
    covers, and last what has no name. *)
Theorem C105_order : forall look fuel h F m, rep h F -> m <> 0 -> (length (F m) <= fuel)%nat ->
  (forall x n, In x (F m) -> look x = Some n -> text n /\ ~ is_art Land n) ->
  zlen (F m) <= 17 \/
    (forall k x y, k = None \/ k = Some (Some Cover) -> In x (F m) -> In y (F m) -> sort_of (look x) k -> sort_of (look y) k -> x = y) ->
  exists r h', attach_sort fuel h look m = Some h' /\ rep h' (fun q => if q =? m then r else F q) /\ Permutation (F m) r /\
    StronglySorted (fun x y => before place (look x) (look y)) r.
Proof.
  intros look fuel h F m R Hm Hf K O.
  destruct (attach_sort_ok look fuel h F m (fun x y => before place (look x) (look y)) (fun x => known (look x) /\ exists k, sort_of (look x) k /\ k <> Some (Some Land)) R Hm Hf) as (r & h' & E & R' & P & S).
  - intros x Hx n En. exact (proj1 (K x n Hx En)).
  - apply Forall_forall. intros x Hx. assert (Kx : known (look x)) by (intros n En; exact (proj1 (K x n Hx En))). split; [exact Kx|].
    destruct (sort_total _ Kx) as [k Sk]. exists k. split; [exact Sk|]. intros ->. inversion Sk as [|k n Hn En|]; subst. symmetry in En. exact (proj2 (K x n Hx En) Hn).
  - destruct O as [O|O]; [left; exact O|right]. split; intros x y; apply O; auto.
  - exists r, h'. split; [exact E|]. split; [exact R'|]. split; [exact P|]. apply S, guided_place.
Qed.
Print Assumptions C105_order.

(** If there is nothing but cover art and nameless files: cover, small cover, landscape cover, small
    landscape cover, as Matroska asks for. *)
Theorem C105_art : forall look fuel h F m, rep h F -> m <> 0 -> (length (F m) <= fuel)%nat ->
  (forall x n, In x (F m) -> look x = Some n -> text n /\ exists k, is_art k n) ->
  zlen (F m) <= 17 \/
    (forall k x y, k = None \/ k = Some (Some Cover) -> In x (F m) -> In y (F m) -> sort_of (look x) k -> sort_of (look y) k -> x = y) ->
  exists r h', attach_sort fuel h look m = Some h' /\ rep h' (fun q => if q =? m then r else F q) /\ Permutation (F m) r /\
    StronglySorted (fun x y => before art_place (look x) (look y)) r.
Proof.
  intros look fuel h F m R Hm Hf K O.
  destruct (attach_sort_ok look fuel h F m (fun x y => before art_place (look x) (look y)) (fun x => known (look x) /\ exists k, sort_of (look x) k /\ k <> Some None) R Hm Hf) as (r & h' & E & R' & P & S).
  - intros x Hx n En. exact (proj1 (K x n Hx En)).
  - apply Forall_forall. intros x Hx. assert (Kx : known (look x)) by (intros n En; exact (proj1 (K x n Hx En))). split; [exact Kx|].
    destruct (look x) as [n|] eqn:En; [|exists None; split; [constructor|discriminate]]. destruct (K x n Hx En) as (_ & k & Hk).
    exists (Some (Some k)). split; [constructor; exact Hk|discriminate].
  - destruct O as [O|O]; [left; exact O|right]. split; intros x y; apply O; auto.
  - exists r, h'. split; [exact E|]. split; [exact R'|]. split; [exact P|]. apply S, guided_art.
Qed.
Print Assumptions C105_art.

Definition nm_a : list Z := [97]. Definition nm_b : list Z := [98].
Definition nm_cover : list Z := art_name Cover ++ dot_jpg.
Definition nm_small : list Z := [83] ++ tl (art_name SmallCover) ++ dot_png.
Definition nm_land : list Z := art_name Land ++ dot_jpg.
Definition look3 (a b c : option (list Z)) (x : Z) : option (list Z) := if x =? 2 then a else if x =? 3 then b else c.
Definition sorted3 (a b c : option (list Z)) : option (option (list Z)) :=
  option_map (fun h' => collect 10 h' (n_kids (h' 1))) (attach_sort 10 ex_heap (look3 a b c) 1).
Lemma not_like n d : text n -> text d -> (match order n d with Eq => False | _ => True end) -> ~ same_text n d.
Proof. intros Hn Hd O H. apply order_eq in H; [|assumption..]. rewrite H in O. exact O. Qed.
Lemma other_name n : text n -> (forall k, match order n (art_name k ++ dot_jpg), order n (art_name k ++ dot_png) with Eq, _ => False | _, Eq => False | _, _ => True end) -> forall k, ~ is_art k n.
Proof.
  intros Hn O k H. specialize (O k). destruct H as [H|H]; (apply order_eq in H; [|exact Hn|destruct k; repeat constructor; lia]); rewrite H in O; [exact O|]. destruct (order n _); exact O.
Qed.
Lemma a_other : forall k, ~ is_art k nm_a.
Proof. apply other_name; [repeat constructor; lia|]. intros []; vm_compute; exact I. Qed.
Lemma b_other : forall k, ~ is_art k nm_b.
Proof. apply other_name; [repeat constructor; lia|]. intros []; vm_compute; exact I. Qed.
Lemma cover_art : is_art Cover nm_cover.
Proof. left. unfold nm_cover. apply order_eq; [repeat constructor; lia..|reflexivity]. Qed.
Lemma small_art : is_art SmallCover nm_small.
Proof. right. apply order_eq; [repeat constructor; lia..|reflexivity]. Qed.
Lemma land_art : is_art Land nm_land.
Proof. left. apply order_eq; [repeat constructor; lia..|reflexivity]. Qed.

Example C105_kept_ex : rep ex_heap ex_forest /\ ex_forest 1 = [2; 3; 4] /\
  (forall x n, In x (ex_forest 1) -> look3 None (Some nm_b) None x = Some n -> text n) /\ sorted3 None (Some nm_b) None = Some (Some [3; 4; 2]).
Proof.
  split; [exact ex_rep|]. split; [reflexivity|]. split; [|vm_compute; reflexivity]. change (ex_forest 1) with [2; 3; 4].
  intros x n [<-|[<-|[<-|[]]]]; vm_compute; intros [= <-]; repeat constructor; discriminate.
Qed.
Example C105_order_ex : (forall x n, In x (ex_forest 1) -> look3 (Some nm_b) (Some nm_a) (Some nm_cover) x = Some n -> text n /\ ~ is_art Land n) /\
  sorted3 (Some nm_b) (Some nm_a) (Some nm_cover) = Some (Some [4; 3; 2]).
Proof.
  split; [|vm_compute; reflexivity]. change (ex_forest 1) with [2; 3; 4]. assert (T : text nm_cover) by (repeat constructor; lia).
  intros x n [<-|[<-|[<-|[]]]]; intros E; injection E as <-; (split; [repeat constructor; lia|]); [apply b_other|apply a_other|].
  intros H. discriminate (flags_inj Cover Land nm_cover T cover_art H).
Qed.
Example C105_art_ex : (forall x n, In x (ex_forest 1) -> look3 (Some nm_land) (Some nm_small) (Some nm_cover) x = Some n -> text n /\ exists k, is_art k n) /\
  sorted3 (Some nm_land) (Some nm_small) (Some nm_cover) = Some (Some [4; 3; 2]).
Proof.
  split; [|vm_compute; reflexivity]. change (ex_forest 1) with [2; 3; 4].
  intros x n [<-|[<-|[<-|[]]]]; intros E; injection E as <-; (split; [repeat constructor; lia|]); eexists; [apply land_art|apply small_art|apply cover_art].
Qed.

Lemma small3_sorted : option_map (fun h' => collect 10 h' (n_kids (h' 1))) (attach_sort 10 ex_heap (look3 (Some nm_a) (Some nm_small) None) 1) = Some (Some [2; 3; 4]).
Proof. vm_compute. reflexivity. Qed.
Lemma land3_sorted : option_map (fun h' => collect 10 h' (n_kids (h' 1))) (attach_sort 10 ex_heap (look3 (Some nm_b) (Some nm_land) (Some nm_a)) 1) = Some (Some [2; 3; 4]).
Proof. vm_compute. reflexivity. Qed.

(** Finding: ordinary files are not sorted behind all cover art: a small cover stays behind them. *)
Theorem C105_art_first_refuted : exists look h F r h', rep h F /\ F 1 = [2; 3; 4] /\ sort_of (look 2) (Some None) /\ sort_of (look 3) (Some (Some SmallCover)) /\
  attach_sort 10 h look 1 = Some h' /\ rep h' (fun q => if q =? 1 then r else F q) /\ r = [2; 3; 4].
Proof.
  set (look := look3 (Some nm_a) (Some nm_small) None).
  assert (K : forall x n, In x (ex_forest 1) -> look x = Some n -> text n) by (change (ex_forest 1) with [2; 3; 4]; intros x n [<-|[<-|[<-|[]]]]; intros E; inversion E; subst; repeat constructor; lia).
  destruct (C105_kept look 10 ex_heap ex_forest 1 ex_rep ltac:(lia) ltac:(vm_compute; lia) K ltac:(left; vm_compute; discriminate)) as (r & h' & E & R & P).
  exists look, ex_heap, ex_forest, r, h'. split; [exact ex_rep|]. split; [reflexivity|]. split; [constructor; exact a_other|]. split; [constructor; exact small_art|]. split; [exact E|]. split; [exact R|].
  pose proof small3_sorted as S. fold look in S. rewrite E in S. cbn [option_map] in S.
  pose proof (rep_chain _ _ R 1 ltac:(lia)) as C. cbn beta in C. change (1 =? 1) with true in C. cbv iota in C.
  rewrite (collect_ok h' r 10 _ C) in S; [congruence|]. rewrite <- (Permutation_length P). vm_compute. lia.
Qed.
Print Assumptions C105_art_first_refuted.

(** Finding: a landscape cover counts as equal to any ordinary file, so that files on both sides of it
    are not even sorted by name. *)
Theorem C105_land_refuted : exists look h F r h', rep h F /\ F 1 = [2; 3; 4] /\ look 2 = Some nm_b /\ look 4 = Some nm_a /\ sort_of (look 3) (Some (Some Land)) /\
  attach_sort 10 h look 1 = Some h' /\ rep h' (fun q => if q =? 1 then r else F q) /\ r = [2; 3; 4].
Proof.
  set (look := look3 (Some nm_b) (Some nm_land) (Some nm_a)).
  assert (K : forall x n, In x (ex_forest 1) -> look x = Some n -> text n) by (change (ex_forest 1) with [2; 3; 4]; intros x n [<-|[<-|[<-|[]]]]; intros E; inversion E; subst; repeat constructor; lia).
  destruct (C105_kept look 10 ex_heap ex_forest 1 ex_rep ltac:(lia) ltac:(vm_compute; lia) K ltac:(left; vm_compute; discriminate)) as (r & h' & E & R & P).
  exists look, ex_heap, ex_forest, r, h'. split; [exact ex_rep|]. split; [reflexivity|]. split; [reflexivity|]. split; [reflexivity|]. split; [constructor; exact land_art|]. split; [exact E|]. split; [exact R|].
  pose proof land3_sorted as S. fold look in S. rewrite E in S. cbn [option_map] in S.
  pose proof (rep_chain _ _ R 1 ltac:(lia)) as C. cbn beta in C. change (1 =? 1) with true in C. cbv iota in C.
  rewrite (collect_ok h' r 10 _ C) in S; [congruence|]. rewrite <- (Permutation_length P). vm_compute. lia.
Qed.
Print Assumptions C105_land_refuted.

(** Finding: with 18 attachments or more the sort may read before the start of its array: for instance
    when none has a name, or when the first, the middle and the last one are covers. *)
Definition many : list Z := [2; 3; 4; 5; 6; 7; 8; 9; 10; 11; 12; 13; 14; 15; 16; 17; 18; 19].
Definition covers (x : Z) : option (list Z) := if (x =? 2) || (x =? 10) || (x =? 19) then Some nm_cover else Some [96 + x].
Theorem C105_overrun_refuted : forall fuel h F m, rep h F -> m <> 0 -> (length (F m) <= fuel)%nat -> F m = many ->
  attach_sort fuel h (fun _ => None) m = None /\ attach_sort fuel h covers m = None.
Proof.
  intros fuel h F m R Hm Hf E. unfold attach_sort, master_sort. rewrite (collect_ok h (F m) fuel _ (rep_chain h F R m Hm) Hf), E.
  assert (A : array_sort (fun x y : Z => attach_tot None None) true false many = None) by (vm_compute; reflexivity). rewrite A.
  assert (B : array_sort (fun x y : Z => attach_tot (covers x) (covers y)) true false many = None) by (vm_compute; reflexivity). rewrite B.
  split; reflexivity.
Qed.
Print Assumptions C105_overrun_refuted.
Definition many_calls : list call := map (fun x => (x, 1, 0)) many.
Lemma calls_ok_append : forall l F, Forall (fun x => x <> 0) l -> calls_ok F (map (fun x => (x, 1, 0)) l).
Proof.
  induction l as [|x l IH]; intros F H; cbn [map calls_ok]; [exact I|]. apply Forall_cons_iff in H. destruct H as [H1 H2].
  split; [split; [exact H1|left; reflexivity]|apply IH, H2].
Qed.
Lemma many_calls_ok : calls_ok empty_forest many_calls.
Proof. apply calls_ok_append. unfold many. repeat (constructor; [discriminate|]). constructor. Qed.
Definition many_heap : heap := match run_calls 30 empty_heap many_calls with Some h => h | None => empty_heap end.
Definition many_forest : forest := fold_left call_moves many_calls empty_forest.
Lemma many_rep : rep many_heap many_forest.
Proof.
  destruct (run_calls_ok many_calls 30 empty_heap empty_forest rep_empty many_calls_ok) as (h & E & R).
  - intros p Hp. apply Nat.leb_le. reflexivity.
  - unfold many_heap. rewrite E. exact R.
Qed.
Definition one_cover (x : Z) : option (list Z) := if x =? 10 then Some nm_cover else Some [150 - x].
(** The same number of attachments with one cover is sorted. *)
Example C105_overrun_ex : rep many_heap many_forest /\ many_forest 1 = many /\
  array_sort (fun x y => attach_tot (one_cover x) (one_cover y)) true false many =
    Some [10; 19; 18; 17; 16; 15; 14; 13; 12; 11; 9; 8; 7; 6; 5; 4; 3; 2].
Proof. split; [exact many_rep|]. split; vm_compute; reflexivity. Qed.
