(** What is expected of the making of nodes. *)
From Verif Require Import Base Make.

(** The creation and deletion functions of a class, in the order of its table. *)
Definition creators (c : cls) : list Z := flat_map (fun m => match m with CCreate f => [f] | _ => [] end) (c_metas c).
Definition deleters (c : cls) : list Z := flat_map (fun m => match m with CDelete f => [f] | _ => [] end) (c_metas c).

(** Parents first. *)
Definition all_creators (c : list cls) : list Z := flat_map creators (rev c).
(** Parents last. *)
Definition all_deleters (c : list cls) : list Z := flat_map deleters c.

(** All functions of [l] are called one after the other after [log], and each works. *)
Inductive calls (works : list event -> Z -> bool) : list event -> list Z -> list event -> Prop :=
| calls_none log : calls works log [] log
| calls_one log f l log' : works log f = true -> calls works (log ++ [EMade f]) l log' -> calls works log (f :: l) log'.

(** A creation that a function refused: the functions called before, this one, and then the deletion
    functions of the parents, which were made whole. *)
Definition undone (works : list event -> Z -> bool) (c : list cls) (log log' : list event) : Prop :=
  exists below k parents before f after mid,
    c = below ++ k :: parents /\ creators k = before ++ f :: after /\
    calls works log (all_creators parents ++ before) mid /\ works mid f = false /\
    log' = mid ++ [EFailed f] ++ map EDeleted (all_deleters parents).

(** The users of a module among the nodes [0] to [n - 1]. *)
Definition uses (j : Z) (c : list cls) : Z := zlen (filter (fun k => c_mod k =? j) c).
Fixpoint users (w : nat -> option (list cls)) (j : Z) (n : nat) : Z :=
  match n with O => 0 | S n => users w j n + match w n with Some c => uses j c | None => 0 end end.
Fixpoint living (w : nat -> option (list cls)) (n : nat) : Z :=
  match n with O => 0 | S n => living w n + match w n with Some _ => 1 | None => 0 end end.

(** Histories. *)
Definition runs (l : list mcall) : world := fold_left mstep l w_start.
(** There was memory for every node, and every singleton could be noted. *)
Definition lucky (o : mcall) : bool :=
  match o with KMake _ _ x => f_memory x && (negb (f_single x) || f_noted x) | KGo _ => true end.
(** Can the class be made? *)
Definition makeable (rooted : bool) (c : list cls) : Prop :=
  rooted = true /\ (exists k r, c = k :: r /\ c_abstract k = false) /\ (forall k, In k c -> c_ready k = true) /\ exists k, In k c /\ c_size k <> 0.
