(** Asking for memory back: NodeHibernate and the collectors, corec/corec/node/node.c 2848-2908;
    COLLECT_UNUSED and COLLECT_FOUND, corec/corec/node/nodebase.h 585-589. *)
From Verif Require Import Base.

Definition COLLECT_UNUSED : Z := 0.
Definition COLLECT_FOUND : Z := -1.
Definition INT_MAX : Z := 2 ^ 31 - 1.

Section Collect.
(** The rest of the program. *)
Context (S : Type).
(** A memcollectitem, node.c 2849-2855: what its function does for a level, and its answer, an int.
    Simplified: a function that changes the list of collectors while it is gone through is not modelled
    (the C code keeps pointers into the array). *)
Definition collector := S -> Z -> S * Z.
(** NodeContext_Cleanup(p,0), node.c 403-423, kept abstract: did it release a module? *)
Context (cleanup : S -> S * bool).

(** One pass, lines 2871-2879.  The last component lists the answers, the level with each; it is not in
    the C code. *)
Fixpoint pass (l : list collector) (level : Z) (s : S) (changed : bool) (next : Z) : S * bool * Z * list (Z * Z) :=
  match l with
  | [] => (s, changed, next, [])
  | f :: l =>
      let (s, v) := f s level in
      let changed' := if v =? COLLECT_FOUND then true else changed in
      let next' := if v =? COLLECT_FOUND then next else if (v <? next) && (level <? v) then v else next in
      match pass l level s changed' next' with (s, c, n, log) => (s, c, n, (level, v) :: log) end
  end.
(** Lines 2868-2882. *)
Fixpoint passes (fuel : nat) (l : list collector) (level : Z) (s : S) : option (S * bool * list (Z * Z)) :=
  match fuel with
  | O => None
  | Datatypes.S fuel =>
      match pass l level s false INT_MAX with
      | (s, changed, next, log) =>
          if next =? INT_MAX then Some (s, changed, log)
          else if changed then Some (s, changed, log)
          else match passes fuel l next s with
               | None => None
               | Some (s, c, log') => Some (s, c, log ++ log')
               end
      end
  end.
(** NodeHibernate, lines 2857-2892: the state, InCollect, the result and the answers. *)
Definition hibernate (fuel : nat) (in_collect : bool) (l : list collector) (s : S) : option (S * bool * bool * list (Z * Z)) :=
  if in_collect then Some (s, in_collect, false, [])
  else match passes fuel l COLLECT_UNUSED s with
       | None => None
       | Some (s, changed, log) =>
           if changed then Some (s, false, true, log)
           else let (s, f) := cleanup s in Some (s, false, f, log)
       end.
End Collect.
Arguments pass {S}. Arguments passes {S}. Arguments hibernate {S}.
