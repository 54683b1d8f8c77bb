(** What listeners of a node may expect, in terms of registrations only: no heap, no links. *)
From Verif Require Import Base Notify.

(** A registration: its number, the callback and its argument. *)
Definition reg := (Z * Z * Z)%type.
Definition r_id (g : reg) : Z := fst (fst g).
Definition r_call (g : reg) : Z * Z := (snd (fst g), snd g).
Definition ids (l : list reg) : list Z := map r_id l.
Definition matches (f r : Z) (g : reg) : bool := (fst (r_call g) =? f) && (snd (r_call g) =? r).
Definition without (x : Z) (l : list reg) : list reg := filter (fun g => negb (r_id g =? x)) l.
Definition empty {A} (l : list A) : bool := match l with [] => true | _ => false end.
Definition head_is (x : Z) (l : list reg) : bool := match l with [] => false | g :: _ => r_id g =? x end.
Definition last_of (l : list Z) : option Z := match rev l with [] => None | e :: _ => Some e end.

(** During a call: the registrations, newest first; those still to be called in this round; the next
    number; the registration being called has been withdrawn; the removal of the whole list has been
    asked for; the bookkeeping is broken; the node has been deleted; the other data of the node put in
    front of the list. *)
Record sp := mkSp {
  p_regs : list reg; p_todo : list reg; p_new : Z; p_self : bool; p_msg : bool; p_haz : bool;
  p_dead : bool; p_pre : list Z }.

(** Withdrawing a registration: the newest one that matches, out of this round too.  Trouble: the
    registration being called goes after the list was asked to be removed, or the very next one to be
    called goes after the one being called. *)
Definition sp_rem (cur : Z) (p : sp) (f r : Z) : sp :=
  match find (matches f r) (p_regs p) with
  | None => mkSp (p_regs p) (p_todo p) (p_new p) (p_self p) (p_msg p || empty (p_regs p)) (p_haz p) (p_dead p) (p_pre p)
  | Some g =>
      let x := r_id g in
      let regs := without x (p_regs p) in
      if x =? cur
      then mkSp regs (p_todo p) (p_new p) true (p_msg p) (p_haz p || p_msg p) (p_dead p) (p_pre p)
      else mkSp regs (without x (p_todo p)) (p_new p) (p_self p) (p_msg p || empty regs)
                (p_haz p || (p_self p && head_is x (p_todo p))) (p_dead p) (p_pre p)
  end.

Definition sp_act (cur : Z) (p : sp) (a : action) : option sp :=
  if p_dead p then None
  else Some match a with
       | AAdd f r _ m =>
           if m then mkSp ((p_new p, f, r) :: p_regs p) (p_todo p) (p_new p + 1) (p_self p) (p_msg p) (p_haz p) (p_dead p) (p_pre p)
           else p
       | ARem f r => sp_rem cur p f r
       | ANotify => p
       | AClear => mkSp (p_regs p) (p_todo p) (p_new p) (p_self p) true (p_haz p) (p_dead p) (p_pre p)
       | ASet => mkSp (p_regs p) (p_todo p) (p_new p + 1) (p_self p) (p_msg p) (p_haz p) (p_dead p) (p_new p :: p_pre p)
       | AUnset e => mkSp (p_regs p) (p_todo p) (p_new p) (p_self p) (p_msg p) (p_haz p) (p_dead p) (remove Z.eq_dec e (p_pre p))
       | ADelete => mkSp (p_regs p) (p_todo p) (p_new p) (p_self p) (p_msg p) (p_haz p) true []
       end.
Fixpoint sp_acts (cur : Z) (p : sp) (l : list action) : option sp :=
  match l with
  | [] => Some p
  | a :: l => match sp_act cur p a with Some p => sp_acts cur p l | None => None end
  end.

(** Between the calls: the calls so far (latest first), the remembered place of the list among the
    data of the node, is the list or the node to be freed at the end, and the registrations withdrawn
    whose memory is never given back. *)
Record round := mkRound { o_sp : sp; o_log : list (Z * Z); o_at : option Z; o_clear : bool; o_leaks : list Z }.
Inductive outcome (A : Type) := SFreed | SDeleted | SOk (a : A).
Arguments SFreed {A}. Arguments SDeleted {A}. Arguments SOk {A} a.

Section Spec.
Context (scr : nat -> Z * Z -> list action).

(** Call the first of those to be called, then the rest as its callback has left it. *)
Fixpoint sp_loop (n : nat) (o : round) : outcome round :=
  match n with
  | O => SOk o
  | S n =>
      let p := o_sp o in
      match p_todo p with
      | [] => SOk o
      | g :: t =>
          let p0 := mkSp (p_regs p) t (p_new p) false false false (p_dead p) (p_pre p) in
          match sp_acts (r_id g) p0 (scr (length (o_log o)) (r_call g)) with
          | None => SDeleted
          | Some p1 =>
              if p_haz p1 then SFreed
              else
                let told := p_msg p1 || p_dead p1 in
                sp_loop n (mkRound p1 (r_call g :: o_log o)
                                   (if p_self p1 && negb told then last_of (p_pre p1) else o_at o)
                                   (o_clear o || told)
                                   (if p_self p1 && told then r_id g :: o_leaks o else o_leaks o))
          end
      end
  end.

(** The node between events: its registrations, has it a list, the next number, the calls, deleted,
    other data in front of the list, data lost, memory lost. *)
Record sps := mkSps {
  q_regs : list reg; q_data : bool; q_new : Z; q_log : list (Z * Z); q_gone : bool;
  q_pre : list Z; q_lost : list Z; q_leaks : list Z }.

Definition sp_notify (del : bool) (q : sps) : outcome sps :=
  match sp_loop (length (q_regs q))
          (mkRound (mkSp (q_regs q) (q_regs q) (q_new q) false false false false (q_pre q))
                   (q_log q) (last_of (q_pre q)) false (q_leaks q)) with
  | SFreed => SFreed
  | SDeleted => SDeleted
  | SOk o =>
      let p := o_sp o in
      let done pre lost := SOk (mkSps (p_regs p) true (p_new p) (o_log o) (p_dead p) pre lost (o_leaks o)) in
      if o_clear o || del || empty (p_regs p) then
        match o_at o with
        | Some e => if in_dec Z.eq_dec e (p_pre p) then done (p_pre p) (q_lost q) else SFreed
        | None => match p_pre p with
                  | [] => done [] (q_lost q)
                  | e :: l => done l (e :: q_lost q)
                  end
        end
      else done (p_pre p) (q_lost q)
  end.

Definition sp_step (del : bool) (q : sps) (o : op) : outcome sps :=
  if q_gone q then SDeleted
  else match o with
       | OAdd f r m1 m2 =>
           if q_data q || m1 then
             let pre := if q_data q then q_pre q else [] in
             if m2 then SOk (mkSps ((q_new q, f, r) :: q_regs q) true (q_new q + 1) (q_log q) false pre (q_lost q) (q_leaks q))
             else SOk (mkSps (q_regs q) true (q_new q) (q_log q) false pre (q_lost q) (q_leaks q))
           else SOk q
       | ORem f r =>
           if q_data q then
             let regs := match find (matches f r) (q_regs q) with None => q_regs q | Some g => without (r_id g) (q_regs q) end in
             SOk (mkSps regs (negb (empty regs)) (q_new q) (q_log q) false (if empty regs then [] else q_pre q) (q_lost q) (q_leaks q))
           else SOk q
       | ONotify => if q_data q then sp_notify del q else SOk q
       | OClear => if q_data q then SOk (mkSps [] false (q_new q) (q_log q) false [] (q_lost q) (q_leaks q)) else SOk q
       | OSet => SOk (mkSps (q_regs q) (q_data q) (q_new q + 1) (q_log q) false
                            (if q_data q then q_new q :: q_pre q else []) (q_lost q) (q_leaks q))
       | OUnset e => SOk (mkSps (q_regs q) (q_data q) (q_new q) (q_log q) false
                                (remove Z.eq_dec e (q_pre q)) (q_lost q) (q_leaks q))
       end.
Fixpoint sp_steps (del : bool) (q : sps) (l : list op) : outcome sps :=
  match l with
  | [] => SOk q
  | o :: l => match sp_step del q o with SOk q => sp_steps del q l | SFreed => SFreed | SDeleted => SDeleted end
  end.
End Spec.

Definition sps0 : sps := mkSps [] false 1 [] false [] [] [].

(** Callbacks that keep to the rules: they do not delete the node, do not remove the whole list, and
    withdraw nothing once they may have withdrawn themselves ([self] is the callback and argument of
    the registration being called).  They set and remove other data only when [other]. *)
Fixpoint tidy (other : bool) (self : Z * Z) (l : list action) : bool :=
  match l with
  | [] => true
  | AAdd _ _ _ _ :: l | ANotify :: l => tidy other self l
  | ARem f r :: l => if (f =? fst self) && (r =? snd self)
                     then forallb (fun a => match a with ARem _ _ | AClear | ADelete => false | ASet | AUnset _ => other | _ => true end) l
                     else tidy other self l
  | ASet :: l | AUnset _ :: l => other && tidy other self l
  | AClear :: _ | ADelete :: _ => false
  end.

(** [a] is [b] with some members left out. *)
Inductive subseq {A} : list A -> list A -> Prop :=
  | ss_nil : subseq [] []
  | ss_skip x a b : subseq a b -> subseq a (x :: b)
  | ss_keep x a b : subseq a b -> subseq (x :: a) (x :: b).
