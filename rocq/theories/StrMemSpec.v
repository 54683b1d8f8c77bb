(** What a program can say of its string elements from the calls it made and their results alone. *)
From Verif Require Import Base Ebml Stream Tree StrMem.

(** A history: calls and replies, the newest first. *)
Definition event := (call * reply)%type.
Definition history := list event.

(** The histories that happen. *)
Inductive happens : history -> smem -> Prop :=
| happens_start : happens [] sm_start
| happens_more h m o m' r : happens h m -> step m o = Done (m', r) -> happens ((o, r) :: h) m'.

Definition is_some {A} (x : option A) : bool := match x with Some _ => true | None => false end.
Definition made (r : reply) (k : nat) : bool := match r with RNew (Some j) => Nat.eqb j k | _ => false end.
Definition went_well (r : reply) : bool := match r with RCode c => c =? ERR_NONE | _ => false end.

(** Does the element have a value? *)
Fixpoint valued (h : history) (k : nat) : bool :=
  match h with
  | [] => false
  | (o, r) :: h =>
      match o with
      | OCreate d sd ok => if made r k then sd && is_some d && ok else valued h k
      | OFound _ _ => if made r k then false else valued h k
      | OSet j _ _ => if Nat.eqb j k && went_well r then true else valued h k
      | ORead j nodata _ _ => match r with RCode _ => if Nat.eqb j k then negb nodata && went_well r else valued h k | _ => valued h k end
      | OCopy j _ => if made r k then valued h j else valued h k
      | _ => valued h k
      end
  end.
(** Has it a default in its description? *)
Fixpoint defaulted (h : history) (k : nat) : bool :=
  match h with
  | [] => false
  | (o, r) :: h =>
      match o with
      | OCreate d _ _ => if made r k then is_some d else defaulted h k
      | OFound d _ => if made r k then is_some d else defaulted h k
      | OCopy j _ => if made r k then defaulted h j else defaulted h k
      | _ => defaulted h k
      end
  end.

(** The calls that are in order after a history: only elements with a value are copied, and sizes and
    bytes are asked only of elements that have a value or that would be left out. *)
Definition in_order (h : history) (o : call) : bool :=
  match o with
  | OCopy k _ => valued h k
  | OUpdate k wd => valued h k || (negb wd && defaulted h k)
  | ORender k wd => valued h k || negb (wd && defaulted h k)
  | OFound _ n => -1 <=? n
  | _ => true
  end.
(** No EBML_StringSetValue ran out of memory. *)
Definition set_worked (o : call) : bool := match o with OSet _ _ ok => ok | _ => true end.
Fixpoint orderly (h : history) : bool :=
  match h with [] => true | (o, _) :: h => in_order h o && set_worked o && orderly h end.

(** Has the element storage?  It may be given by a creation with a default, a value set, a value read, a
    copy. *)
Fixpoint stored (h : history) (k : nat) : bool :=
  match h with
  | [] => false
  | (o, r) :: h =>
      match o with
      | OCreate d sd ok => if made r k then sd && is_some d && ok else stored h k
      | OFound _ _ => if made r k then false else stored h k
      | OSet j _ _ => match r with RCode _ => if Nat.eqb j k then went_well r else stored h k | _ => stored h k end
      | ORead j nodata _ _ => match r with RCode _ => if Nat.eqb j k then negb nodata && went_well r else stored h k | _ => stored h k end
      | OCopy j _ => if made r k then true else stored h k
      | _ => stored h k
      end
  end.
(** Nothing is read into an element that has storage, and no copy is made of an element without value. *)
Fixpoint tidy (h : history) : bool :=
  match h with
  | [] => true
  | (o, _) :: h =>
      match o with ORead k _ _ _ => negb (stored h k) | OCopy k _ => valued h k | _ => true end && tidy h
  end.

(** The text EBML_StringGet hands out. *)
Definition tells (m : smem) (k : nat) (t : list Z) : Prop := exists m', step m (OGet k) = Done (m', RText t).
(** EBML_ElementDataSize. *)
Definition size_told (m : smem) (k : nat) (n : Z) : Prop := exists e, m_elts m k = Some e /\ s_size e = n.
(** The bytes before the first zero. *)
Definition text_of (t bs : list Z) : Prop :=
  ~ In 0 t /\ (bs = t \/ exists r, bs = t ++ 0 :: r).
(** The element a call changes. *)
Definition target (o : call) : option nat :=
  match o with OSet k _ _ | ORead k _ _ _ | ODelete k => Some k | _ => None end.
