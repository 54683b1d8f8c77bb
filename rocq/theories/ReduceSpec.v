(** What a cleaned element must look like, independent of how it is cleaned. *)
From Verif Require Import Base Ebml Tree TreeRead Create CreateSpec.

(** [b] is [a] without some elements, each left out for a reason, the others related in order. *)
Inductive sub {A B} (R : A -> B -> Prop) (L : A -> Prop) : list A -> list B -> Prop :=
| sub_nil : sub R L [] []
| sub_keep x y l l' : R x y -> sub R L l l' -> sub R L (x :: l) (y :: l')
| sub_skip x l l' : L x -> sub R L l l' -> sub R L (x :: l) l'.

(** A property of an element and all below it. *)
Inductive everywhere (P : elt -> Prop) : elt -> Prop :=
| everywhere_leaf i v : P (Leaf i v) -> everywhere P (Leaf i v)
| everywhere_master i chk ch : P (Master i chk ch) -> Forall (everywhere P) ch -> everywhere P (Master i chk ch).

Section Spec.
Context (E : schema) (td : Z -> Z) (prof : Z).

(** Padding, unknown elements and checksums. *)
Definition junk (e : elt) : Prop :=
  kind_class E (e_kind (einfo e)) = KVoid \/ kind_class E (e_kind (einfo e)) = KDummy \/ eid_of E (einfo e) = 191.

(** Masters not worth keeping: a BlockGroup without what it needs; a master with nothing but junk and
    such masters inside, that needs something. *)
Inductive gone : elt -> Prop :=
| gone_group i chk ch : eid_of E i = 160 -> ~ complete E false prof (Master i chk ch) -> gone (Master i chk ch)
| gone_empty i chk ch l s : table E i l -> In s l -> required E false prof s -> Forall (fun c => junk c \/ gone c) ch -> gone (Master i chk ch).

(** The line of a table for an element. *)
Definition line (l : list sem) (e : elt) (s : sem) : Prop :=
  exists l1 l2, l = l1 ++ s :: l2 /\ sem_id E s = eid_of E (einfo e) /\ forall s', In s' l1 -> sem_id E s' <> eid_of E (einfo e).

(** Why a child may be missing from the children [ch'] of a cleaned master: junk or gone; not allowed in
    the profile; one too many of a kind that must be single, another of which is kept. *)
Definition lost (l : list sem) (ch' : list elt) (c : elt) : Prop :=
  junk c \/ gone c \/ exists s, line l c s /\ (~ enabled prof s \/ (s_uniq s = true /\ has E (eid_of E (einfo c)) ch')).

(** A new element, with its default if it has one: mandatory, single, and absent before. *)
Definition made (l : list sem) (ch : list elt) (e : elt) : Prop :=
  exists s, In s l /\ wanted prof s /\ e_kind (einfo e) = Known (s_ctx s) /\ (exists n, create E td n true prof (s_ctx s) = Ok e) /\
    forall c, In c ch -> eid_of E (einfo c) = sem_id E s -> junk c \/ gone c.

(** An element and what is left of it: the values of leaves are the same; of a master, the children are
    those of the source in the same order, some left out for a reason, then new ones. *)
Inductive cleaned (unsafe : bool) : elt -> elt -> Prop :=
| cleaned_leaf i i' v : e_kind i' = e_kind i -> e_set i' = e_set i -> e_dsize i' = e_dsize i -> cleaned unsafe (Leaf i v) (Leaf i' v)
| cleaned_master i chk ch l i' chk' old new : e_kind i' = e_kind i -> table E i l ->
    chk' = (if unsafe then 0 else chk) ->
    sub (cleaned unsafe) (lost l (old ++ new)) ch old -> Forall (made l ch) new ->
    cleaned unsafe (Master i chk ch) (Master i' chk' (old ++ new)).

(** A clean element: a master has no junk, has what is mandatory and single, nothing single twice, and no
    child but perhaps the first is of a kind the profile does not allow; sizes are coded in the fewest
    bytes. *)
Definition neat (unsafe : bool) (e : elt) : Prop :=
  e_szlen (einfo e) = 0 /\
  match e with
  | Leaf _ _ => True
  | Master i chk ch =>
      (unsafe = true -> chk = 0) /\
      Forall (fun c => ~ junk c) ch /\
      exists l, table E i l /\
        (forall s, In s l -> wanted prof s -> has E (sem_id E s) ch) /\
        (forall a b c x d s, ch = a ++ c :: b ++ d :: x -> eid_of E (einfo c) = eid_of E (einfo d) -> line l c s -> s_uniq s = false) /\
        (forall c0 c1 c2 c s, ch = c0 :: c1 ++ c :: c2 -> line l c s -> enabled prof s)
  end.

(** Tables with one line per ID, whose mandatory single lines are neither padding nor checksums. *)
Definition sound_tables : Prop := forall c l, c_sem (E c) = Some l -> NoDup (map (sem_id E) l) /\
  forall s, In s l -> wanted prof s -> c_class (E (s_ctx s)) <> KVoid /\ c_class (E (s_ctx s)) <> KDummy /\ sem_id E s <> 191.
End Spec.
