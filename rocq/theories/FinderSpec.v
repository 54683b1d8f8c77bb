(** What it means for the bytes of a file to hold an element header. *)
From Verif Require Import Base VintSpec EbmlIdSpec Ebml.

Definition slice (l : list Z) (p n : Z) : list Z := firstn (Z.to_nat n) (skipn (Z.to_nat p) l).

(** At offset [p]: an ID of [n] bytes, then a size of [m] bytes coding [v]. *)
Definition header_at (file : list Z) (p id n v m : Z) : Prop :=
  id_encodes (slice file p n) id /\ zlen (slice file p n) = n /\
  vint_spec (slice file (p + n) m) v /\ zlen (slice file (p + n) m) = m.

(** Two files that agree before offset [e]. *)
Definition same_before (e : Z) (f g : list Z) : Prop :=
  length f = length g /\ forall i, (Z.of_nat i < e) -> nth_error f i = nth_error g i.

(** The end position of the [i]-th context of a chain (innermost first); -1 is "no end". *)
Definition ctx_end (chain : list pctx) (i : nat) : Z := match nth_error chain i with Some (_, e) => e | None => -1 end.

(** The context a search from [start] runs in: the innermost one that is not over yet, or the outermost one. *)
Definition open_ctx (chain : list pctx) (start : Z) (k : nat) : Prop :=
  (k < length chain)%nat /\
  (forall i, (i < k)%nat -> ctx_end chain i <> -1 /\ ctx_end chain i <= start) /\
  (S k = length chain \/ ctx_end chain k = -1 \/ start < ctx_end chain k).

(** No semantic table entry of a list names [id]. *)
Definition unnamed (E : schema) (id : Z) (l : list sem) : Prop := forall s, In s l -> c_id (E (s_ctx s)) <> id.

(** [id] looked up in a chain of contexts: the kind of element and the level change. *)
Inductive lookup (E : schema) (id : Z) (allow : bool) : list pctx -> Z -> kind -> Z -> Prop :=
| lk_child c e up lvl l s : c_sem (E c) = Some l -> In s l -> c_id (E (s_ctx s)) = id ->
    lookup E id allow ((c, e) :: up) lvl (Known (s_ctx s)) lvl
| lk_glob c e up lvl l s : c_sem (E c) = Some l -> unnamed E id l -> In s (c_glob (E c)) -> c_id (E (s_ctx s)) = id ->
    lookup E id allow ((c, e) :: up) lvl (Known (s_ctx s)) (lvl - 1)
| lk_up c e up lvl l k low : c_sem (E c) = Some l -> unnamed E id l -> unnamed E id (c_glob (E c)) ->
    lookup E id allow up (lvl + 1) k low -> lookup E id allow ((c, e) :: up) lvl k low
| lk_self c e lvl l : c_sem (E c) = Some l -> unnamed E id l -> unnamed E id (c_glob (E c)) -> allow = true -> c_id (E c) = id ->
    lookup E id allow [(c, e)] lvl (Known c) 0
| lk_dummy c e lvl l : c_sem (E c) = Some l -> unnamed E id l -> unnamed E id (c_glob (E c)) -> allow = true -> c_id (E c) <> id ->
    lookup E id allow [(c, e)] lvl (Dummy id) 0.

(** The [k]-th ancestor of a context encloses everything up to [e]. *)
Definition encloses (chain : list pctx) (e : Z) : Prop := forall i, (i < length chain)%nat -> ctx_end chain i = -1 \/ e <= ctx_end chain i.

(** [s] is an entry for [id] in the table of context [c], or, if the table has none, among its
    global elements. *)
Definition names (E : schema) (c id : Z) (s : sem) : Prop :=
  exists l, c_sem (E c) = Some l /\ c_id (E (s_ctx s)) = id /\ (In s l \/ (unnamed E id l /\ In s (c_glob (E c)))).

(** The sizes an element of a class may have; [None] is the unknown size. *)
Definition legal_size (k : eclass) (sz : option Z) : Prop :=
  match sz, k with
  | None, k => k = KMaster
  | Some n, (KUInt | KSInt) => n <= 8
  | Some n, KFloat => n = 4 \/ n = 8
  | Some n, KDate => n = 0 \/ n = 8
  | Some n, KCrc => n = 4
  | Some _, _ => True
  end.
Definition size_of_vint (v m : Z) : option Z := if v =? vint_reserved m then None else Some v.

(** At offset [p], the complete header of an element that is a child of the [k]-th context of the
    chain: ID known there, size valid for the class, all of it (as the library counts) inside. *)
Definition child_at (E : schema) (file : list Z) (chain : list pctx) (k : nat) (p id n v m : Z) : Prop :=
  header_at file p id n v m /\
  exists c e, nth_error chain k = Some (c, e) /\ (exists s, names E c id s) /\
    (forall s, names E c id s -> legal_size (c_class (E (s_ctx s))) (size_of_vint v m)) /\
    (e = -1 \/ (p + n + m <= e /\ (v <> vint_reserved m -> p + v <= e))).
