(** The tables in which the properties of nodes are found: corec/corec/node/node.c 980-1136 (FilterLookup..., BitLookup, CmpLookup,
    AddLookup, BuildMetaLookup) and the searches of MetaGet 2041-2124, MetaSet 2126-2180 and MetaUnSet 2336-2390.

    Simplified: what is then done with the entry found is not looked at (NodeData.v, Notify.v, Life.v have parts of it); there is always
    memory for tables; a description is the list of its entries, without the documentation (CONFIG_CORECDOC). *)
From Verif Require Import Base Arr.

(** The entries of descriptions, nodebase.h 130-155: functions, events, bits, data (of TYPE_BOOL_BIT or not; the entry after
    it tells read-only, DFLAG_RDONLY, or not), others.  [m_data]: what it holds. *)
Inductive mkind := KGet | KSet | KUnSet | KEvent | KBit | KData (bit rdonly : bool) | KOther.
Record meta := mkMeta { m_kind : mkind; m_id : Z; m_data : Z }.
(** A class is the list of descriptions of itself and what it derives from. *)
Definition chain := list (list meta).

(** 980-983. *)
Definition for_get (m : meta) : bool := match m_kind m with KGet | KData _ _ => true | _ => false end.
(** 985-993. *)
Definition for_set (m : meta) : bool := match m_kind m with KSet | KEvent => true | KData _ r => negb r | _ => false end.
(** 995-1003. *)
Definition for_unset (m : meta) : bool := match m_kind m with KUnSet | KEvent => true | KData _ r => negb r | _ => false end.
Definition is_bit (m : meta) : bool := match m_kind m with KBit => true | _ => false end.
Definition is_event (m : meta) : bool := match m_kind m with KEvent => true | _ => false end.
Definition is_data_bit (m : meta) : bool := match m_kind m with KData true _ => true | _ => false end.
(** BitLookup, 1005-1014. *)
Definition bit_lookup (c : chain) (id : Z) : option meta := find (fun m => (m_id m =? id) && is_bit m) (concat c).

(** CmpLookup, 1016-1030, with an entry that has only an Id (ArrayFind in AddLookup) and with one that is added; [last]: the third
    argument is the address of that entry. *)
Definition cmp_id (id : Z) (a : meta) : Z := if id <? m_id a then 1 else if m_id a <? id then -1 else 0.
Definition cmp_new (last : bool) (a b : meta) : Z :=
  if m_id b <? m_id a then 1 else if m_id a <? m_id b then -1
  else if is_bit a then 1 else if is_bit b then -1 else if last then -1 else 0.
(** ArrayAdd, array.c 504-519. *)
Definition add (last : bool) (l : list meta) (m : meta) : option (list meta) :=
  match array_add (cmp_new last) true l m with Some (l, _) => Some l | None => None end.
(** AddLookup, 1032-1052. *)
Definition add_lookup (c : chain) (l : list meta) (m : meta) : option (list meta) :=
  match array_find (cmp_id (m_id m)) l with
  | None => None
  | Some (_, found) =>
      if negb found || is_event m then
        if is_data_bit m then
          match bit_lookup c (m_id m) with
          | None => Some l
          | Some b => match add false l b with Some l => add true l m | None => None end
          end
        else add true l m
      else Some l
  end.
Fixpoint add_all (c : chain) (l : list meta) (ms : list meta) : option (list meta) :=
  match ms with [] => Some l | m :: ms => match add_lookup c l m with Some l => add_all c l ms | None => None end end.
(** BuildMetaLookup, 1070-1136, for one of the three filters; the table of a class with nothing for it is that of the class it derives from; [] stands for NULL. *)
Fixpoint table (f : meta -> bool) (c : chain) : option (list meta) :=
  match c with
  | [] => Some []
  | ms :: ps => if existsb f ms then add_all c [] (filter f (concat c)) else table f ps
  end.

(** What is found: nothing (ERR_INVALID_PARAM), a function or data with its bit, or the events to be called in turn. *)
Inductive found := Nothing | Entry (m : meta) (bit : option meta) | Events (ms : list meta) | Wild.
(** 2156-2157: back to the first entry with that Id. *)
Fixpoint back (l : list meta) (id : Z) (mid : nat) : nat :=
  match mid with
  | O => O
  | S k => match nth_error l k with Some m => if m_id m =? id then back l id k else mid | None => mid end
  end.
(** 2158-2166. *)
Fixpoint run_of (id : Z) (l : list meta) : list meta :=
  match l with [] => [] | m :: l => if m_id m =? id then m :: run_of id l else [] end.
(** The search, 2052-2061, 2137-2146; it is that of ArrayFind.  An entry before the first or behind the last is [Wild]. *)
Definition look (l : list meta) (id : Z) : option found :=
  match array_find (cmp_id id) l with
  | None => None
  | Some (_, false) => Some Nothing
  | Some (mid, true) =>
      match aget l mid with
      | None => Some Wild
      | Some m =>
          if is_event m then Some (Events (run_of id (skipn (back l id (Z.to_nat mid)) l)))
          else
            let mid := if is_bit m then mid - 1 else mid in
            match aget l mid with
            | None => Some Wild
            | Some m => if is_data_bit m then match aget l (mid + 1) with Some b => Some (Entry m (Some b)) | None => Some Wild end else Some (Entry m None)
            end
      end
  end.
Definition find_property (f : meta -> bool) (c : chain) (id : Z) : option found :=
  match table f c with Some l => look l id | None => None end.
