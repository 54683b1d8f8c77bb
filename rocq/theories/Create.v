(** Creating, completing, copying and checking elements; libebml2/ebmlmain.c 191-204, ebmlmaster.c,
    ebmlelement.c, ebmlnumber.c, ebmlstring.c, ebmlbinary.c, ebmlcrc.c, ebmlvoid.c.

    Built with NDEBUG: the legality test of EBML_MasterAddElt (ebmlmaster.c 14-40) is a debug one.
    Allocations succeed. *)
From Verif Require Import Base Vint EbmlId IntElt Crc EltHead Ebml Tree TreeRead.

Section Create.
Context (E : schema).
(** (double)DefaultValue as an IEEE pattern. *)
Context (to_double : Z -> Z).

(** NodeCreate, then Create and PostCreate of every class with SetDefault 0 (ebmlelement.c 16-22, 48-53,
    ebmlnumber.c 314-336, ebmldate.c 70-75, ebmlcrc.c 186-192). *)
Definition fresh_info (k : kind) : info :=
  let c := kind_class E k in
  mkInfo k false (class_need c) true (match c with KCrc => 4 | _ => INVALID_FILEPOS end) (class_defsz c) 0
    INVALID_FILEPOS INVALID_FILEPOS INVALID_FILEPOS.
Definition fresh_elt (k : kind) : elt :=
  match kind_class E k with KMaster => Master (fresh_info k) 0 [] | c => Leaf (fresh_info k) (class_val c) end.

(** EBML_IntegerSetValue, ebmlnumber.c 430-435, EBML_FloatSetValue, 456-461, EBML_StringSetValue,
    ebmlstring.c 22-34. *)
Definition int_set (i : info) (v : Z) : elt := Leaf (with_need (with_set i true) true) (VInt (s64 v)).
Definition float_set (i : info) (bits : Z) : elt := Leaf (with_need (with_set i true) true) (VFlt bits).
Definition string_set (i : info) (s : list Z) : elt :=
  Leaf (with_need (with_set (with_dsize i (zlen s)) true) false) (VStr (Some (s ++ [0]))).

(** PostCreate of a leaf with SetDefault 1: ebmlnumber.c 314-336, ebmldate.c 70-75 (which calls the one
    of signed integers first), ebmlstring.c 175-187. *)
Definition default_leaf (c : Z) : elt :=
  let i := fresh_info (Known c) in
  match c_class (E c), c_def (E c) with
  | (KUInt | KSInt), Some (DInt y) => int_set i y
  | KDate, Some (DInt y) => match int_set i y with Leaf i v => Leaf (with_need i false) v | e => e end
  | KFloat, Some (DInt y) => float_set i (to_double y)
  | (KString | KUni), Some (DStr s) => string_set i s
  | _, _ => fresh_elt (Known c)
  end.

(** EBML_MasterFindFirstElt without creation: the loop, ebmlmaster.c 54-58. *)
Definition find_child (id : Z) (ch : list elt) : option elt := find (fun c => eid_of E (einfo c) =? id) ch.

(** EBML_MasterAddMandatory's loop, ebmlmaster.c 253-257; [mk] is EBML_ElementCreate. *)
Fixpoint fill (mk : Z -> res elt) (prof : Z) (l : list sem) (ch : list elt) : res (list elt) :=
  match l with
  | [] => Ok ch
  | s :: l =>
      if s_mand s && s_uniq s && (Z.land (s_dis s) prof =? 0) then
        match find_child (c_id (E (s_ctx s))) ch with
        | Some _ => fill mk prof l ch
        | None => do e <- mk (s_ctx s); fill mk prof l (ch ++ [e])
        end
      else fill mk prof l ch
  end.

(** EBML_MasterAppend sets both flags when a child is added (ebmlmaster.c 84-95). *)
Definition appended (i : info) (before after : list elt) : info :=
  if zlen before =? zlen after then i else with_set (with_need i true) true.

(** EBML_ElementCreate, ebmlmain.c 191-204, with the PostCreate of masters, ebmlmaster.c 260-269. *)
Fixpoint create (fuel : nat) (sd : bool) (prof : Z) (c : Z) : res elt :=
  match c_class (E c) with
  | KMaster =>
      let i := fresh_info (Known c) in
      if sd then
        match fuel with
        | O => Fuel
        | S fuel =>
            match c_sem (E c) with
            | None => Null
            | Some l => do ch <- fill (create fuel sd prof) prof l []; Ok (Master (with_set (appended i [] ch) true) 0 ch)
            end
        end
      else Ok (Master i 0 [])
  | _ => Ok (if sd then default_leaf c else fresh_elt (Known c))
  end.

(** EBML_MasterAddMandatory, ebmlmaster.c 250-258. *)
Definition add_mandatory (fuel : nat) (sd : bool) (prof : Z) (e : elt) : res elt :=
  match e with
  | Leaf _ _ => Ok e
  | Master i chk ch =>
      match e_kind i with
      | Dummy _ => Bad
      | Known c =>
          match c_sem (E c) with
          | None => Null
          | Some l => do ch' <- fill (create fuel sd prof) prof l ch; Ok (Master (appended i ch ch') chk ch')
          end
      end
  end.

(** EBML_MasterGetChild, ebml2/ebml.h 181: EBML_MasterFindFirstElt with creation, ebmlmaster.c 50-64.
    The child and the master. *)
Definition get_child (fuel : nat) (prof : Z) (c : Z) (e : elt) : res (elt * elt) :=
  match e with
  | Leaf _ _ => Bad
  | Master i chk ch =>
      match find_child (c_id (E c)) ch with
      | Some d => Ok (d, e)
      | None => do d <- create fuel true prof c; Ok (d, Master (with_set (with_need i true) true) chk (ch ++ [d]))
      end
  end.

(** CheckMandatory, ebmlmaster.c 171-182. *)
Fixpoint check_table (wd : bool) (prof : Z) (ch : list elt) (l : list sem) : bool :=
  match l with
  | [] => true
  | s :: l =>
      if s_mand s && (Z.land (s_dis s) prof =? 0) && (wd || match c_def (E (s_ctx s)) with None => true | Some _ => false end)
         && match find_child (c_id (E (s_ctx s))) ch with None => true | Some _ => false end
      then false else check_table wd prof ch l
  end.
(** EBML_MasterCheckMandatory, ebmlmaster.c 184-196. *)
Fixpoint check_mandatory (wd : bool) (prof : Z) (e : elt) : res bool :=
  match e with
  | Leaf _ _ => Ok true
  | Master i _ ch =>
      match e_kind i with
      | Dummy _ => Bad
      | Known c =>
          match c_sem (E c) with
          | None => Null
          | Some l =>
              if negb (check_table wd prof ch l) then Ok false
              else (fix all (l : list elt) : res bool :=
                      match l with
                      | [] => Ok true
                      | c :: l =>
                          match c with
                          | Leaf _ _ => all l
                          | Master _ _ _ => do b <- check_mandatory wd prof c; if b then all l else Ok false
                          end
                      end) ch
          end
      end
  end.

(** ** Copies *)
(** The fields every Copy sets on a new element (ebmlnumber.c 338-353, ebmlstring.c 201-207,
    ebmlbinary.c 81-87, ebmlcrc.c 173-180, ebmlvoid.c 44-50, ebmlmaster.c 563-569): DefaultSize and the
    infinite size mark are those of a new element. *)
Definition copy_info (i : info) : info :=
  let n := fresh_info (e_kind i) in
  mkInfo (e_kind i) (e_set i) (e_need i) true (e_dsize i) (e_defsz n) (e_szlen i) (e_epos i) (e_spos i) (e_end i).
(** strncpy(dst, src, n): bytes up to the terminator, zeros after it; [None] when it reads past the
    buffer without meeting a terminator. *)
Fixpoint strncpy (src : list Z) (n : nat) : option (list Z) :=
  match n with
  | O => Some []
  | S n => match src with
           | [] => None
           | c :: s => if c =? 0 then Some (repeat 0 (S n)) else match strncpy s n with Some r => Some (c :: r) | None => None end
           end
  end.
(** Copy of a string, ebmlstring.c 189-210.  A NULL source with a size of 0 bytes is accepted, as the C
    libraries do. *)
Definition copy_val (i : info) (v : val) : res val :=
  match v with
  | VStr b =>
      let n := Z.to_nat (e_dsize i + 1) in
      match b, n with
      | _, O => Ok (VStr (Some []))
      | None, _ => Null
      | Some b, n => do d <- opt_res (strncpy b n); Ok (VStr (Some d))
      end
  | _ => Ok v
  end.
(** EBML_ElementCopy.  Appending the copied children (ebmlmaster.c 572-581) sets both flags.  The copy
    of a dummy element keeps the address of the original's private context; that address is not
    modelled. *)
Fixpoint copy (e : elt) : res elt :=
  match e with
  | Leaf i v => do v <- copy_val i v; Ok (Leaf (copy_info i) v)
  | Master i chk ch =>
      do ch' <- (fix all (l : list elt) : res (list elt) :=
                   match l with
                   | [] => Ok []
                   | c :: l => do c <- copy c; do l <- all l; Ok (c :: l)
                   end) ch;
      Ok (Master (appended (copy_info i) [] ch') chk ch')
  end.

(** ** EBML_MasterCheckContext, ebmlmaster.c 619-667 *)
(** What is reported: MASTER_CHECK_PROFILE_INVALID with the child, MASTER_CHECK_MULTIPLE_UNIQUE with the
    second child of that ID, MASTER_CHECK_MISSING_MANDATORY with the class. *)
Inductive report := RProfile (e : elt) | RMultiple (e : elt) | RMissing (c : Z).
Definition is_dummy (e : elt) : bool := match kind_class E (e_kind (einfo e)) with KDummy => true | _ => false end.
(** EBML_MasterFindChild then EBML_MasterNextChild: the second child with that ID. *)
Definition second_child (id : Z) (ch : list elt) : option elt :=
  match filter (fun c => eid_of E (einfo c) =? id) ch with _ :: d :: _ => Some d | _ => None end.
Definition sem_of (l : list sem) (e : elt) : option sem := find (fun s => c_id (E (s_ctx s)) =? eid_of E (einfo e)) l.
Definition remove_nth (n : nat) (ch : list elt) : list elt := firstn n ch ++ skipn (S n) ch.

(** The first loop.  [n] is the place of [i] in the list of children; [cb] is the callback (its other
    arguments are fixed), [None] for a NULL one.  After a deletion [i] becomes the first child and the
    loop moves on to the one after it. *)
Fixpoint check_children (fuel : nat) (cb : option (report -> bool)) (prof : Z) (l : list sem) (ch : list elt) (n : nat) (acc : list report)
    : option (list elt * list report) :=
  match nth_error ch n with
  | None => Some (ch, rev acc)
  | Some c =>
      match fuel with
      | O => None
      | S fuel =>
          let next := check_children fuel cb prof l ch (S n) in
          let deleted := let ch := remove_nth n ch in check_children fuel cb prof l ch (match ch with [] => O | _ => 1%nat end) in
          if is_dummy c then next acc
          else match sem_of l c with
          | None => next acc
          | Some s =>
              let '(acc, gone) :=
                if negb (Z.land (s_dis s) prof =? 0)
                then match cb with None => (acc, false) | Some f => (RProfile c :: acc, f (RProfile c)) end else (acc, false) in
              if gone then deleted acc
              else match (if s_uniq s then second_child (c_id (E (s_ctx s))) ch else None) with
                   | None => next acc
                   | Some d => match cb with
                               | None => next acc
                               | Some f => if f (RMultiple d) then deleted (RMultiple d :: acc) else next (RMultiple d :: acc)
                               end
                   end
          end
      end
  end.
(** The second loop, ebmlmaster.c 658-666. *)
Definition missing (cb : option (report -> bool)) (l : list sem) (ch : list elt) : list report :=
  match cb with
  | None => []
  | Some _ => map (fun s => RMissing (s_ctx s))
      (filter (fun s => s_mand s && match c_def (E (s_ctx s)) with None => true | Some _ => false end
                        && match find_child (c_id (E (s_ctx s))) ch with None => true | Some _ => false end) l)
  end.
Definition check_context (fuel : nat) (cb : option (report -> bool)) (prof : Z) (e : elt) : res (elt * list report) :=
  match e with
  | Leaf _ _ => Bad
  | Master i chk ch =>
      match e_kind i with
      | Dummy _ => Bad
      | Known c =>
          match c_sem (E c) with
          | None => Null
          | Some l =>
              match check_children fuel cb prof l ch O [] with
              | None => Fuel
              | Some (ch', r) => Ok (Master (if zlen ch' =? zlen ch then i else with_need i true) chk ch', r ++ missing cb l ch')
              end
          end
      end
  end.

(** EBML_IntegerValue, ebmlnumber.c 437-444, EBML_FloatValue, 446-452, and the C string EBML_StringGet
    converts (ebmlstring.c 36-50): empty for a NULL buffer. *)
Definition int_value (e : elt) : option Z := match e with Leaf _ (VInt v) => Some v | _ => None end.
Definition float_value (e : elt) : option Z := match e with Leaf _ (VFlt v) => Some v | _ => None end.
Definition string_value (e : elt) : option (list Z) :=
  match e with Leaf _ (VStr None) => Some [] | Leaf _ (VStr (Some b)) => cstr b | _ => None end.
End Create.
