(** corec: how a property of a node is resolved and stored: corec/corec/node/node.c 981-1136 (tables built for a
    class), 2041-2543 (MetaGet, MetaSet, MetaUnSet).  Built with NDEBUG, without CONFIG_CORECDOC. *)
From Verif Require Import Base Arr Ebml Tree NodeData.

(** The entries of a class table that play a part: functions, handlers, bits, and data with its type, its offset in
    the object, its flags (META_PARAM_DATA_FLAGS, 0 without) and its update function. *)
Inductive meta := MGet (f : Z) | MSet (f : Z) | MUnSet (f : Z) | MEvent (f : Z) | MBit (mask : Z) | MData (ty ofs flags : Z) (upd : option Z).
Record entry := mkE { e_id : Z; e_meta : meta }.
(** The tables of a class and of its parents, nearest first. *)
Definition chain := list (list entry).
Inductive want := WGet | WSet | WUnSet.
Definition DFLAG_RDONLY : Z := 1.
Definition DFLAG_CMP : Z := 2.
Definition T_BOOL_BIT : Z := 24.

(** FilterLookupGet, FilterLookupSet, FilterLookupUnSet, 981-1004. *)
Definition wanted (w : want) (m : meta) : bool :=
  match w, m with
  | WGet, MGet _ => true
  | WGet, MData _ _ _ _ => true
  | WSet, MSet _ => true
  | WUnSet, MUnSet _ => true
  | (WSet | WUnSet), MEvent _ => true
  | (WSet | WUnSet), MData _ _ fl _ => Z.land fl DFLAG_RDONLY =? 0
  | _, _ => false
  end.
Definition is_bit (m : meta) : bool := match m with MBit _ => true | _ => false end.
Definition is_event (m : meta) : bool := match m with MEvent _ => true | _ => false end.
Definition needs_bit (m : meta) : bool := match m with MData ty _ _ _ => ty =? T_BOOL_BIT | _ => false end.

(** BitLookup, 1006-1015. *)
Fixpoint bit_in (id : Z) (l : list entry) : option entry :=
  match l with [] => None | e :: l => if (e_id e =? id) && is_bit (e_meta e) then Some e else bit_in id l end.
Fixpoint bit_lookup (id : Z) (c : chain) : option entry :=
  match c with [] => None | l :: c => match bit_in id l with Some e => Some e | None => bit_lookup id c end end.

(** CmpLookup, 1017-1031, of an item and the key: [k] is its Meta ([None] is NULL), [p] tells that the key is the
    pointer given as the parameter. *)
Definition cmp_key (p : bool) (id : Z) (k : option meta) (a : entry) : Z :=
  if id <? e_id a then 1
  else if e_id a <? id then -1
  else if match k with Some _ => is_bit (e_meta a) | None => false end then 1
  else if match k with Some m => is_bit m | None => false end then -1
  else if p then -1 else 0.
Definition insert (p : bool) (l : list entry) (e : entry) : option (list entry) :=
  match array_add (fun a e => cmp_key p (e_id e) (Some (e_meta e)) a) true l e with Some (l, _) => Some l | None => None end.
(** AddLookup, 1033-1053. *)
Definition add_lookup (c : chain) (l : list entry) (e : entry) : option (list entry) :=
  match array_find (cmp_key false (e_id e) None) l with
  | None => None
  | Some (_, found) =>
      if negb found || is_event (e_meta e) then
        if needs_bit (e_meta e) then
          match bit_lookup (e_id e) c with
          | None => Some l
          | Some b => match insert false l b with Some l => insert true l e | None => None end
          end
        else insert true l e
      else Some l
  end.
Fixpoint add_all (w : want) (c : chain) (l : list entry) (es : list entry) : option (list entry) :=
  match es with
  | [] => Some l
  | e :: es => if wanted w (e_meta e) then match add_lookup c l e with Some l => add_all w c l es | None => None end else add_all w c l es
  end.
(** BuildMetaLookup, 1070-1136: the table of a class, or the one of its parent. *)
Fixpoint build (w : want) (c : chain) : option (list entry) :=
  match c with
  | [] => Some []
  | l :: rest => if existsb (fun e => wanted w (e_meta e)) l then add_all w c [] (concat c) else build w rest
  end.

(** The search of MetaGet, MetaSet and MetaUnSet, 2048-2061, 2133-2146, 2343-2356. *)
Fixpoint bs_loop (fuel : nat) (l : list entry) (id lower upper : Z) : res (option Z) :=
  match fuel with
  | O => Fuel
  | S fuel =>
      if upper <? lower then Ok None
      else
        let mid := Z.shiftr (upper + lower) 1 in
        do e <- opt_res (aget l mid);
        if id <? e_id e then bs_loop fuel l id lower (mid - 1)
        else if e_id e <? id then bs_loop fuel l id (mid + 1) upper
        else Ok (Some mid)
  end.
(** 2156-2171, 2366-2381: back to the first of the same ID, then all of them. *)
Fixpoint rewind (n : nat) (l : list entry) (id mid : Z) : res Z :=
  match n with
  | O => Fuel
  | S n => if 0 <? mid then do e <- opt_res (aget l (mid - 1)); if e_id e =? id then rewind n l id (mid - 1) else Ok mid else Ok mid
  end.
Fixpoint collect (l : list entry) (id : Z) : res (list Z) :=
  match l with
  | [] => Ok []
  | e :: l => if e_id e =? id then match e_meta e with MEvent f => do fs <- collect l id; Ok (f :: fs) | _ => Bad end else Ok []
  end.
(** What is done for a property: a function of the class, handlers in this order until one fails, data in the object
    (with a bit for TYPE_BOOL_BIT), or nothing (ERR_INVALID_PARAM). *)
Inductive action := ACall (f : Z) | AEvents (fs : list Z) | AData (ty ofs flags : Z) (upd : option Z) (mask : option Z) | ANone.
(** The data at [mid], 2069-2074, 2098-2101, 2173-2176 and 2276-2277. *)
Definition data_at (l : list entry) (id mid : Z) : res action :=
  do e <- opt_res (aget l mid);
  match e_meta e with
  | MData ty ofs fl u =>
      if ty =? T_BOOL_BIT then
        do b <- opt_res (aget l (mid + 1));
        match e_meta b with MBit m => if e_id b =? id then Ok (AData ty ofs fl u (Some m)) else Bad | _ => Bad end
      else Ok (AData ty ofs fl u None)
  | _ => Bad
  end.
(** MetaGet, 2041-2074, MetaSet, 2126-2180, MetaUnSet, 2336-2390: up to the use of the data. *)
Definition resolve (w : want) (l : list entry) (id : Z) : res action :=
  do i <- bs_loop (S (length l)) l id 0 (zlen l - 1);
  match i with
  | None => Ok ANone
  | Some mid =>
      do e <- opt_res (aget l mid);
      match w, e_meta e with
      | WGet, MGet f | WSet, MSet f | WUnSet, MUnSet f => Ok (ACall f)
      | (WSet | WUnSet), MEvent _ => do k <- rewind (S (length l)) l id mid; do fs <- collect (skipn (Z.to_nat k) l) id; Ok (AEvents fs)
      | _, MBit _ => data_at l id (mid - 1)
      | _, _ => data_at l id mid
      end
  end.
Definition property (w : want) (c : chain) (id : Z) : res action := do l <- opt_res (build w c); resolve w l id.

(** ** Data in the object *)
Section Store.
Context (meta_size : Z -> Z).
(** Whether update functions fail; simplification: they do not change the object. *)
Context (upd_err : Z -> Z).
Definition ERR_INVALID_PARAM : Z := -4.
Definition ERR_INVALID_DATA : Z := -3.
(** Bytes [ofs] to [ofs]+[n] of the object. *)
Definition load (o : list Z) (ofs n : Z) : res (list Z) :=
  if (0 <=? ofs) && (ofs + n <=? zlen o) then Ok (firstn (Z.to_nat n) (skipn (Z.to_nat ofs) o)) else Bad.
Definition store (o : list Z) (ofs : Z) (d : list Z) : res (list Z) :=
  if (0 <=? ofs) && (ofs + zlen d <=? zlen o) then Ok (firstn (Z.to_nat ofs) o ++ d ++ skipn (Z.to_nat (ofs + zlen d)) o) else Bad.
(** Little endian numbers of [n] bytes. *)
Fixpoint le_bytes (n : nat) (x : Z) : list Z := match n with O => [] | S n => x mod 256 :: le_bytes n (x / 256) end.
(** A bool_t (int_fast32_t) of 8 bytes; a uint32_t of 4. *)
Definition bool_bytes (b : bool) : list Z := le_bytes 8 (if b then 1 else 0).
(** Types kept in another way: TYPE_STRING, TYPE_NODE_REF, TYPE_ARRAY, TYPE_EXPRSTRING, TYPE_EXPRPARAM. *)
Definition special (ty : Z) : bool := existsb (Z.eqb ty) [T_STRING; T_NODE_REF; 30; T_EXPRSTRING; T_EXPRPARAM].
(** EqData, 1920-1956, of the bytes there with the new ones ([None] is NULL); TYPE_FRACTION is 3. *)
Definition frac (d : list Z) : Z * Z := (s_wrap 64 (le_ptr (firstn 8 d)), s_wrap 64 (le_ptr (skipn 8 d))).
Definition eq_data (ty : Z) (a : list Z) (b : option (list Z)) : bool :=
  match b with
  | None => all_zero a
  | Some b => if ty =? 3 then eq_frac (frac a) (frac b) else if list_eq_dec Z.eq_dec a b then true else false
  end.

(** MetaGet of data in the object, 2091-2119: the error and the bytes stored.  Simplification: not for the special
    types ([Bad]). *)
Definition get_value (o : list Z) (id ty ofs : Z) (mask : option Z) (size : Z) : res (Z * list Z) :=
  if special ty then Bad
  else match mask with
  | Some m =>
      if negb (size =? 8) then Ok (ERR_INVALID_DATA, [])
      else do d <- load o ofs 4; Ok (0, bool_bytes (negb (Z.land (le_ptr d) m =? 0)))
  | None =>
      do n <- opt_res (max_data_size meta_size id ty);
      if negb (n =? size) then Ok (ERR_INVALID_DATA, []) else do d <- load o ofs n; Ok (0, d)
  end.
(** MetaSet and MetaUnSet of data in the object, 2224-2329, 2433-2538; [d] is the data, all of it of Size bytes ([None]
    is NULL).  Simplifications: not for the special types ([Bad]), without DFLAG_VERIFY_CLASS, release functions and
    notification. *)
Definition set_value (o : list Z) (id ty ofs flags : Z) (upd : option Z) (mask : option Z) (d : option (list Z)) : res (Z * list Z) :=
  if special ty then Bad
  else
  do n <- opt_res (max_data_size meta_size id ty);
  if match d with Some d => negb (zlen d =? n) | None => false end then Ok (ERR_INVALID_DATA, o)
  else
    do now <- (match mask with Some m => do w <- load o ofs 4; Ok (bool_bytes (negb (Z.land (le_ptr w) m =? 0))) | None => load o ofs n end);
    if negb (Z.land flags DFLAG_CMP =? 0) && eq_data ty now d then Ok (0, o)
    else
      do o <- (match mask with
               | Some m =>
                   do w <- load o ofs 4;
                   store o ofs (le_bytes 4 (if match d with Some d => negb (all_zero d) | None => false end then Z.lor (le_ptr w) m else Z.land (le_ptr w) (Z.lnot m)))
               | None => store o ofs (match d with Some d => d | None => repeat 0 (Z.to_nat n) end)
               end);
      Ok (match upd with Some f => upd_err f | None => 0 end, o).
(** Node_Get, and Node_Set or Node_UnSet, of a property that is data: the functions of a class are not modelled. *)
Definition get_prop (c : chain) (o : list Z) (id size : Z) : res (Z * list Z) :=
  do a <- property WGet c id;
  match a with AData ty ofs _ _ mask => get_value o id ty ofs mask size | ANone => Ok (ERR_INVALID_PARAM, []) | _ => Bad end.
Definition set_prop (w : want) (c : chain) (o : list Z) (id : Z) (d : option (list Z)) : res (Z * list Z) :=
  do a <- property w c id;
  match a with AData ty ofs fl u mask => set_value o id ty ofs fl u mask d | ANone => Ok (ERR_INVALID_PARAM, o) | _ => Bad end.
End Store.
