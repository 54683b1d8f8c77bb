(** Dynamic data of a node: corec/corec/node/node.c 16-62, 466-630, 1870-1874, 1909-1916, 1963-2008.

    Built with NDEBUG (assertions off), on a 64-bit system with one-byte tchar_t (sizes of types as in
    nodebase.h and portab.h); [W] is the number of bits of uint_fast32_t.  Memory never runs out.  The
    data of TYPE_NODENOTIFY is modelled in Notify.v; TYPE_EXPR and TYPE_NOTIFYEX, which call back when
    freed, are taken as plain data. *)
From Verif Require Import Base Tree.

(** nodebase.h 14: MAXDATA, with PATH_MAX of Linux, portab.h 249-255. *)
Definition MAXDATA : Z := 4096.
(** nodebase.h 22, 41, 45, 49-50: TYPE_STRING, TYPE_NODE_REF, TYPE_EXPR, TYPE_EXPRSTRING, TYPE_EXPRPARAM. *)
Definition T_STRING : Z := 4.
Definition T_NODE_REF : Z := 23.
Definition T_EXPRSTRING : Z := 31.
Definition T_EXPRPARAM : Z := 32.

(** ParamSize, node.c 18-62. *)
Definition param_size : list Z :=
  [0; 8; 4; 16; MAXDATA; 16; 8; 4; 4; 8; 8; 0; 16; 0; 24; 8; MAXDATA; 16; 1; 2; 4; 8; 8; 8; 8; 16; 0; MAXDATA;
   4; 8; 16; MAXDATA; MAXDATA; 4; 8; 16; 4; 0; 32; 0; 24; 8].
(** NodeTypeSize, node.c 1870-1874; TYPE_MASK, nodebase.h 62; outside the table is [None]. *)
Definition type_size (ty : Z) : option Z := nth_error param_size (Z.to_nat (Z.land ty 63)).

(** Bytes up to and including the first zero: tcsbytes, str/str.c 17-23. *)
Fixpoint str_bytes (d : list Z) : option (list Z) :=
  match d with
  | [] => None
  | c :: d => if c =? 0 then Some [c] else match str_bytes d with Some r => Some (c :: r) | None => None end
  end.

Definition is_str (ty : Z) : bool := (ty =? T_STRING) || (ty =? T_EXPRSTRING) || (ty =? T_EXPRPARAM).

Section NodeData.
(** Bits of uint_fast32_t; META_PARAM_SIZE of an identifier. *)
Context (W : Z) (meta_size : Z -> Z).

(** Node_MaxDataSize, node.c 1963-1981. *)
Definition max_data_size (id ty : Z) : option Z :=
  let ty := Z.land ty 63 in
  if ty =? 0 then Some 0
  else match type_size ty with
       | None => None
       | Some n => Some (if (n =? MAXDATA) && negb (ty =? T_STRING)
                         then (if meta_size id =? 0 then MAXDATA else meta_size id) else n)
       end.

(** Node_DataSize, node.c 1983-2008, and the bytes it covers: [Bad] when they are not all there;
    [None] is a NULL pointer. *)
Definition data_bytes (id ty : Z) (d : option (list Z)) : res (list Z) :=
  match d with
  | None => Ok []
  | Some d =>
      if is_str ty then opt_res (str_bytes d)
      else do n <- opt_res (max_data_size id ty);
           if zlen d <? n then Bad else Ok (firstn (Z.to_nat n) d)
  end.

(** Code of an entry, node.c 16, 488. *)
Definition code (id ty : Z) : Z := Z.lor (Z.shiftl id 8 mod 2 ^ W) ty.

(** The data list: code and bytes, first entry first; and how many references are held to a node more
    than at the beginning. *)
Record nst := mkNst { n_data : list (Z * list Z); n_refs : Z -> Z }.

(** *(node** )Data: a pointer in memory, least byte first. *)
Fixpoint le_ptr (d : list Z) : Z := match d with [] => 0 | c :: d => c + 256 * le_ptr d end.
Definition ref_add (f : Z -> Z) (p k : Z) : Z -> Z :=
  fun q => if (q =? p) && negb (p =? 0) then f q + k else f q.

(** Node_GetData, node.c 622-630. *)
Fixpoint lookup (l : list (Z * list Z)) (c : Z) : option (list Z) :=
  match l with [] => None | (c', v) :: l => if c' =? c then Some v else lookup l c end.
Definition get_data (s : nst) (id ty : Z) : option (list Z) := lookup (n_data s) (code id ty).

(** Node_RemoveData, node.c 500-512: the first entry of that code; DataFree, node.c 466-483, which
    releases the node of a TYPE_NODE_REF. *)
Fixpoint drop (l : list (Z * list Z)) (c : Z) : list (Z * list Z) :=
  match l with [] => [] | (c', v) :: l => if c' =? c then l else (c', v) :: drop l c end.
Definition remove_data (s : nst) (id ty : Z) : nst :=
  match get_data s id ty with
  | None => s
  | Some v => mkNst (drop (n_data s) (code id ty))
                    (if Z.land (code id ty) 63 =? T_NODE_REF then ref_add (n_refs s) (le_ptr v) (-1) else n_refs s)
  end.

(** Node_AddData, node.c 514-545. *)
Definition add_data (s : nst) (id ty : Z) (d : option (list Z)) : res nst :=
  do v <- data_bytes id (Z.land ty 63) d;
  match v with
  | [] => Ok s
  | _ => Ok (mkNst ((code id ty, v) :: n_data s)
                   (if ty =? T_NODE_REF then ref_add (n_refs s) (le_ptr v) 1 else n_refs s))
  end.

(** memcpy onto the first entry of that code, node.c 577. *)
Fixpoint overwrite (l : list (Z * list Z)) (c : Z) (v : list Z) : list (Z * list Z) :=
  match l with [] => [] | (c', v') :: l => if c' =? c then (c', v) :: l else (c', v') :: overwrite l c v end.

Definition all_zero (v : list Z) : bool := forallb (fun c => c =? 0) v.

(** SetData, node.c 547-584. *)
Definition set_data (s : nst) (id ty : Z) (d : option (list Z)) : res nst :=
  do v <- data_bytes id (Z.land ty 63) d;
  do n <- opt_res (type_size ty);
  if n =? MAXDATA then
    let s := remove_data s id ty in
    if all_zero v then Ok s else add_data s id ty d
  else if all_zero v then Ok (remove_data s id ty)
  else match get_data s id ty with
       | None => add_data s id ty d
       | Some _ => Ok (mkNst (overwrite (n_data s) (code id ty) v) (n_refs s))
       end.

(** tcscpy_s, str/str.c 94-108, into [n] bytes: at most n-1 and a zero. *)
Definition copy_str (v : list Z) (n : Z) : list Z :=
  firstn (Z.to_nat (n - 1)) (removelast v) ++ [0].

(** Node_ReadData, node.c 586-607: the bytes written at the beginning of a buffer of [n] > 0 bytes, or
    ERR_INVALID_PARAM ([None]).  [ty] below 64. *)
Definition read_data (s : nst) (id ty n : Z) : res (option (list Z)) :=
  match get_data s id ty with
  | Some v =>
      if ty =? T_STRING then Ok (Some (copy_str v n))
      else do w <- data_bytes id ty (Some v); Ok (if n <? zlen w then None else Some w)
  | None => Ok (Some (if ty =? T_STRING then [0] else repeat 0 (Z.to_nat n)))
  end.

(** Using the data of a node. *)
Inductive dop := DSet (id ty : Z) (d : option (list Z)) | DAdd (id ty : Z) (d : option (list Z)) | DRem (id ty : Z).
Definition dstep (s : nst) (o : dop) : res nst :=
  match o with
  | DSet id ty d => set_data s id ty d
  | DAdd id ty d => add_data s id ty d
  | DRem id ty => Ok (remove_data s id ty)
  end.
Fixpoint dsteps (s : nst) (l : list dop) : res nst :=
  match l with [] => Ok s | o :: l => do s <- dstep s o; dsteps s l end.

(** End of CallDelete, node.c 710-718: DataFree of the first entry, again and again. *)
Fixpoint free_all (l : list (Z * list Z)) (r : Z -> Z) : Z -> Z :=
  match l with
  | [] => r
  | (c, v) :: l => free_all l (if Z.land c 63 =? T_NODE_REF then ref_add r (le_ptr v) (-1) else r)
  end.
End NodeData.

(** A new node. *)
Definition nst0 : nst := mkNst [] (fun _ => 0).

(** EqFrac, node.c 1909-1916; cc_fraction, portab.h 173-177; the products are of int64_t. *)
Definition eq_frac (a b : Z * Z) : bool :=
  if (snd a =? snd b) && (fst a =? fst b) then true
  else if snd a =? 0 then snd b =? 0
  else if snd b =? 0 then false
  else s_wrap 64 (snd b * fst a) =? s_wrap 64 (snd a * fst b).
