(** Dynamic arrays and FIFO, corec/corec/array/array.c. *)
From Verif Require Import Base.

(** ** Element-wise view, used by the sort and search functions.
    Simplification: one list item stands for Width bytes; memcpy of one item is an assignment.
    [None] is an access outside the items. *)
Section Items.
Context {A : Type}.
Context (cmp : A -> A -> Z).

Definition aget (a : list A) (i : Z) : option A := if i <? 0 then None else nth_error a (Z.to_nat i).
Fixpoint upd (a : list A) (n : nat) (x : A) : list A :=
  match a, n with
  | [], _ => []
  | _ :: t, O => x :: t
  | h :: t, S n' => h :: upd t n' x
  end.
Definition aset (a : list A) (i : Z) (x : A) : option (list A) :=
  if (i <? 0) || (zlen a <=? i) then None else Some (upd a (Z.to_nat i) x).
(** Cmp(CmpParam, &a[i], &a[j]) *)
Definition acmp (a : list A) (i j : Z) : option Z :=
  match aget a i, aget a j with Some x, Some y => Some (cmp x y) | _, _ => None end.
(** InQSortSwap, array.c 269-274. *)
Definition aswap (a : list A) (i j : Z) : option (list A) :=
  match aget a i, aget a j with
  | Some x, Some y => match aset a i y with Some a' => aset a' j x | None => None end
  | _, _ => None
  end.

(** array.c 281-300: choice of the pivot among First, Mid and Last. *)
Definition qs_ref (a : list A) (first last : Z) : option Z :=
  let mid := first + Z.shiftr (last - first) 1 in
  match acmp a first last, acmp a last mid, acmp a first mid with
  | Some fl, Some lm, Some fm =>
      Some (if fl <? 0 then (if lm <? 0 then last else if fm <? 0 then mid else first)
            else if 0 <=? fm then (if lm <? 0 then mid else last) else first)
  | _, _, _ => None
  end.

(** array.c 310: while (++Left < Last && Cmp(First,Left) > 0). *)
Fixpoint qs_left (fuel : nat) (a : list A) (first last lft : Z) : option Z :=
  match fuel with
  | O => None
  | S f =>
      let lft := lft + 1 in
      if lft <? last then
        match acmp a first lft with
        | Some c => if 0 <? c then qs_left f a first last lft else Some lft
        | None => None
        end
      else Some lft
  end.
(** array.c 312: while (Cmp(First,--Right) < 0). *)
Fixpoint qs_right (fuel : nat) (a : list A) (first rgt : Z) : option Z :=
  match fuel with
  | O => None
  | S f =>
      let rgt := rgt - 1 in
      match acmp a first rgt with
      | Some c => if c <? 0 then qs_right f a first rgt else Some rgt
      | None => None
      end
  end.
(** array.c 308-318. *)
Fixpoint qs_part (fuel : nat) (a : list A) (first last lft rgt : Z) : option (list A * Z * Z) :=
  match fuel with
  | O => None
  | S f =>
      match qs_left (S (length a)) a first last lft with
      | None => None
      | Some lft =>
          match qs_right (S (length a)) a first rgt with
          | None => None
          | Some rgt =>
              if rgt <=? lft then Some (a, lft, rgt)
              else match aswap a lft rgt with
                   | Some a' => qs_part f a' first last lft rgt
                   | None => None
                   end
          end
      end
  end.

Definition QSORTMINLEN : Z := 16.

(** InQSort, array.c 276-344.  First and Last are item indices. *)
Fixpoint in_qsort (fuel : nat) (a : list A) (first last : Z) : option (list A) :=
  if first + QSORTMINLEN <? last then
    match fuel with
    | O => None
    | S f =>
        match qs_ref a first last with
        | None => None
        | Some ref =>
            match (if ref =? first then Some a else aswap a first ref) with
            | None => None
            | Some a =>
                match qs_part (S (length a)) a first last first (last + 1) with
                | None => None
                | Some (a, lft, rgt) =>
                    if rgt =? first then in_qsort f a (first + 1) last
                    else
                      match aswap a first rgt with
                      | None => None
                      | Some a =>
                          let rgt := rgt - 1 in
                          if rgt - first <? last - lft then
                            match (if QSORTMINLEN + first <? rgt then in_qsort f a first rgt else Some a) with
                            | Some a => in_qsort f a lft last
                            | None => None
                            end
                          else
                            match (if QSORTMINLEN + lft <? last then in_qsort f a lft last else Some a) with
                            | Some a => in_qsort f a first rgt
                            | None => None
                            end
                      end
                end
            end
        end
    end
  else Some a.

(** Inner loop of the insertion sort, array.c 416-423 and 363-374: shift items up while Tmp is
    below them, then store Tmp. *)
Fixpoint is_inner (fuel : nat) (a : list A) (j : Z) (tmp : A) : option (list A) :=
  match fuel with
  | O => None
  | S f =>
      match aget a j with
      | None => None
      | Some y =>
          match aset a (j + 1) y with
          | None => None
          | Some a =>
              if j =? 0 then aset a (j - 1 + 1) tmp
              else
                let j := j - 1 in
                match aget a j with
                | None => None
                | Some z => if cmp tmp z <? 0 then is_inner f a j tmp else aset a (j + 1) tmp
                end
          end
      end
  end.
(** array.c 410-426 and 357-377: [k] iterations left, current index i, j = i - 1. *)
Fixpoint is_outer (k : nat) (a : list A) (i : Z) : option (list A) :=
  match k with
  | O => Some a
  | S k' =>
      match aget a i, acmp a i (i - 1) with
      | Some tmp, Some c =>
          if c <? 0 then
            match is_inner (S (length a)) a (i - 1) tmp with
            | Some a' => is_outer k' a' (i + 1)
            | None => None
            end
          else is_outer k' a (i + 1)
      | _, _ => None
      end
  end.
(** Duplicate removal, array.c 428-437 and 379-391: the result is the items up to j. *)
Fixpoint uniq_loop (k : nat) (a : list A) (i j : Z) : option (list A) :=
  match k with
  | O => Some (firstn (Z.to_nat (j + 1)) a)
  | S k' =>
      match aget a i, acmp a i j with
      | Some x, Some c =>
          if c =? 0 then uniq_loop k' a (i + 1) j
          else match aset a (j + 1) x with
               | Some a' => uniq_loop k' a' (i + 1) (j + 1)
               | None => None
               end
      | _, _ => None
      end
  end.

(** ArraySortEx, array.c 394-442, on the whole array (ARRAY_AUTO_COUNT or its full count).
    [fast] is Width == sizeof(uint_fast32_t). *)
Definition array_sort (fast unique : bool) (a : list A) : option (list A) :=
  if zlen a <=? 1 then Some a
  else
    match (if fast then in_qsort (length a) a 0 (zlen a - 1) else Some a) with
    | None => None
    | Some a =>
        match is_outer (length a - 1) a 1 with
        | None => None
        | Some a => if unique then uniq_loop (length a - 1) a 1 0 else Some a
        end
    end.
End Items.

(** ArrayFindEx with a comparison, array.c 446-487.  [cmpd x] is Cmp(CmpParam, x, Data).
    Result: position and *Found; [None] = outside access or fuel. *)
Fixpoint find_loop {A} (fuel : nat) (cmpd : A -> Z) (a : list A) (mid lower upper : Z) : option (Z * bool) :=
  if lower <=? upper then
    match fuel with
    | O => None
    | S f =>
        let mid := Z.shiftr (upper + lower) 1 in
        match aget a mid with
        | None => None
        | Some x =>
            let i := cmpd x in
            if 0 <? i then find_loop f cmpd a mid lower (mid - 1)
            else if i <? 0 then find_loop f cmpd a mid (mid + 1) upper
            else Some (mid, true)
        end
    end
  else Some (if upper =? mid - 1 then mid else lower, false).
Definition array_find {A} (cmpd : A -> Z) (a : list A) : option (Z * bool) :=
  match a with
  | [] => Some (0, false)
  | _ => find_loop (length a) cmpd a 0 0 (zlen a - 1)
  end.
(** ArrayFindEx without a comparison, array.c 490-500: memcmp with Data. *)
Fixpoint array_find_eq {A} (eqd : A -> bool) (a : list A) (no : Z) : Z * bool :=
  match a with
  | [] => (no, false)
  | x :: a' => if eqd x then (no, true) else array_find_eq eqd a' (no + 1)
  end.

(** List effect of ArrayInsert / ArrayDelete on items (their byte-level model is below). *)
Definition item_insert {A} (a : list A) (pos : Z) (x : A) : list A :=
  firstn (Z.to_nat pos) a ++ x :: skipn (Z.to_nat pos) a.
Definition item_delete {A} (a : list A) (pos : Z) : list A :=
  firstn (Z.to_nat pos) a ++ skipn (Z.to_nat (pos + 1)) a.

(** ArrayAddEx, array.c 504-519.  [ok] tells whether the allocation succeeds; the returned
    position is -1 when it fails. *)
Definition array_add {A} (cmp : A -> A -> Z) (ok : bool) (a : list A) (x : A) : option (list A * Z) :=
  match array_find (fun y => cmp y x) a with
  | None => None
  | Some (pos, found) =>
      if found then match aset a pos x with Some a' => Some (a', pos) | None => None end
      else if ok then Some (item_insert a pos x, pos) else Some (a, -1)
  end.
(** ArrayRemoveEx, array.c 521-528. *)
Definition array_remove {A} (cmp : A -> A -> Z) (a : list A) (x : A) : option (list A * bool) :=
  match array_find (fun y => cmp y x) a with
  | None => None
  | Some (pos, found) => Some (if found then item_delete a pos else a, found)
  end.

(** ** Byte-level arrays.  [mem] is the whole allocation (Data_Size bytes), [used] is _Used. *)
Record barr := mkArr { mem : list Z; used : Z }.

(** SizeAlign, array.c 170-180 (size_t arithmetic without overflow). *)
Fixpoint align_loop (k : nat) (align total : Z) : Z :=
  match k with
  | O => align
  | S k' => if align <? 16384 then (if total <? align * 8 then align else align_loop k' (Z.shiftl align 1) total) else align
  end.
Definition size_align (total align : Z) : Z :=
  let align := if align =? 0 then align_loop 11 16 total else align in
  let m := align - 1 in
  Z.land (total + m) (Z.lnot m).

(** Data_ReAlloc, array.c 59-120: [ok] is the allocator's answer, [junk] the contents of fresh
    memory.  The heap bookkeeping (malloc, realloc, memheap) is not modelled. *)
Definition data_realloc (ok : bool) (junk : Z) (a : barr) (n : Z) : option barr :=
  if zlen (mem a) <? n then
    (if ok then Some (mkArr (mem a ++ repeat junk (Z.to_nat (n - zlen (mem a)))) (used a)) else None)
  else Some a.
(** ArrayAlloc, array.c 182-189. *)
Definition array_alloc (ok : bool) (junk : Z) (a : barr) (total align : Z) : option barr :=
  data_realloc ok junk a (size_align total align).

(** memcpy/memmove into the allocation; [None] when it leaves it. *)
Definition mem_put (m : list Z) (pos : Z) (bs : list Z) : option (list Z) :=
  if (pos <? 0) || (zlen m <? pos + zlen bs) then None
  else Some (firstn (Z.to_nat pos) m ++ bs ++ skipn (Z.to_nat (pos + zlen bs)) m).
Definition mem_get (m : list Z) (pos n : Z) : option (list Z) :=
  if (pos <? 0) || (n <? 0) || (zlen m <? pos + n) then None
  else Some (firstn (Z.to_nat n) (skipn (Z.to_nat pos) m)).

(** Results: [AFault] is an access outside the allocation. *)
Inductive ares := AOk (a : barr) | AFail (a : barr) | AFault.

(** ArrayAppend, array.c 227-236.  [src] is None for a NULL pointer (length [len]). *)
Definition array_append (ok : bool) (junk : Z) (a : barr) (src : option (list Z)) (len align : Z) : ares :=
  let total := used a + len in
  match (if zlen (mem a) <? total then array_alloc ok junk a total align else Some a) with
  | None => AFail a
  | Some a =>
      match src with
      | None => AOk (mkArr (mem a) (used a + len))
      | Some bs =>
          match mem_put (mem a) (used a) bs with
          | Some m => AOk (mkArr m (used a + len))
          | None => AFault
          end
      end
  end.
(** ArrayInsert, array.c 199-207. *)
Definition array_insert (ok : bool) (junk : Z) (a : barr) (ofs : Z) (src : option (list Z)) (width align : Z) : ares :=
  match array_append ok junk a None width align with
  | AOk a =>
      match mem_get (mem a) ofs (used a - width - ofs) with
      | None => AFault
      | Some bs =>
          match mem_put (mem a) (ofs + width) bs with
          | None => AFault
          | Some m =>
              match src with
              | None => AOk (mkArr m (used a))
              | Some s => match mem_put m ofs s with Some m => AOk (mkArr m (used a)) | None => AFault end
              end
          end
      end
  | r => r
  end.
(** ArrayDelete, array.c 209-213. *)
Definition array_delete (a : barr) (ofs width : Z) : ares :=
  match mem_get (mem a) (ofs + width) (used a - width - ofs) with
  | None => AFault
  | Some bs =>
      match mem_put (mem a) ofs bs with
      | Some m => AOk (mkArr m (used a - width))
      | None => AFault
      end
  end.
(** ArrayShrink, array.c 191-197; ArrayDrop 165-168; ArrayResize 254-260. *)
Definition array_shrink (a : barr) (len : Z) : barr :=
  mkArr (mem a) (if len <? used a then used a - len else 0).
Definition array_drop (a : barr) : barr := mkArr (mem a) 0.
Definition array_resize (ok : bool) (junk : Z) (a : barr) (total align : Z) : ares :=
  match (if zlen (mem a) <? total then array_alloc ok junk a total align else Some a) with
  | None => AFail a
  | Some a => AOk (mkArr (mem a) total)
  end.
(** ArrayCopy, array.c 245-252. *)
Definition array_copy (ok : bool) (junk : Z) (p q : barr) : ares :=
  match array_resize ok junk p (used q) 0 with
  | AOk p =>
      match mem_get (mem q) 0 (used q) with
      | Some bs => match mem_put (mem p) 0 bs with Some m => AOk (mkArr m (used p)) | None => AFault end
      | None => AFault
      end
  | r => r
  end.

(** ** FIFO, array.c 530-580 and array.h: [base] is _Base, [rdpos] is _Read. *)
Definition SAFETAIL : Z := 256.
Record fifo := mkFifo { base : barr; rdpos : Z }.
Inductive fres := FOk (f : fifo) | FFail (f : fifo) | FFault.

(** Fifo_Write, array.c 551-580. *)
Definition fifo_write (ok : bool) (junk : Z) (f : fifo) (bs : list Z) (align : Z) : fres :=
  let total := zlen (mem (base f)) in
  let e := used (base f) + zlen bs + SAFETAIL in
  let compacted :=
    if (total <? e) && (0 <? rdpos f) then
      match mem_get (mem (base f)) (rdpos f) (used (base f) - rdpos f) with
      | None => None
      | Some live =>
          match mem_put (mem (base f)) 0 live with
          | None => None
          | Some m => Some (mkFifo (mkArr m (used (base f) - rdpos f)) 0, e - rdpos f)
          end
      end
    else Some (f, e) in
  match compacted with
  | None => FFault
  | Some (f, e) =>
      match (if total <? e then array_alloc ok junk (base f) e align else Some (base f)) with
      | None => FFail f
      | Some b =>
          match mem_put (mem b) (used b) bs with
          | None => FFault
          | Some m => FOk (mkFifo (mkArr m (used b + zlen bs)) (rdpos f))
          end
      end
  end.
(** Fifo_Readed, array.h: the reader consumed [n] bytes starting at FIFO_BEGIN; the bytes seen. *)
Definition fifo_read (f : fifo) (n : Z) : option (list Z * fifo) :=
  match mem_get (mem (base f)) (rdpos f) n with
  | None => None
  | Some bs => Some (bs, mkFifo (base f) (rdpos f + n))
  end.
(** FIFO_SIZE and the pending bytes, array.h. *)
Definition fifo_size (f : fifo) : Z := used (base f) - rdpos f.
