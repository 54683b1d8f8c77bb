(** Model of the string helpers of corec/corec/str/str.c (bounded copies, comparison, lists, FourCC) and of
    StringToFourCC (corec/corec/helpers/parser/strtypes.c).

    A buffer is the list of the characters allocated for it, as unsigned bytes (tchar_t is char); a read or
    write outside it is [Bad].  The source and the destination of a copy are different buffers. *)
From Verif Require Import Base Tree Arr.

(** ** Copies *)
(** tcslen (strlen, confhelper.h 44). *)
Fixpoint tcslen (l : list Z) : res Z :=
  match l with [] => Bad | b :: l => if b =? 0 then Ok 0 else do n <- tcslen l; Ok (n + 1) end.
(** memcpy(Out,In,n); Out[n] = 0, str.c 99-101: [pos] is where Out points in its buffer. *)
Definition copy_end (out : list Z) (pos : Z) (inp : list Z) (n : Z) : res (list Z) :=
  do c <- opt_res (mem_get inp 0 n); do o <- opt_res (mem_put out pos c); opt_res (mem_put o (pos + n) [0]).
(** tcscpy_s, 94-104. *)
Definition tcscpy_s (out : list Z) (pos len : Z) (inp : list Z) : res (list Z) :=
  if 0 <? len then do n <- tcslen inp; copy_end out pos inp (Z.min n (len - 1)) else Ok out.
(** tcsncpy_s, 106-116.  The length of In is taken before the limit n. *)
Definition tcsncpy_s (out : list Z) (pos len : Z) (inp : list Z) (n : Z) : res (list Z) :=
  if 0 <? len then do k <- tcslen inp; copy_end out pos inp (Z.min (Z.min k n) (len - 1)) else Ok out.
(** tcscat_s, 118-128, and tcsncat_s, 130-140. *)
Definition tcscat_s (out : list Z) (len : Z) (inp : list Z) : res (list Z) :=
  if 0 <? len then do n <- tcslen out; if n <? len then tcscpy_s out n (len - n) inp else Ok out else Ok out.
Definition tcsncat_s (out : list Z) (len : Z) (inp : list Z) (inlen : Z) : res (list Z) :=
  if 0 <? len then do n <- tcslen out; if n <? len then tcsncpy_s out n (len - n) inp inlen else Ok out else Ok out.

(** ** Comparison *)
(** ascii_upper, 10-15. *)
Definition ascii_upper (ch : Z) : Z := if (97 <=? ch) && (ch <=? 122) then ch - 32 else ch.
(** One step of icmp_ascii, 25-41: [None] = go on, [Some true] = both strings end, [Some false] = they differ. *)
Definition icmp_step (ca cb : Z) : option bool :=
  let x := Z.lxor cb ca in
  if negb (x =? 0) then
    let x := Z.land x (Z.lnot 32) in let c := Z.land ca (Z.lnot 32) in
    if negb (x =? 0) || (c <? 65) || (90 <? c) then Some false
    else if c =? 0 then Some true else None
  else if ca =? 0 then Some true else None.
(** tcsicmp_ascii, 43-54 (four steps a turn in the code).  char is signed. *)
Fixpoint tcsicmp_ascii (a b : list Z) : res Z :=
  match a, b with
  | x :: a, y :: b =>
      match icmp_step (s8 x) (s8 y) with
      | Some true => Ok 0
      | Some false => Ok (ascii_upper (s8 x) - ascii_upper (s8 y))
      | None => tcsicmp_ascii a b
      end
  | _, _ => Bad
  end.
(** tcsisame_ascii, 56-81. *)
Fixpoint tcsisame_ascii (a b : list Z) : res bool :=
  match a, b with
  | x :: a, y :: b =>
      match icmp_step (s8 x) (s8 y) with
      | Some true => Ok true
      | Some false => Ok false
      | None => tcsisame_ascii a b
      end
  | _, _ => Bad
  end.
(** tcsnicmp_ascii, 83-92; [n] is the limit. *)
Fixpoint tcsnicmp_ascii (n : nat) (a b : list Z) : res Z :=
  match n with
  | O => Ok 0
  | S n =>
      match a, b with
      | x :: a, y :: b =>
          match icmp_step (s8 x) (s8 y) with
          | Some true => Ok 0
          | Some false => Ok (ascii_upper (s8 x) - ascii_upper (s8 y))
          | None => tcsnicmp_ascii n a b
          end
      | _, _ => Bad
      end
  end.

(** ** Lists *)
(** tcschr (strchr): the rest of the string from the first [c] on. *)
Fixpoint tcschr (l : list Z) (c : Z) : res (option (list Z)) :=
  match l with
  | [] => Bad
  | b :: r => if b =? c then Ok (Some l) else if b =? 0 then Ok None else tcschr r c
  end.
Definition char_at (l : list Z) (i : Z) : res Z := do c <- opt_res (mem_get l i 1); Ok (hd 0 c).
(** StrListIndex, 847-866: the loop. *)
Fixpoint list_index (fuel : nat) (s : list Z) (n : Z) (i : Z) (l : list Z) : res Z :=
  match fuel with
  | O => Fuel
  | S fuel =>
      let next := do p <- tcschr l 44; match p with Some r => list_index fuel s n (i + 1) (tl r) | None => Ok (-1) end in
      do c <- tcsnicmp_ascii (Z.to_nat n) l s;
      if c =? 0 then
        do e <- char_at l n;
        if (e =? 0) || (e =? 44) || (e =? 32) then Ok i else next
      else next
  end.
Definition str_list_index (s : list Z) (l : option (list Z)) : res Z :=
  match l with
  | None => Ok (-1)
  | Some l =>
      do c <- char_at l 0;
      if c =? 0 then Ok (-1)
      else do n <- tcslen s; if n =? 0 then Ok (-1) else list_index (S (length l)) s n 0 l
  end.

(** ** FourCC *)
(** FOURCC, portab.h 264-276: the code whose bytes in memory are a, b, c, d; [be] is the host byte order. *)
Definition fourcc (be : bool) (a b c d : Z) : Z :=
  if be then Z.lor (Z.lor (Z.shiftl a 24) (Z.shiftl b 16)) (Z.lor (Z.shiftl c 8) d)
  else Z.lor (Z.lor a (Z.shiftl b 8)) (Z.lor (Z.shiftl c 16) (Z.shiftl d 24)).
(** The union of FourCCToString, 881-885. *)
Definition union_bytes (be : bool) (v : Z) : list Z := if be then be_bytes 4 v else rev (be_bytes 4 v).
(** while (i>0 && Out[i-1]=='_') --i, 892-893. *)
Fixpoint strip (out : list Z) (i : nat) : res nat :=
  match i with
  | O => Ok O
  | S j => do c <- char_at out (Z.of_nat j); if c =? 95 then strip out j else Ok i
  end.
(** FourCCToString, 876-899: the buffer and the length. *)
Definition fourcc_to_string (be : bool) (out : list Z) (len v : Z) : res (list Z * Z) :=
  if negb (len =? 0) then
    let n := Z.min 4 (len - 1) in
    do o <- opt_res (mem_put out 0 (firstn (Z.to_nat n) (union_bytes be v)));
    do i <- strip o (Z.to_nat n);
    do o <- opt_res (mem_put o (Z.of_nat i) [0]);
    Ok (o, Z.of_nat i)
  else Ok (out, 0).
(** tcsupr, 831-837, in the C locale. *)
Fixpoint tcsupr (l : list Z) : res (list Z) :=
  match l with [] => Bad | b :: r => if b =? 0 then Ok l else do r <- tcsupr r; Ok (ascii_upper b :: r) end.
(** The loop of StringToFourCC, strtypes.c 28-31: from the first zero at 1 or later. *)
Fixpoint fill (l : list Z) : list Z :=
  match l with [] => [] | b :: r => if b =? 0 then map (fun _ => 95) l else b :: fill r end.
(** StringToFourCC, strtypes.c 15-34.  [local] is what the local array s held before. *)
Definition string_to_fourcc (be : bool) (local : list Z) (inp : list Z) (upper : bool) : res Z :=
  do c <- char_at inp 0;
  if c =? 0 then Ok 0
  else
    do s <- tcscpy_s local 0 5 inp;
    do s <- (if upper then tcsupr s else Ok s);
    match s with
    | a :: r => match fill (firstn 3 r) with
                | [b; c; d] => Ok (fourcc be a b c d)
                | _ => Bad
                end
    | [] => Bad
    end.
