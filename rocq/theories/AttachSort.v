(** Sorting the attachments of a segment: MATROSKA_AttachmentSort, libmatroska2/matroskamain.c 806-810,
    with CmpAttachedFile, 2142-2212, the comparison of attached files.  Built with NDEBUG. *)
From Verif Require Import Base Arr NodeTree Tree Str.

(** The names of cover art, 2163-2174 and 2179-2190, with their terminating NUL. *)
Definition COVER_JPG := [99; 111; 118; 101; 114; 46; 106; 112; 103; 0].
Definition COVER_PNG := [99; 111; 118; 101; 114; 46; 112; 110; 103; 0].
Definition LAND_JPG := [99; 111; 118; 101; 114; 95; 108; 97; 110; 100; 46; 106; 112; 103; 0].
Definition LAND_PNG := [99; 111; 118; 101; 114; 95; 108; 97; 110; 100; 46; 112; 110; 103; 0].
Definition SMALL_JPG := [115; 109; 97; 108; 108; 95; 99; 111; 118; 101; 114; 46; 106; 112; 103; 0].
Definition SMALL_PNG := [115; 109; 97; 108; 108; 95; 99; 111; 118; 101; 114; 46; 112; 110; 103; 0].
Definition SMALL_LAND_JPG := [115; 109; 97; 108; 108; 95; 99; 111; 118; 101; 114; 95; 108; 97; 110; 100; 46; 106; 112; 103; 0].
Definition SMALL_LAND_PNG := [115; 109; 97; 108; 108; 95; 99; 111; 118; 101; 114; 95; 108; 97; 110; 100; 46; 112; 110; 103; 0].

(** The flags CoverX, LandCoverX, SmallCoverX of a file name, 2163-2176 and 2178-2191. *)
Definition either (n a b : list Z) : res bool := do x <- tcsisame_ascii n a; if x then Ok true else tcsisame_ascii n b.
Definition art_flags (n : list Z) : res (bool * bool * bool) :=
  do a <- either n COVER_JPG COVER_PNG;
  if a then Ok (true, false, false) else
  do b <- either n LAND_JPG LAND_PNG;
  if b then Ok (false, true, false) else
  do c <- either n SMALL_JPG SMALL_PNG;
  if c then Ok (true, false, true) else
  do d <- either n SMALL_LAND_JPG SMALL_LAND_PNG;
  if d then Ok (false, true, true) else Ok (false, false, false).

(** tcscmp, corec/corec/str/str_linux.c 12-15: strcmp.  Simplification: the result is the
    difference of the first bytes that differ; the C library fixes only its sign. *)
Fixpoint tcscmp (a b : list Z) : res Z :=
  match a, b with
  | x :: a, y :: b => if x =? y then (if x =? 0 then Ok 0 else tcscmp a b) else Ok (x - y)
  | _, _ => Bad
  end.

Definition b2z (b : bool) : Z := if b then 1 else 0.
(** CmpAttachedFile, 2142-2212.  An attached file is seen as its FileName: [None] without such a child,
    else what EBML_StringGet stores in a buffer of MAXPATH characters, without its NUL.  *)
Definition attach_cmp (a b : option (list Z)) : res Z :=
  match b with
  | None => Ok (-1)
  | Some nb =>
      match a with
      | None => Ok 1
      | Some na =>
          let fa := na ++ [0] in let fb := nb ++ [0] in
          do ka <- art_flags fa;
          do kb <- art_flags fb;
          let '(ca, la, sa) := ka in let '(cb, lb, sb) := kb in
          if negb ca && negb cb && negb la && negb lb then tcscmp fa fb
          else if ca && negb sa then Ok (-1)
          else if cb && negb sb then Ok 1
          else if Bool.eqb ca cb || Bool.eqb la lb then Ok (b2z sa - b2z sb)
          else if ca || la then (if cb then Ok 1 else Ok (-1))
          else if ca then Ok (-1) else Ok 1
      end
  end.
Definition attach_tot (a b : option (list Z)) : Z := match attach_cmp a b with Ok c => c | _ => 0 end.

(** MATROSKA_AttachmentSort, 806-810: EBML_MasterSort without a comparison, hence EbmlCmp, which calls
    CmpAttachedFile for two attached files.  Simplifications: the node [m] holds attached files only;
    pointers are as wide as uint_fast32_t (64-bit Linux), so that InQSort is used. *)
Definition attach_sort (fuel : nat) (h : heap) (look : Z -> option (list Z)) (m : Z) : option heap :=
  master_sort fuel h (fun x y => attach_tot (look x) (look y)) m.
