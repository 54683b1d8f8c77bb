(** What a program can say of a file from its calls and what they told. *)
From Verif Require Import Base Tree Stream Ebml FileIO.

(** Calls and replies, the newest first; [init]: the bytes of the file at the start. *)
Definition fhistory := list (fcall * freply).
Inductive fhappens (init : list Z) : fhistory -> pfile -> Prop :=
| fh_start : fhappens init [] (mkPf init 0)
| fh_more h f c f' r : fhappens init h f -> fstep f c = Ok (f', r) -> fhappens init ((c, r) :: h) f'.

Definition count (k : option Z) : Z := match k with Some k => k | None => 0 end.
(** Where the next byte is read or written. *)
Fixpoint where_of (h : fhistory) : Z :=
  match h with
  | [] => 0
  | (_, RRead _ k _) :: h => where_of h + count k
  | (_, RWrite _ k) :: h => where_of h + count k
  | (_, RSeek p) :: h => if p =? -1 then where_of h else p
  | (_, RLength _) :: h => where_of h
  | (FSkip n _, RSkip _ m) :: h => where_of h + (n - m)
  | (_, RSkip _ _) :: h => where_of h
  end.
(** The byte at a position: the one written there last; 0 behind a truncation and in holes. *)
Fixpoint byte_of (init : list Z) (h : fhistory) (i : Z) : Z :=
  match h with
  | [] => nth (Z.to_nat i) init 0
  | (FWrite bs _, RWrite _ k) :: h => if (where_of h <=? i) && (i <? where_of h + count k) then nth (Z.to_nat (i - where_of h)) bs 0 else byte_of init h i
  | (FLength n _, RLength 0) :: h => if n <=? i then 0 else byte_of init h i
  | _ :: h => byte_of init h i
  end.
(** How long the file is. *)
Fixpoint length_of (init : list Z) (h : fhistory) : Z :=
  match h with
  | [] => zlen init
  | (FWrite _ _, RWrite _ k) :: h => if count k =? 0 then length_of init h else Z.max (length_of init h) (where_of h + count k)
  | (FLength n _, RLength 0) :: h => n
  | _ :: h => length_of init h
  end.
(** The [n] bytes from [i] on. *)
Definition bytes_of (init : list Z) (h : fhistory) (i : Z) (n : nat) : list Z := map (fun j => byte_of init h (i + Z.of_nat j)) (seq 0 n).

(** Answers of a system: counts are not negative. *)
Definition answer_ok (a : answer) : Prop := match a with Some k => 0 <= k | None => True end.
Definition call_ok (c : fcall) : Prop :=
  match c with FRead size a => 0 <= size /\ answer_ok a | FWrite _ a => answer_ok a | FSkip _ l => Forall answer_ok l | _ => True end.

(** Streams seen by a program that skips: what it sees, and what is seen [m] bytes further. *)
Definition skippable {U W} (inv : U -> Prop) (view : U -> W) (adv : Z -> W -> W) (rd : U -> Z -> Z * Z * U) : Prop :=
  (forall w, adv 0 w = w) /\ (forall a b w, 0 <= a -> 0 <= b -> adv b (adv a w) = adv (a + b) w) /\
  forall u k, inv u -> 0 < k <= 1024 -> let '(e, m, u') := rd u k in inv u' /\ 0 <= m <= k /\ (e = ERR_NONE <-> m = k) /\ view u' = adv m (view u).
