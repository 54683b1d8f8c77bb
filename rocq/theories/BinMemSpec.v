(** What a program can say of its binary elements from the calls it made and their results alone. *)
From Verif Require Import Base Ebml Stream Tree Arr BinMem.

(** A history: calls and replies, the newest first. *)
Definition bhistory := list (bcall * breply).
(** The histories that happen. *)
Inductive bhappens : bhistory -> bmem -> Prop :=
| bhappens_start : bhappens [] bm_start
| bhappens_more h m o m' r : bhappens h m -> bstep m o = Some (m', r) -> bhappens ((o, r) :: h) m'.

Definition bmade (r : breply) (k : nat) : bool := match r with PNew (Some j) => Nat.eqb j k | _ => false end.

(** What an element holds, told from the history: [Some d] when it has the value [d], for sure.
    Reading keeps the announced bytes, so the announced size is told too: [told_size]. *)
Fixpoint told_size (h : bhistory) (k : nat) : Z :=
  match h with
  | [] => -1
  | (o, r) :: h =>
      match o with
      | BCreate => if bmade r k then -1 else told_size h k
      | BFound n => if bmade r k then n else told_size h k
      | BCopy j _ _ _ => if bmade r k then told_size h j else told_size h k
      | BSet j d _ _ => match r with PCode 0 => if Nat.eqb j k then zlen d else told_size h k | _ => told_size h k end
      | BUpdate j => match r with PSize n => if Nat.eqb j k then n else told_size h k | _ => told_size h k end
      | _ => told_size h k
      end
  end.
Fixpoint value (h : bhistory) (k : nat) : option (list Z) :=
  match h with
  | [] => None
  | (o, r) :: h =>
      match o with
      | BCreate | BFound _ => if bmade r k then None else value h k
      | BCopy j _ _ _ => if bmade r k then value h j else value h k
      | BSet j d _ _ => match r with PCode 0 => if Nat.eqb j k then Some d else value h k | _ => value h k end
      | BRead j nodata src _ _ =>
          match r with
          | PCode c =>
              if Nat.eqb j k then
                match src with
                | Some l => if negb nodata && (c =? 0) then Some (firstn (Z.to_nat (told_size h k)) l) else None
                | None => None
                end
              else value h k
          | _ => value h k
          end
      | _ => value h k
      end
  end.

(** The order asked of a program: data is read only into elements whose announced size is known. *)
Definition b_in_order (h : bhistory) (o : bcall) : bool :=
  match o with
  | BRead k false (Some _) _ _ => 0 <=? told_size h k
  | BFound n => (-1 <=? n) && (n <? 2 ^ 61)
  | BSet _ d _ _ => zlen d <? 2 ^ 61
  | _ => true
  end.
(** No copy ran out of memory after its node was made. *)
Definition b_copied (o : bcall) : bool := match o with BCopy _ _ ok _ => ok | _ => true end.
Fixpoint b_orderly (h : bhistory) : bool :=
  match h with [] => true | (o, _) :: h => b_in_order h o && b_orderly h end.
Fixpoint b_whole (h : bhistory) : bool :=
  match h with [] => true | (o, _) :: h => b_copied o && b_whole h end.
Definition b_alive (m : bmem) (k : nat) : Prop := bm_elts m k <> None.
(** What EBML_BinaryGetData points to. *)
Definition pointed (d : list Z) : option (list Z) := match d with [] => None | _ => Some d end.
(** What is told of an element: its data, its size, what is written of it. *)
Definition b_tells (m : bmem) (k : nat) (d : option (list Z)) : Prop := bstep m (BGet k) = Some (m, PData d).
Definition b_writes (m : bmem) (k : nat) (b : option (Z * list Z)) : Prop := exists m', bstep m (BRender k) = Some (m', PBytes b).
(** Is an element there: it was given out, and not deleted since. *)
Fixpoint b_lives (h : bhistory) (k : nat) : bool :=
  match h with
  | [] => false
  | (o, r) :: h => bmade r k || match o with BDelete j => negb (Nat.eqb j k) && b_lives h k | _ => b_lives h k end
  end.
