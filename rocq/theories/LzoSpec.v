(** The LZO1X format, as in the Linux kernel's Documentation/lzo.txt, independent of the decoder. *)
From Verif Require Import Base.

(** [out'] is [out], then [len] bytes each equal to the one [dist] before it, then [ls]. *)
Definition copied (out : list Z) (len dist : Z) (ls out' : list Z) : Prop :=
  1 <= dist <= zlen out /\
  exists w, out' = out ++ w ++ ls /\ zlen w = len /\
    forall i, 0 <= i < len -> nth (Z.to_nat (zlen out + i)) (out ++ w) 0 = nth (Z.to_nat (zlen out + i - dist)) (out ++ w) 0.

(** A length above [top], as [z] zero bytes and a last byte that is not zero. *)
Definition long_length (top len : Z) (code : list Z) : Prop :=
  exists z b, 0 <= z /\ 1 <= b <= 255 /\ len = top + 255 * z + b /\ code = repeat 0 (Z.to_nat z) ++ [b].
(** A length of at least [lo] in the low bits of the first byte (first value [lo]), up to [top]. *)
Definition coded_length (base lo top len : Z) (code : list Z) : Prop :=
  (lo <= len <= top /\ code = [base + (len - lo + 1)]) \/ (exists ext, long_length top len ext /\ code = base :: ext).

(** One instruction: state and output before, its bytes, state and output after.  The state tells the
    number of literals the previous instruction copied, 4 for four or more. *)
Inductive instr : Z -> list Z -> list Z -> Z -> list Z -> Prop :=
| m2 st out len dist ls out' : 3 <= len <= 8 -> 1 <= dist <= 2048 -> zlen ls <= 3 -> copied out len dist ls out' ->
    instr st out ([(len - 1) * 32 + (dist - 1) mod 8 * 4 + zlen ls; (dist - 1) / 8] ++ ls) (zlen ls) out'
| m3 st out len dist ls out' code : coded_length 32 3 33 len code -> 1 <= dist <= 16384 -> zlen ls <= 3 -> copied out len dist ls out' ->
    instr st out (code ++ [((dist - 1) mod 64) * 4 + zlen ls; (dist - 1) / 64] ++ ls) (zlen ls) out'
| m4 st out len dist ls out' code : coded_length (16 + 8 * ((dist - 16384) / 16384)) 3 9 len code -> 16385 <= dist <= 49151 -> zlen ls <= 3 -> copied out len dist ls out' ->
    instr st out (code ++ [(dist mod 64) * 4 + zlen ls; dist mod 16384 / 64] ++ ls) (zlen ls) out'
| m1_lits out ls code : coded_length 0 4 18 (zlen ls) code ->
    instr 0 out (code ++ ls) 4 (out ++ ls)
| m1_near st out dist ls out' : 1 <= st <= 3 -> 1 <= dist <= 1024 -> zlen ls <= 3 -> copied out 2 dist ls out' ->
    instr st out ([(dist - 1) mod 4 * 4 + zlen ls; (dist - 1) / 4] ++ ls) (zlen ls) out'
| m1_far out dist ls out' : 2049 <= dist <= 3072 -> zlen ls <= 3 -> copied out 3 dist ls out' ->
    instr 4 out ([(dist - 2049) mod 4 * 4 + zlen ls; (dist - 2049) / 4] ++ ls) (zlen ls) out'.

(** Instructions up to the end mark: a copy from distance 16384, of length 3. *)
Inductive runs : Z -> list Z -> list Z -> list Z -> Prop :=
| r_end st out s : 0 <= s <= 3 -> runs st out [17; s; 0] out
| r_step st out code st' out' rest fin : instr st out code st' out' -> runs st' out' rest fin -> runs st out (code ++ rest) fin.
(** A compressed stream and what it stands for: a first run of up to 238 literals, then instructions. *)
Inductive lzo_stream : list Z -> list Z -> Prop :=
| s_plain src fin : runs 0 [] src fin -> lzo_stream src fin
| s_lits ls rest fin : 1 <= zlen ls <= 238 -> runs (Z.min (zlen ls) 4) ls rest fin -> lzo_stream ((zlen ls + 17) :: ls ++ rest) fin.
