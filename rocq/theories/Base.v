(** Shared vocabulary of the model: bytes, C integer conversions, big-endian values.
    Nothing here models a specific function of /repo; the C integer types modelled are those
    of corec/corec/portab.h (uint8_t .. int64_t, filepos_t = int64_t, fourcc_t = uint32_t). *)
From Coq Require Export ZArith List Bool Lia.
From Coq Require Export ZifyBool ZifyNat ZifyN.
Export ListNotations.
Open Scope Z_scope.

Ltac Zify.zify_post_hook ::= Z.div_mod_to_equations.

(** ** Bytes *)
Definition is_byte (b : Z) : Prop := 0 <= b < 256.
Definition bytes_ok (l : list Z) : Prop := Forall is_byte l.
Definition is_byteb (b : Z) : bool := (0 <=? b) && (b <? 256).

(** ** C conversions *)
Definition u8 (x : Z) : Z := x mod 2 ^ 8.
Definition u16 (x : Z) : Z := x mod 2 ^ 16.
Definition u32 (x : Z) : Z := x mod 2 ^ 32.
Definition u64 (x : Z) : Z := x mod 2 ^ 64.
Definition s_wrap (bits x : Z) : Z := (x + 2 ^ (bits - 1)) mod 2 ^ bits - 2 ^ (bits - 1).
Definition s8 (x : Z) : Z := s_wrap 8 x.
Definition s16 (x : Z) : Z := s_wrap 16 x.
Definition s32 (x : Z) : Z := s_wrap 32 x.
Definition s64 (x : Z) : Z := s_wrap 64 x.

(** ** Positional specification used on both sides of every codec theorem *)
Fixpoint be_val_from (acc : Z) (l : list Z) : Z :=
  match l with
  | [] => acc
  | b :: l' => be_val_from (acc * 256 + b) l'
  end.
Definition be_val (l : list Z) : Z := be_val_from 0 l.

Fixpoint be_bytes (n : nat) (v : Z) : list Z :=
  match n with
  | O => []
  | S n' => be_bytes n' (v / 256) ++ [v mod 256]
  end.

Definition zlen {A} (l : list A) : Z := Z.of_nat (length l).
