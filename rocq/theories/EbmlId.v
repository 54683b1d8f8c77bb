(** Element identifiers, libebml2/ebmlelement.c and libebml2/ebmlmain.c. *)
From Verif Require Import Base.

(** GetIdLength, ebmlelement.c 207-216. *)
Definition get_id_length (id : Z) : Z :=
  if Z.land id 4294967040 =? 0 then 1
  else if Z.land id 4294901760 =? 0 then 2
  else if Z.land id 4278190080 =? 0 then 3
  else 4.

(** ebmlelement.c 223-224: Buffer[FinalHeadSize-i-1] = (uint8_t)(Id >> (i<<3)), i = 0..n-1. *)
Fixpoint fill_id_loop (i n : nat) (id : Z) (acc : list Z) : list Z :=
  match n with
  | O => acc
  | S n' => fill_id_loop (S i) n' id (u8 (Z.shiftr id (Z.shiftl (Z.of_nat i) 3)) :: acc)
  end.

(** EBML_FillBufferID, ebmlelement.c 218-226: the bytes stored ([] when it returns 0). *)
Definition fill_buffer_id (bufsize id : Z) : list Z :=
  if bufsize <? get_id_length id then []
  else fill_id_loop 0 (Z.to_nat (get_id_length id)) id [].

(** Byte read with bounds: [None] outside the memory. *)
Definition rd (buf : list Z) (i : nat) : option Z := nth_error buf i.

(** EBML_BufferToID, ebmlelement.c 242-255 (non-NULL buffer; [None] = read outside). *)
Definition buffer_to_id (buf : list Z) : option Z :=
  match rd buf 0 with
  | None => None
  | Some b0 =>
      if negb (Z.land b0 128 =? 0) then Some (u32 b0)
      else if negb (Z.land b0 64 =? 0) then
        match rd buf 1 with Some b1 => Some (u32 (Z.shiftl b0 8 + b1)) | None => None end
      else if negb (Z.land b0 32 =? 0) then
        match rd buf 1, rd buf 2 with
        | Some b1, Some b2 => Some (u32 (Z.shiftl b0 16 + Z.shiftl b1 8 + b2)) | _, _ => None end
      else if negb (Z.land b0 16 =? 0) then
        match rd buf 1, rd buf 2, rd buf 3 with
        | Some b1, Some b2, Some b3 =>
            Some (u32 (Z.shiftl b0 24 + Z.shiftl b1 16 + Z.shiftl b2 8 + b3))
        | _, _, _ => None end
      else Some 0
  end.

(** FOURCCBE, corec/corec/portab.h: big-endian packing of four bytes. *)
Definition fourccbe (a b c d : Z) : Z :=
  Z.lor (Z.lor (Z.lor (Z.shiftl a 24) (Z.shiftl b 16)) (Z.shiftl c 8)) d.

(** EBML_IdFromBuffer, ebmlmain.c 175-184. *)
Definition id_from_buffer (buf : list Z) (idlen : Z) : option Z :=
  match rd buf 0 with
  | None => None
  | Some b0 =>
      if idlen =? 1 then Some (fourccbe 0 0 0 b0)
      else if idlen =? 2 then
        match rd buf 1 with Some b1 => Some (fourccbe 0 0 b0 b1) | None => None end
      else if idlen =? 3 then
        match rd buf 1, rd buf 2 with Some b1, Some b2 => Some (fourccbe 0 b0 b1 b2) | _, _ => None end
      else
        match rd buf 1, rd buf 2, rd buf 3 with
        | Some b1, Some b2, Some b3 => Some (fourccbe b0 b1 b2 b3) | _, _, _ => None end
  end.

(** EBML_IdMatch, ebmlmain.c 186-189. *)
Definition id_match (buf : list Z) (idlen ctxid : Z) : option bool :=
  match id_from_buffer buf idlen with Some x => Some (ctxid =? x) | None => None end.
