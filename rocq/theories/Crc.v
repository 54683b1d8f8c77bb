(** CRC-32 element, libebml2/ebmlcrc.c. *)
From Verif Require Import Base CrcTable.

(** CRC32_NEGL, ebmlcrc.c 17. *)
Definition CRC32_NEGL : Z := 4294967295.

(** m_tab[i]; [big] selects the IS_BIG_ENDIAN build (ebmlcrc.c 18-125).  The default of [nth] is
    never used: indices are proved to be below 256. *)
Definition m_tab (big : bool) (i : Z) : Z := nth (Z.to_nat i) (if big then m_tab_be else m_tab_le) 0.

(** CRC32_INDEX / CRC32_SHIFTED, ebmlcrc.c 128-134 (uint32_t arithmetic). *)
Definition crc_index (big : bool) (c : Z) : Z := if big then Z.shiftr c 24 else Z.land c 255.
Definition crc_shifted (big : bool) (c : Z) : Z := if big then u32 (Z.shiftl c 8) else Z.shiftr c 8.

(** One table step without / with a data byte, ebmlcrc.c 226-229 and 236 (also 247-250, 257). *)
Definition crc_tstep (big : bool) (c : Z) : Z := Z.lxor (m_tab big (crc_index big c)) (crc_shifted big c).
Definition crc_bstep (big : bool) (c b : Z) : Z :=
  Z.lxor (m_tab big (Z.lxor (crc_index big c) b)) (crc_shifted big c).

(** uint32_t load of four bytes in host order (the Buf32 dereference at 225 / 246; the alignment
    requirement of the cast is not modelled). *)
Definition load32_host (big : bool) (b0 b1 b2 b3 : Z) : Z :=
  if big then b0 * 2 ^ 24 + b1 * 2 ^ 16 + b2 * 2 ^ 8 + b3
  else b0 + b1 * 2 ^ 8 + b2 * 2 ^ 16 + b3 * 2 ^ 24.

(** The two loops of EBML_CRCAddBuffer, ebmlcrc.c 241-258 (same code in EBML_CRCMatches 221-236). *)
Fixpoint crc_run (big : bool) (c : Z) (buf : list Z) : Z :=
  match buf with
  | b0 :: b1 :: b2 :: b3 :: rest =>
      let c := Z.lxor c (load32_host big b0 b1 b2 b3) in
      let c := crc_tstep big c in
      let c := crc_tstep big c in
      let c := crc_tstep big c in
      let c := crc_tstep big c in
      crc_run big c rest
  | _ => fold_left (crc_bstep big) buf c
  end.

Definition crc_add_buffer := crc_run.

(** EBML_CRCFinalize, ebmlcrc.c 260-265 (value part). *)
Definition crc_finalize (c : Z) : Z := Z.lxor c CRC32_NEGL.

(** EBML_CRCMatches, ebmlcrc.c 210-239: [stored] is CRC->CRC. *)
Definition crc_matches (big : bool) (stored : Z) (buf : list Z) : bool :=
  stored =? Z.lxor (crc_run big CRC32_NEGL buf) CRC32_NEGL.

(** Create, ebmlcrc.c 186-192, then any sequence of EBML_CRCAddBuffer calls, then Finalize. *)
Definition crc_of_chunks (big : bool) (chunks : list (list Z)) : Z :=
  crc_finalize (fold_left (crc_add_buffer big) chunks CRC32_NEGL).

(** RenderData, ebmlcrc.c 153-165: STORE32LE of the value. *)
Definition crc_render (crc : Z) : list Z :=
  [u8 crc; u8 (Z.shiftr crc 8); u8 (Z.shiftr crc 16); u8 (Z.shiftr crc 24)].

(** ReadData, ebmlcrc.c 139-151: LOAD32LE of the four bytes. *)
Definition crc_read (data : list Z) : option Z :=
  match data with
  | [a; b; c; d] => Some (u32 (Z.lor (Z.lor (Z.lor (Z.shiftl d 24) (Z.shiftl c 16)) (Z.shiftl b 8)) a))
  | _ => None
  end.
