(** Integer and float element payloads, libebml2/ebmlnumber.c. *)
From Verif Require Import Base.

(** ReadDataInt, ebmlnumber.c 37-42: the value built from the data bytes
    ([data] has DataSize <= 8 bytes; the stream part is modelled elsewhere).
    Element->Value is int64_t, hence the wrap. *)
Definition read_int_loop (data : list Z) : Z :=
  fold_left (fun v b => s64 (Z.lor (Z.shiftl v 8) (u8 b))) data 0.

(** ReadDataInt, ebmlnumber.c 9-46.  [None] is ERR_INVALID_DATA (more than 8 bytes). *)
Definition read_data_int (data : list Z) : option Z :=
  if 8 <? zlen data then None else Some (read_int_loop data).

(** A [char] holding byte [b], promoted to int: platform dependent. *)
Definition char_val (char_signed : bool) (b : Z) : Z := if char_signed then s8 b else u8 b.

(** ReadDataSignedInt, ebmlnumber.c 48-88.  [None] is ERR_INVALID_DATA; for DataSize 0 the code
    tests the uninitialised Buffer[0], which only selects between 0 and -1: [junk] is that byte. *)
Definition read_data_sint (char_signed : bool) (junk : Z) (data : list Z) : option Z :=
  if 8 <? zlen data then None
  else
    let b0 := match data with [] => junk | b :: _ => b end in
    let v0 := if Z.land (char_val char_signed b0) 128 =? 0 then 0 else -1 in
    Some (fold_left (fun v b => s64 (Z.lor (Z.shiftl v 8) (char_val char_signed b))) data v0).

(** ebmlnumber.c 113-116 / 149-152: FinalData[i-1] = TempValue & 0xFF; TempValue >>= 8. *)
Fixpoint render_int_loop (i : nat) (temp : Z) (acc : list Z) : list Z :=
  match i with
  | O => acc
  | S i' => render_int_loop i' (Z.shiftr temp 8) (Z.land temp 255 :: acc)
  end.

(** RenderDataInt / RenderDataSignedInt, ebmlnumber.c 91-161, for DefaultSize <= DataSize, which
    the size update (line 38 of ebmlelement.c) establishes.  TempValue is uint64_t in the unsigned
    version and int64_t in the signed one; [None] when the padding branch would send bytes of
    FinalData that were never stored (DefaultSize > DataSize > 0). *)
Definition render_data_int (is_signed : bool) (value datasize defaultsize : Z) : option (list Z) :=
  if datasize =? 0 then Some []
  else if datasize <? defaultsize then None
  else Some (render_int_loop (Z.to_nat datasize) (if is_signed then s64 value else u64 value) []).

(** UpdateSizeInt, ebmlnumber.c 289-309, then the inherited UpdateDataSize, ebmlelement.c 38-39. *)
Definition update_size_uint (value defaultsize : Z) : Z :=
  let v := u64 value in
  let n :=
    if v <=? 255 then 1 else if v <=? 65535 then 2 else if v <=? 16777215 then 3
    else if v <=? 4294967295 then 4 else if v <=? 1099511627775 then 5
    else if v <=? 281474976710655 then 6 else if v <=? 72057594037927935 then 7 else 8 in
  if n <? defaultsize then defaultsize else n.

(** UpdateSizeSignedInt, ebmlnumber.c 264-284, then ebmlelement.c 38-39. *)
Definition update_size_sint (v defaultsize : Z) : Z :=
  let n :=
    if (v <=? 127) && (-128 <=? v) then 1
    else if (v <=? 32767) && (-32768 <=? v) then 2
    else if (v <=? 8388607) && (-8388608 <=? v) then 3
    else if (v <=? 2147483647) && (-2147483648 <=? v) then 4
    else if (v <=? 549755813887) && (-549755813888 <=? v) then 5
    else if (v <=? 140737488355327) && (-140737488355328 <=? v) then 6
    else if (v <=? 36028797018963967) && (-36028797018963968 <=? v) then 7
    else 8 in
  if n <? defaultsize then defaultsize else n.

(** ** Floats, as bit patterns. *)
(** In-memory representation of an n-byte integer on a little- or big-endian machine. *)
Definition mem_of (little : bool) (n : nat) (v : Z) : list Z :=
  if little then rev (be_bytes n v) else be_bytes n v.
Definition mem_to (little : bool) (m : list Z) : Z := be_val (if little then rev m else m).

(** LOAD32BE / LOAD64BE, corec/corec/helper.h 36-38: OR of shifted bytes. *)
Fixpoint load_be (m : list Z) : Z :=
  match m with
  | [] => 0
  | b :: m' => Z.lor (Z.shiftl b (8 * zlen m')) (load_be m')
  end.

(** RenderDataFloat, ebmlnumber.c 163-192: [bits] is the IEEE pattern of the value stored in the
    union (8 bytes for DataSize 8, otherwise the 4 bytes of the rounded float; the rounding
    double -> float itself is not modelled).  The bytes written are the memory of Buf. *)
Definition render_data_float (little : bool) (datasize bits : Z) : list Z :=
  let n := if datasize =? 8 then 8%nat else 4%nat in
  mem_of little n (load_be (mem_of little n bits)).

(** ReadDataFloat, ebmlnumber.c 205-252: pattern obtained; [None] for ERR_INVALID_DATA. *)
Definition read_data_float (data : list Z) : option Z :=
  if (zlen data =? 8) || (zlen data =? 4) then Some (load_be data) else None.
