(** Concatenated Matroska files, stated on bytes. *)
From Verif Require Import Base VintSpec EbmlIdSpec FinderSpec.

(** The identifiers of an EBML header and of a segment, and of what may be anywhere: Void and CRC-32. *)
Definition EBML_HEADER : Z := 440786851. (* 1A 45 DF A3 *)
Definition SEGMENT : Z := 408125543. (* 18 53 80 67 *)
Definition top_level (id : Z) : Prop := id = EBML_HEADER \/ id = SEGMENT \/ id = 236 \/ id = 191.

(** The bytes of an identifier and of a known size. *)
Definition head_bytes (id size : Z) (bs : list Z) : Prop :=
  exists i s, bs = i ++ s /\ id_encodes i id /\ vint_spec s size /\ size <> vint_reserved (zlen s).

(** A file: an EBML header with its content, a segment with its content. *)
Record mkv := Mkv { m_head : list Z; m_body : list Z; m_seg : list Z; m_data : list Z }.
Definition mkv_bytes (f : mkv) : list Z := m_head f ++ m_body f ++ m_seg f ++ m_data f.
(** Nothing in the content of the EBML header looks like the start of an EBML header or of a segment, and what looks like
    a Void or a CRC-32 has its identifier and size inside. *)
Definition quiet_body (f : mkv) : Prop :=
  forall k id n v m, 0 <= k < zlen (m_body f) -> header_at (m_body f ++ m_seg f ++ m_data f) k id n v m -> top_level id ->
    id <> EBML_HEADER /\ id <> SEGMENT /\ k + n + m <= zlen (m_body f).
Definition mkv_ok (f : mkv) : Prop :=
  head_bytes EBML_HEADER (zlen (m_body f)) (m_head f) /\ head_bytes SEGMENT (zlen (m_data f)) (m_seg f) /\
  bytes_ok (m_body f) /\ bytes_ok (m_data f) /\ quiet_body f /\ 12 <= zlen (m_seg f) + zlen (m_data f).

(** Where a file is cut: positions and sizes of an EBML header and of a segment. *)
Definition cut_at (file : list Z) (hpos hsize spos ssize : Z) : Prop :=
  exists n v m n' v' m', header_at file hpos EBML_HEADER n v m /\ header_at file spos SEGMENT n' v' m' /\ hpos + n + m <= spos /\
    hsize = (if v =? vint_reserved m then spos - hpos else n + m + v) /\ (v' <> vint_reserved m' -> ssize = n' + m' + v').
(** All of the segment at [spos] whose size is known, and the start of another one, come before [hpos]. *)
Definition seg_before (file : list Z) (spos hpos : Z) : Prop :=
  exists n v m, header_at file spos SEGMENT n v m /\ spos + n + m + (if v =? vint_reserved m then 0 else v) <= hpos.
