(** Final statements C01-C12 and C47: size, ID and number codecs, CRC-32, Void. *)
From Verif Require Import Base BaseProofs Vint VintSpec VintProofs EbmlId EbmlIdSpec EbmlIdProofs
  IntElt IntEltSpec IntEltProofs CrcTable Crc CrcSpec CrcProofs EltHead Void VoidSpec VoidProofs.

(** ** C01 *)
Theorem C01_size_roundtrip : forall len sl rest, 0 <= len < 2 ^ 35 - 1 -> 0 <= sl <= 8 ->
  let n := coded_size_length len sl true in
  exists bs, coded_value_length len n true = Some bs /\ zlen bs = n /\
    forall bufsize, n <= bufsize ->
    read_coded_size (bs ++ rest) bufsize = Some (mkSz len n (vint_reserved n)) /\
    len <> vint_reserved n.
Proof. exact size_roundtrip. Qed.
Print Assumptions C01_size_roundtrip.

Example C01_case : 0 <= 16383 < 2 ^ 35 - 1 /\ coded_size_length 16383 0 true = 3 /\
  coded_value_length 16383 3 true = Some [32; 63; 255] /\
  read_coded_size [32; 63; 255; 7] 4 = Some (mkSz 16383 3 2097151).
Proof. vm_compute. intuition congruence. Qed.

(** What the bytes are, independently of the reader: the EBML variable-length integer. *)
Theorem C01_size_bytes : forall len n, 1 <= n <= 8 -> 0 <= len < 2 ^ (7 * n) ->
  exists bs, coded_value_length len n true = Some bs /\ vint_spec bs len /\ zlen bs = n.
Proof. exact encode_ok. Qed.
Print Assumptions C01_size_bytes.
Example C01_bytes_case : coded_value_length 300 2 true = Some [65; 44] /\ be_val [65; 44] = 2 ^ 14 + 300.
Proof. vm_compute. intuition congruence. Qed.

(** Finding: from 2^35 on, without a forced length, another size is read back; at 2^35 - 1 the
    "unknown" marker is written. *)
Theorem C01_large_size_refuted : forall len, 2 ^ 35 <= len < 2 ^ 63 ->
  exists bs, coded_value_length len (coded_size_length len 0 true) true = Some bs /\
  forall rest bufsize, 5 <= bufsize -> exists r, read_coded_size (bs ++ rest) bufsize = Some r /\ sz_val r <> len.
Proof. exact size_truncated. Qed.
Print Assumptions C01_large_size_refuted.
Example C01_large_case : 2 ^ 35 <= 2 ^ 40 + 5 < 2 ^ 63 /\
  coded_value_length (2 ^ 40 + 5) 5 true = Some [8; 0; 0; 0; 5].
Proof. vm_compute. intuition congruence. Qed.

Theorem C01_limit_is_unknown_refuted : exists bs,
  coded_value_length (2 ^ 35 - 1) (coded_size_length (2 ^ 35 - 1) 0 true) true = Some bs /\
  read_coded_size bs 5 = Some (mkSz (2 ^ 35 - 1) 5 (2 ^ 35 - 1)).
Proof. exact size_limit_unknown. Qed.
Print Assumptions C01_limit_is_unknown_refuted.

(** ** C02 *)
Theorem C02_size_minimal : forall len sl, 0 <= len < 2 ^ 35 - 1 -> 0 <= sl <= 8 ->
  let n := coded_size_length len sl true in
  (sl <= n /\ 1 <= n <= 8 /\ len < vint_reserved n) /\
  forall m, 1 <= m -> sl <= m -> len < vint_reserved m -> n <= m.
Proof.
  intros len sl H1 H2 n. split; [|exact (size_minimal len sl H1 H2)].
  split; [|exact (coded_size_length_fits len sl H1 H2)].
  unfold n. rewrite coded_size_length_forced by lia. lia.
Qed.
Print Assumptions C02_size_minimal.
Example C02_case : coded_size_length 126 0 true = 1 /\ coded_size_length 127 0 true = 2 /\
  coded_size_length 127 4 true = 4 /\ 127 = vint_reserved 1.
Proof. vm_compute. intuition congruence. Qed.

(** ** C03 *)
Theorem C03_unknown_written : forall len n rest, 1 <= n <= 8 ->
  exists bs, coded_value_length len n false = Some bs /\ zlen bs = n /\
    vint_spec bs (vint_reserved n) /\
    forall bufsize, n <= bufsize ->
    read_coded_size (bs ++ rest) bufsize = Some (mkSz (vint_reserved n) n (vint_reserved n)).
Proof. exact unknown_encode. Qed.
Print Assumptions C03_unknown_written.

Theorem C03_unknown_read : forall buf bufsize r, bytes_ok buf -> read_coded_size buf bufsize = Some r ->
  sz_len r <> 0 ->
  (sz_val r = sz_unk r <->
   exists rest, buf = be_bytes (Z.to_nat (sz_len r)) (2 ^ (7 * sz_len r + 1) - 1) ++ rest).
Proof. exact unknown_iff_ones. Qed.
Print Assumptions C03_unknown_read.
(** The length used for an unknown size: one byte, or the length asked for. *)
Theorem C03_unknown_length : forall len sl, 0 <= sl <= 8 -> coded_size_length len sl false = Z.max 1 sl.
Proof. exact coded_size_length_unknown. Qed.
Print Assumptions C03_unknown_length.

Theorem C03_unknown_head : forall id n d sl, valid_id_len id n -> 0 <= sl <= 8 ->
  exists idb sz, render_head id d sl false = Some (idb ++ sz) /\ id_encodes idb id /\ zlen idb = n /\
    vint_spec sz (vint_reserved (zlen sz)) /\ zlen sz = Z.max 1 sl.
Proof. exact render_head_unknown. Qed.
Print Assumptions C03_unknown_head.
Example C03_head_case : render_head 524531317 0 0 false = Some [31; 67; 182; 117; 255] /\
  render_head 408125543 0 8 false = Some [24; 83; 128; 103; 1; 255; 255; 255; 255; 255; 255; 255].
Proof. vm_compute. intuition congruence. Qed.
Example C03_case : read_coded_size [1; 255; 255; 255; 255; 255; 255; 255; 3] 9 = Some (mkSz (2 ^ 56 - 1) 8 (2 ^ 56 - 1)) /\
  coded_value_length 5 8 false = Some [1; 255; 255; 255; 255; 255; 255; 255] /\
  be_bytes 8 (2 ^ 57 - 1) = [1; 255; 255; 255; 255; 255; 255; 255].
Proof. vm_compute. intuition congruence. Qed.

(** ** C04 *)
Theorem C04_reader_in_bounds : forall buf bufsize, bytes_ok buf -> 0 <= bufsize <= zlen buf ->
  read_coded_size buf bufsize <> None.
Proof. exact read_in_bounds. Qed.
Print Assumptions C04_reader_in_bounds.

Theorem C04_reader_fails_iff : forall buf bufsize r, bytes_ok buf -> 0 <= bufsize <= zlen buf ->
  read_coded_size buf bufsize = Some r ->
  (sz_len r = 0 <-> ~ exists bs rest v, buf = bs ++ rest /\ vint_spec bs v /\ zlen bs <= bufsize).
Proof. exact read_none. Qed.
Print Assumptions C04_reader_fails_iff.

Theorem C04_reader_sound : forall buf bufsize r, bytes_ok buf -> read_coded_size buf bufsize = Some r -> sz_len r <> 0 ->
  exists bs rest, buf = bs ++ rest /\ vint_spec bs (sz_val r) /\ sz_len r = zlen bs /\
    zlen bs <= bufsize /\ sz_unk r = vint_reserved (zlen bs).
Proof. exact read_sound. Qed.
Print Assumptions C04_reader_sound.

Theorem C04_reader_tail_independent : forall bs rest rest' bufsize, bytes_ok bs -> bufsize <= zlen bs ->
  read_coded_size (bs ++ rest) bufsize = read_coded_size (bs ++ rest') bufsize.
Proof. exact read_tail_indep. Qed.
Print Assumptions C04_reader_tail_independent.
Example C04_case : read_coded_size [64; 5; 1] 2 = Some (mkSz 5 2 16383) /\
  read_coded_size [64; 5; 1] 1 = Some (mkSz 0 0 16383) /\ read_coded_size [0; 5; 1] 3 = Some (mkSz 0 0 268435455).
Proof. vm_compute. intuition congruence. Qed.

(** ** C05 *)
Theorem C05_signed_roundtrip : forall len rest, - 2 ^ 27 < len < 2 ^ 35 ->
  let n := coded_size_length_signed len 0 in
  exists bs, coded_value_length_signed len n = Some bs /\ zlen bs = n /\
    forall bufsize, n <= bufsize ->
    read_coded_size_signed (bs ++ rest) bufsize = Some (mkSz len n (vint_reserved n)).
Proof. exact signed_roundtrip. Qed.
Print Assumptions C05_signed_roundtrip.
Example C05_case : coded_value_length_signed (-100) 2 = Some [95; 155] /\
  read_coded_size_signed [95; 155] 2 = Some (mkSz (-100) 2 16383).
Proof. vm_compute. intuition congruence. Qed.

Theorem C05_forced_size_refuted : forall len sl rest, - 2 ^ 27 < len < 2 ^ 27 -> 0 <= sl <= 8 ->
  coded_size_length_signed len 0 < sl ->
  exists bs, coded_value_length_signed len (coded_size_length_signed len sl) = Some bs /\
    forall bufsize, 8 <= bufsize -> exists r,
    read_coded_size_signed (bs ++ rest) bufsize = Some r /\ sz_val r <> len.
Proof. exact signed_forced_wrong. Qed.
Print Assumptions C05_forced_size_refuted.

Theorem C05_large_negative_refuted : forall len rest, len <= - 2 ^ 27 -> bytes_ok rest ->
  exists bs, coded_value_length_signed len (coded_size_length_signed len 0) = Some bs /\
    forall bufsize, 8 <= bufsize -> exists r,
    read_coded_size_signed (bs ++ rest) bufsize = Some r /\ sz_val r <> len.
Proof. exact signed_negative_wrong. Qed.
Print Assumptions C05_large_negative_refuted.
Example C05_wrong_cases : coded_size_length_signed 10 0 < 2 /\
  coded_value_length_signed 10 2 = Some [64; 73] /\ read_coded_size_signed [64; 73] 2 = Some (mkSz (-8118) 2 16383) /\
  coded_value_length_signed (- 2 ^ 27) 5 = Some [15; 248; 0; 0; 0].
Proof. vm_compute. intuition congruence. Qed.

(** ** C06 *)
Theorem C06_id_roundtrip : forall id n bufsize rest, valid_id_len id n -> n <= bufsize ->
  let bs := fill_buffer_id bufsize id in
  zlen bs = n /\ get_id_length id = n /\ buffer_to_id (bs ++ rest) = Some id /\
  id_from_buffer (bs ++ rest) n = Some id.
Proof. exact id_roundtrip. Qed.
Print Assumptions C06_id_roundtrip.

Theorem C06_id_bytes : forall id n bufsize, valid_id_len id n -> n <= bufsize ->
  id_encodes (fill_buffer_id bufsize id) id /\ zlen (fill_buffer_id bufsize id) = n.
Proof. exact fill_buffer_id_ok. Qed.
Print Assumptions C06_id_bytes.

Theorem C06_id_prefix_free : forall bs bs' id id' rest rest', id_encodes bs id -> id_encodes bs' id' ->
  bs ++ rest = bs' ++ rest' -> bs = bs' /\ id = id'.
Proof. exact id_prefix_free. Qed.
Print Assumptions C06_id_prefix_free.
Example C06_case : valid_id_len 440786851 4 /\ fill_buffer_id 4 440786851 = [26; 69; 223; 163] /\
  valid_id_len 236 1 /\ fill_buffer_id 4 236 = [236].
Proof. vm_compute. intuition congruence. Qed.

(** ** C07 *)
Theorem C07_uint_roundtrip : forall v df, is_int64 v -> 0 <= df <= 8 ->
  let ds := update_size_uint v df in
  exists bs, render_data_int false v ds df = Some bs /\ bytes_ok bs /\ zlen bs = ds /\
    be_val bs = v mod 2 ^ 64 /\ read_data_int bs = Some v.
Proof. exact uint_roundtrip. Qed.
Print Assumptions C07_uint_roundtrip.

Theorem C07_uint_minimal : forall v df, 0 <= df <= 8 ->
  exists n, least_size (ufits (v mod 2 ^ 64)) n /\ update_size_uint v df = Z.max df n.
Proof. exact uint_minimal. Qed.
Print Assumptions C07_uint_minimal.
Example C07_case : update_size_uint 65536 0 = 3 /\ render_data_int false 65536 3 0 = Some [1; 0; 0] /\
  read_data_int [1; 0; 0] = Some 65536 /\ is_int64 (-1) /\ update_size_uint (-1) 0 = 8 /\
  read_data_int (repeat 255 8) = Some (-1).
Proof. vm_compute. intuition congruence. Qed.

(** ** C08 *)
Theorem C08_sint_minimal : forall v df, is_int64 v -> 0 <= df <= 8 ->
  exists n, least_size (sfits v) n /\ update_size_sint v df = Z.max df n.
Proof. exact sint_minimal. Qed.
Print Assumptions C08_sint_minimal.

Theorem C08_sint_bytes : forall v df, is_int64 v -> 0 <= df <= 8 ->
  let ds := update_size_sint v df in
  exists bs, render_data_int true v ds df = Some bs /\ bytes_ok bs /\ zlen bs = ds /\ 1 <= ds <= 8 /\ twos_val bs = v.
Proof. exact sint_render. Qed.
Print Assumptions C08_sint_bytes.

(** Reading: exact where plain [char] is unsigned. *)
Theorem C08_sint_read_unsigned_char : forall junk bs, bytes_ok bs -> 1 <= zlen bs <= 8 ->
  read_data_sint false junk bs = Some (twos_val bs).
Proof. exact read_sint_unsigned_char. Qed.
Print Assumptions C08_sint_read_unsigned_char.

(** Where plain [char] is signed, every byte with its top bit set erases the bytes before it. *)
Theorem C08_sint_read_signed_char : forall junk bs, bytes_ok bs -> 1 <= zlen bs <= 8 ->
  exists pre suf, bs = pre ++ suf /\ read_data_sint true junk bs = Some (twos_val suf) /\
   ((pre = [] /\ Forall (fun b => 0 <= b < 128) bs) \/
    exists b post, suf = b :: post /\ 128 <= b /\ Forall (fun b => 0 <= b < 128) post).
Proof. exact read_sint_signed_char. Qed.
Print Assumptions C08_sint_read_signed_char.

Theorem C08_sint_roundtrip : forall v df junk, is_int64 v -> 0 <= df <= 8 ->
  exists bs, render_data_int true v (update_size_sint v df) df = Some bs /\
    read_data_sint false junk bs = Some v /\
    ((forall pre b post, bs = pre ++ b :: post -> 128 <= b -> Forall (fun c => c = 255) pre) ->
     read_data_sint true junk bs = Some v).
Proof. exact sint_signed_char_exact. Qed.
Print Assumptions C08_sint_roundtrip.

Theorem C08_sint_signed_char_refuted : exists v bs,
  is_int64 v /\ render_data_int true v (update_size_sint v 1) 1 = Some bs /\
  forall junk, read_data_sint true junk bs = Some (-128) /\ v = 128.
Proof. exact sint_signed_char_wrong. Qed.
Print Assumptions C08_sint_signed_char_refuted.

Theorem C08_sint_empty_refuted : forall cs,
  read_data_sint cs 0 [] = Some 0 /\ read_data_sint cs 128 [] = Some (-1).
Proof. exact sint_empty_indeterminate. Qed.
Print Assumptions C08_sint_empty_refuted.
Example C08_case : update_size_sint (-129) 0 = 2 /\ render_data_int true (-129) 2 0 = Some [255; 127] /\
  read_data_sint true 0 [255; 127] = Some (-129) /\ twos_val [255; 127] = -129 /\
  read_data_sint true 0 [1; 128] = Some (-128) /\ twos_val [1; 128] = 384.
Proof. vm_compute. intuition congruence. Qed.

(** ** C09 *)
Theorem C09_crc_any_chunks : forall chunks, Forall bytes_ok chunks ->
  crc_of_chunks false chunks = crc32_ieee (concat chunks).
Proof. exact crc_chunks_ieee. Qed.
Print Assumptions C09_crc_any_chunks.

Theorem C09_crc_matches : forall stored buf, bytes_ok buf ->
  crc_matches false stored buf = true <-> stored = crc32_ieee buf.
Proof. exact crc_matches_iff. Qed.
Print Assumptions C09_crc_matches.

Theorem C09_crc_render_read : forall c, is_u32 c ->
  bytes_ok (crc_render c) /\ zlen (crc_render c) = 4 /\ crc_read (crc_render c) = Some c.
Proof. exact crc_render_read. Qed.
Print Assumptions C09_crc_render_read.

(** The check value of the standard, computed with the specification and with the code. *)
Example C09_case : crc32_ieee [49; 50; 51; 52; 53; 54; 55; 56; 57] = 3421780262 /\
  crc_of_chunks false [[49; 50; 51; 52; 53]; []; [54]; [55; 56; 57]] = 3421780262.
Proof. vm_compute. intuition congruence. Qed.

(** Finding: the big-endian build computes the byte-swapped CRC while the element payload is
    stored little endian on every build, so files do not verify across byte orders. *)
Theorem C09_crc_matches_big_endian : forall stored buf, bytes_ok buf ->
  crc_matches true stored buf = true <-> stored = bswap32 (crc32_ieee buf).
Proof. exact crc_matches_big_iff. Qed.
Print Assumptions C09_crc_matches_big_endian.
Theorem C09_crc_big_endian_refuted : exists buf,
  bytes_ok buf /\ crc_read (crc_render (crc32_ieee buf)) = Some (crc32_ieee buf) /\
  crc_matches false (crc32_ieee buf) buf = true /\ crc_matches true (crc32_ieee buf) buf = false.
Proof. exact crc_big_endian_rejects. Qed.
Print Assumptions C09_crc_big_endian_refuted.

Theorem C09_crc_table_in_bounds : forall c b, is_u32 c -> is_byte b ->
  (Z.to_nat (crc_index false c) < length m_tab_le)%nat /\ (Z.to_nat (Z.lxor (crc_index false c) b) < length m_tab_le)%nat /\
  (Z.to_nat (crc_index true c) < length m_tab_be)%nat /\ (Z.to_nat (Z.lxor (crc_index true c) b) < length m_tab_be)%nat.
Proof. exact crc_index_in_table. Qed.
Print Assumptions C09_crc_table_in_bounds.

(** ** C10 *)
Theorem C10_crc_detects_burst : forall stored buf buf' pre x y post,
  bytes_ok buf -> bytes_ok buf' ->
  msg_bits buf = pre ++ x ++ post -> msg_bits buf' = pre ++ y ++ post ->
  length x = length y -> (length x <= 32)%nat -> x <> y ->
  crc_matches false stored buf = true -> crc_matches false stored buf' = false.
Proof. exact crc_detects_burst. Qed.
Print Assumptions C10_crc_detects_burst.

Theorem C10_crc_detects_4bytes : forall stored pre x y post,
  bytes_ok (pre ++ x ++ post) -> bytes_ok y -> length x = length y -> (length x <= 4)%nat -> x <> y ->
  crc_matches false stored (pre ++ x ++ post) = true -> crc_matches false stored (pre ++ y ++ post) = false.
Proof. exact crc_detects_4bytes. Qed.
Print Assumptions C10_crc_detects_4bytes.
Example C10_case : exists pre x y post,
  msg_bits [1; 2; 3] = pre ++ x ++ post /\ msg_bits [1; 6; 3] = pre ++ y ++ post /\ length x = length y /\ x <> y /\
  crc_matches false (crc32_ieee [1; 2; 3]) [1; 2; 3] = true /\ crc_matches false (crc32_ieee [1; 2; 3]) [1; 6; 3] = false.
Proof.
  exists (firstn 10 (msg_bits [1; 2; 3])), [false], [true], (skipn 11 (msg_bits [1; 2; 3])).
  vm_compute. intuition congruence.
Qed.

(** ** C11 *)
Theorem C11_void_full_size : forall n, 2 <= n < 2 ^ 35 ->
  snd (void_set_full_size n) = true /\
  exists bs, void_render (fst (void_set_full_size n)) 0 = Some bs /\
    void_bytes bs (fst (void_set_full_size n)) /\
    (void_short n -> zlen bs = n - 1) /\ (~ void_short n -> zlen bs = n).
Proof. exact void_set_full_size_exact. Qed.
Print Assumptions C11_void_full_size.
Theorem C11_void_too_small : forall n, n < 2 -> snd (void_set_full_size n) = false.
Proof. exact void_set_full_size_fails. Qed.
Print Assumptions C11_void_too_small.
Example C11_case : fst (void_set_full_size 10) = 8 /\ void_render 8 0 = Some (236 :: 136 :: repeat 0 8) /\
  void_short 128 /\ fst (void_set_full_size 128) = 125 /\
  match void_render 125 0 with Some bs => zlen bs = 127 | None => False end.
Proof. repeat split; try (vm_compute; reflexivity). exists 1. cbn. lia. Qed.

(** ** C12 *)
Theorem C12_void_replace : forall pre old post repl gap k,
  zlen old = zlen repl + gap -> 3 <= gap -> size_class k gap ->
  exists sz d' stale,
    void_replace_with (pre ++ old ++ post) (zlen pre) (zlen old) repl =
      Some (Some (pre ++ repl ++ (236 :: sz) ++ stale ++ post), zlen old) /\
    vint_spec sz d' /\ d' <> vint_reserved (zlen sz) /\
    1 + zlen sz + d' = gap - k /\ zlen stale = d' + k /\ exists p, old = p ++ stale.
Proof. exact void_replace_ok. Qed.
Print Assumptions C12_void_replace.
Theorem C12_void_replace_exact_fit : forall pre old post repl, zlen old = zlen repl ->
  void_replace_with (pre ++ old ++ post) (zlen pre) (zlen old) repl = Some (Some (pre ++ repl ++ post), zlen old).
Proof. exact void_replace_exact_fit. Qed.
Print Assumptions C12_void_replace_exact_fit.
Theorem C12_void_replace_refused : forall pre old post repl,
  void_replace_with (pre ++ old ++ post) (zlen pre) (zlen old) repl = None <->
  zlen old < zlen repl \/ zlen old = zlen repl + 1.
Proof. exact void_replace_refused. Qed.
Print Assumptions C12_void_replace_refused.
(** Finding: the filler never covers the gap ([k] bytes short in C12_void_replace); for a gap of 2
    bytes it is a Void of unknown size. *)
Theorem C12_gap_of_two_refuted : snd (void_filler 2) = Some [236; 255] /\ fst (fst (void_filler 2)) = -1.
Proof. exact void_filler_two. Qed.
Print Assumptions C12_gap_of_two_refuted.
Example C12_case : size_class 1 8 /\
  void_replace_with [1; 236; 138; 0; 0; 0; 0; 0; 0; 0; 0; 0; 0; 9] 1 12 [191; 130; 5; 5] =
   Some (Some [1; 191; 130; 5; 5; 236; 133; 0; 0; 0; 0; 0; 0; 9], 12).
Proof. vm_compute. intuition congruence. Qed.

(** ** C47 *)
Theorem C47_float_bits_roundtrip : forall little ds bits, (ds = 8 \/ ds = 4) -> 0 <= bits < 256 ^ ds ->
  let bs := render_data_float little ds bits in
  bytes_ok bs /\ zlen bs = ds /\ be_val bs = bits /\ read_data_float bs = Some bits.
Proof. exact float_roundtrip. Qed.
Print Assumptions C47_float_bits_roundtrip.
Example C47_case : render_data_float true 4 1065353216 = [63; 128; 0; 0] /\ read_data_float [63; 128; 0; 0] = Some 1065353216.
Proof. vm_compute. intuition congruence. Qed.
