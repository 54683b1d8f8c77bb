(** Formatted printing and scanning, and the conversions of numbers (C46, C59, C60). *)
From Verif Require Import Base BaseProofs VintProofs IntEltProofs Tree Arr Str StrSpec StrProofs StrProofs2 StrProofs3 Printf PrintfSpec PrintfProofs PrintfProofs2 PrintfProofs3 Scan ScanSpec ScanProofs ScanProofs2.

(** ** C46: formatted printing *)
(** A format made of pieces gives the text of the pieces, cut to the buffer and terminated. *)
Theorem C46_print : forall be len ps t, 1 <= len < 2 ^ 64 -> Forall piece_ok ps -> rooms len ps ->
  vstprintf be len (concat (map fmt_of ps) ++ 0 :: t) (concat (map args_of ps)) = Ok (fit len (concat (map text_of ps)) ++ [0]).
Proof. exact vstprintf_ok. Qed.
Print Assumptions C46_print.
(** So what is written fits in the buffer. *)
Theorem C46_bounded : forall be len ps t, 1 <= len < 2 ^ 64 -> Forall piece_ok ps -> rooms len ps ->
  exists out, vstprintf be len (concat (map fmt_of ps) ++ 0 :: t) (concat (map args_of ps)) = Ok (out ++ [0]) /\ zlen (out ++ [0]) <= len /\ (zlen (concat (map text_of ps)) < len -> out = concat (map text_of ps)).
Proof.
  intros be len ps t Hl H R. exists (fit len (concat (map text_of ps))). split; [apply vstprintf_ok; assumption|]. split; [|intros L; apply fit_all; exact L].
  rewrite zlen_app. change (zlen [0]) with 1. unfold fit, zlen. rewrite firstn_length. lia.
Qed.
Print Assumptions C46_bounded.
(** The digits shown are those of the number, without leading zeros. *)
Theorem C46_numerals : forall q up n, 1 < q <= 16 -> 0 <= n < q ^ 40 ->
  exists ds, shown q up n = map (digit_char up) ds /\ Forall (fun d => 0 <= d < q) ds /\ value q ds = n /\ ds <> [] /\ (1 <= n -> 1 <= hd 0 ds) /\ (n = 0 -> ds = [0]).
Proof.
  intros q up n Hq Hn. exists (numeral 40 q n). destruct (numeral_ok q ltac:(lia) 40 n Hn) as (H1 & H2 & H3). split; [reflexivity|]. split; [exact H2|]. split; [exact H1|]. split; [apply numeral_nonnil|]. split; [exact H3|]. intros ->. cbn [numeral]. replace (0 <? q) with true by lia. reflexivity.
Qed.
Print Assumptions C46_numerals.
Example C46_ex : vstprintf false 30 [91; 37; 48; 53; 100; 124; 37; 45; 42; 115; 124; 37; 88; 93; 0] [AInt (-42); AInt 4; AStr (Some [97; 98; 0]); AInt 48879] = Ok ([91; 45; 48; 48; 52; 50; 124; 97; 98; 32; 32; 124; 66; 69; 69; 70; 93] ++ [0]) /\
  vstprintf false 5 [91; 37; 48; 53; 100; 0] [AInt (-42)] = Ok [91; 45; 48; 48; 0] /\
  (let ps := [Lit 91; Num true (WLit [5]) false 100 (-42); Lit 124; Txt true (WArg 4) [97; 98]; Lit 124; Hex false WNone false true 48879; Lit 93] in
   Forall piece_ok ps /\ rooms 30 ps /\ concat (map fmt_of ps) = [91; 37; 48; 53; 100; 124; 37; 45; 42; 115; 124; 37; 88; 93]).
Proof. split; [vm_compute; reflexivity|]. split; [vm_compute; reflexivity|]. split; [|split; [cbn [rooms room_for]; tauto|reflexivity]]. repeat constructor; try lia; try discriminate. Qed.
(** Findings.  A right-aligned string whose field is wider than the buffer is written past its end (%20s into 4 characters); such a character fills the buffer and no room is left for the final zero (%20c into 10). *)
Theorem C46_wide_field_refuted : vstprintf false 4 [37; 50; 48; 115; 0] [AStr (Some [97; 98; 99; 100; 0])] = Bad /\ vstprintf false 10 [37; 50; 48; 99; 0] [AInt 65] = Bad.
Proof. split; vm_compute; reflexivity. Qed.
Print Assumptions C46_wide_field_refuted.
(** %r adds the length of a code to the room left instead of taking it: "%r%r" overflows 8 characters. *)
Theorem C46_fourcc_refuted : vstprintf false 8 [37; 114; 37; 114; 0] [AInt 1633837924; AInt 1633837924] = Bad.
Proof. vm_compute. reflexivity. Qed.
Print Assumptions C46_fourcc_refuted.
(** A width over 8 is lost for hexadecimal numbers, and 0 then prints as nothing; a negative one is not its two's complement; a decimal number from 10^12 is not in decimal digits; %-5d is aligned right; a signed number is wrong as %ud. *)
Theorem C46_numbers_refuted :
  vstprintf false 20 [37; 57; 120; 0] [AInt 5] = Ok [53; 0] /\ vstprintf false 20 [37; 57; 120; 0] [AInt 0] = Ok [0] /\
  vstprintf false 20 [37; 120; 0] [AInt (-1)] = Ok [86; 0] /\
  vstprintf false 20 [37; 108; 100; 0] [AInt (10 ^ 12)] = Ok [97; 48; 48; 48; 48; 48; 48; 48; 48; 48; 48; 48; 0] /\
  vstprintf false 20 [37; 45; 53; 100; 0] [AInt 7] = Ok [32; 32; 32; 32; 55; 0] /\
  vstprintf false 20 [37; 117; 100; 0] [AInt (-5)] = Ok [82; 0].
Proof. do 5 (split; [vm_compute; reflexivity|]). vm_compute. reflexivity. Qed.
Print Assumptions C46_numbers_refuted.
(** A format ending inside a directive is read past its end. *)
Theorem C46_end_refuted : vstprintf false 20 [97; 37; 0] [] = Bad /\ vstprintf false 20 [97; 37; 117; 0] [AInt 5] = Bad.
Proof. split; vm_compute; reflexivity. Qed.
Print Assumptions C46_end_refuted.

(** ** C59: numbers and GUIDs as text *)
Theorem C59_int : forall len p, 1 <= len < 2 ^ 64 -> - 2 ^ 31 <= p < 2 ^ 31 ->
  int_to_string len p false = Ok (fit len (decimal p) ++ [0]) /\ (0 <= p -> int_to_string len p true = Ok (fit len ([48; 120] ++ hex_digits true 8 p) ++ [0])).
Proof. intros len p Hl Hp. split; [apply int_dec; assumption|intros; apply int_hex; lia]. Qed.
Print Assumptions C59_int.
Theorem C59_int64 : forall len hi lo, 1 <= len < 2 ^ 64 -> 0 <= hi < 2 ^ 31 -> 0 <= lo < 2 ^ 31 ->
  int64_to_string len (hi * 2 ^ 32 + lo) true = Ok (fit len ([48; 120] ++ hex_digits true 8 hi ++ hex_digits true 8 lo) ++ [0]) /\ int64_to_string len lo false = Ok (fit len (decimal lo) ++ [0]).
Proof. intros len hi lo Hl Hh Hlo. split; [apply int64_hex; assumption|apply int64_small; assumption]. Qed.
Print Assumptions C59_int64.
(** The texts have the right digits and lengths. *)
Theorem C59_digits : forall up k v, 1 <= k <= 8 -> 0 <= v < 16 ^ k -> zlen (hex_digits up k v) = k /\ exists ds, digits_of 16 (hex_digits up k v) ds /\ value 16 ds = v.
Proof. intros up k v Hk Hv. replace k with (Z.of_nat (Z.to_nat k)) by lia. apply hex_digits_ok; [lia|]. rewrite Z2Nat.id by lia. exact Hv. Qed.
Print Assumptions C59_digits.
Theorem C59_guid : forall len v1 v2 v3 v4, 1 <= len < 2 ^ 64 -> 0 <= v1 < 2 ^ 31 -> 0 <= v2 < 65536 -> 0 <= v3 < 65536 -> Forall (fun b => 0 <= b < 256) v4 -> length v4 = 8%nat ->
  guid_to_string len v1 v2 v3 v4 = Ok (fit len (guid_text v1 v2 v3 v4) ++ [0]).
Proof. exact guid_ok. Qed.
Print Assumptions C59_guid.
Example C59_ex : int_to_string 12 (-2147483648) false = Ok [45; 50; 49; 52; 55; 52; 56; 51; 54; 52; 56; 0] /\ int_to_string 20 171 true = Ok [48; 120; 48; 48; 48; 48; 48; 48; 65; 66; 0] /\ int_to_string 3 1234 false = Ok [49; 50; 0].
Proof. split; [vm_compute; reflexivity|]. split; vm_compute; reflexivity. Qed.
(** Findings: words with the top bit set print with wrong digits, different numbers get the same text, and other 64-bit numbers print as two decimal numbers side by side (2^40 gives 2560). *)
Theorem C59_top_bit_refuted :
  int_to_string 20 (-1) true = Ok [48; 120; 48; 48; 48; 48; 48; 48; 48; 54; 0] /\
  int64_to_string 20 (2 ^ 31) true = Ok [48; 120; 48; 48; 48; 48; 48; 48; 48; 48; 47; 48; 48; 48; 48; 48; 48; 48; 0] /\
  guid_to_string 40 4294967295 1 2 [1; 2; 3; 4; 5; 6; 7; 8] = Ok ([48; 48; 48; 48; 48; 48; 48; 86] ++ skipn 8 (guid_text 0 1 2 [1; 2; 3; 4; 5; 6; 7; 8]) ++ [0]) /\
  int64_to_string 30 (2 ^ 40) false = Ok [50; 53; 54; 48; 0] /\ int64_to_string 30 2560 false = Ok [50; 53; 54; 48; 0].
Proof. do 4 (split; [vm_compute; reflexivity|]). vm_compute. reflexivity. Qed.
Print Assumptions C59_top_bit_refuted.

(** ** C60: formatted scanning *)
(** An input made of separated items gives the values of the items, through the mask of the items. *)
Theorem C60_scan : forall is t tm, separated is -> zlen (concat (map item_text is)) < 2 ^ 64 ->
  stscanf (concat (map item_text is) ++ 0 :: t) (concat (map item_mask is) ++ 0 :: tm) = Ok (map store_of (values false is), false).
Proof. exact stscanf_ok. Qed.
Print Assumptions C60_scan.
Example C60_ex : stscanf [32; 45; 49; 55; 44; 48; 120; 70; 102; 9; 10; 55; 0] [37; 100; 44; 48; 120; 37; 120; 32; 37; 111; 0] = Ok ([SI (-17); SI 255; SI 7], false) /\
  (let is := [SNum 10 100 None false [32] true [49; 55] [1; 7]; SLit 44; SLit 48; SLit 120; SNum 16 120 None false [] false [70; 102] [15; 15]; SBlank [9; 10]; SNum 8 111 None false [] false [55] [7]] in
   separated is /\ concat (map item_text is) = [32; 45; 49; 55; 44; 48; 120; 70; 102; 9; 10; 55] /\ concat (map item_mask is) = [37; 100; 44; 48; 120; 37; 120; 32; 37; 111]).
Proof.
  split; [vm_compute; reflexivity|]. split; [|split; reflexivity].
  assert (SP : forall c, c = 32 \/ c = 9 \/ c = 10 -> space_char c) by (unfold space_char; lia).
  assert (ND : forall b c, c = 44 \/ c = 9 -> forall d, ~ digit_of b c d) by (intros b c Hc d H; inversion H; lia).
  cbn [separated item_ok ends map concat item_text app].
  split; [split; [left; split; [reflexivity|left; reflexivity]|]; split; [repeat constructor; apply SP; lia|]; split; [constructor; [apply (D_dec 10 1); lia|constructor; [apply (D_dec 10 7); lia|constructor]]|]; split; [discriminate|]; split; [vm_compute; reflexivity|exact I]|].
  split; [left; apply ND; lia|]. split; [lia|]. split; [exact I|]. split; [lia|]. split; [exact I|]. split; [lia|]. split; [exact I|].
  split; [split; [right; left; split; [reflexivity|left; reflexivity]|]; split; [constructor|]; split; [constructor; [apply (D_up 16 15); lia|constructor; [apply (D_low 16 15); lia|constructor]]|]; split; [discriminate|]; split; [vm_compute; reflexivity|exact I]|].
  split; [left; apply ND; lia|]. split; [repeat constructor; apply SP; lia|]. split; [unfold space_char; lia|].
  split; [split; [right; right; split; reflexivity|]; split; [constructor|]; split; [constructor; [apply (D_dec 8 7); lia|constructor]|]; split; [discriminate|]; split; [vm_compute; reflexivity|exact I]|]. split; exact I.
Qed.
(** What IntToString writes StringToInt reads back, also when it finds the base itself. *)
Theorem C60_int_round_trip : forall len p out, 12 <= len < 2 ^ 64 -> - 2 ^ 31 <= p < 2 ^ 31 ->
  (int_to_string len p false = Ok out -> forall t, string_to_int (out ++ t) 0 = Ok p /\ string_to_int (out ++ t) (-1) = Ok p) /\
  (0 <= p -> int_to_string len p true = Ok out -> forall t, string_to_int (out ++ t) (-1) = Ok p).
Proof.
  intros len p out Hl Hp. split.
  - intros E t. rewrite int_dec in E by lia. pose proof (decimal_len p Hp). rewrite fit_all in E by lia. injection E as <-. rewrite <- app_assoc. cbn [app]. split; apply int_round_dec; lia.
  - intros P E t. rewrite int_hex in E by lia. destruct (C59_digits true 8 p ltac:(lia)) as [L _]; [change (16 ^ 8) with (2 ^ 32); lia|]. rewrite fit_all in E by (rewrite zlen_app, L; change (zlen [48; 120]) with 2; lia). assert (E' : out ++ t = [48; 120] ++ hex_digits true 8 p ++ 0 :: t) by (injection E as <-; cbn [app]; rewrite <- !app_assoc; reflexivity). rewrite E'. apply int_round_hex. lia.
Qed.
Print Assumptions C60_int_round_trip.
Theorem C60_int64_round_trip : forall len hi lo out t, 19 <= len < 2 ^ 64 -> 0 <= hi < 2 ^ 31 -> 0 <= lo < 2 ^ 31 ->
  int64_to_string len (hi * 2 ^ 32 + lo) true = Ok out -> string_to_int64 (out ++ t) = Ok (hi * 2 ^ 32 + lo).
Proof.
  intros len hi lo out t Hl Hh Hlo E. rewrite int64_hex in E by lia. destruct (C59_digits true 8 hi ltac:(lia)) as [L1 _]; [change (16 ^ 8) with (2 ^ 32); lia|]. destruct (C59_digits true 8 lo ltac:(lia)) as [L2 _]; [change (16 ^ 8) with (2 ^ 32); lia|].
  rewrite fit_all in E by (rewrite !zlen_app, L1, L2; change (zlen [48; 120]) with 2; lia). assert (E' : out ++ t = [48; 120] ++ hex_digits true 8 hi ++ hex_digits true 8 lo ++ 0 :: t) by (injection E as <-; cbn [app]; rewrite <- !app_assoc; reflexivity). rewrite E', (read_int64 hi lo t) by lia.
  f_equal. assert (S : forall x, 0 <= x < 2 ^ 31 -> s32 x = x) by (intros; unfold s32; apply s_wrap_small; [lia|change (2 ^ (32 - 1)) with (2 ^ 31); lia]). rewrite !S by lia.
  assert (U : forall x, 0 <= x < 2 ^ 64 -> u64 x = x) by (intros; unfold u64; apply Z.mod_small; lia). rewrite (U hi), (U lo) by lia. rewrite (U (hi * 2 ^ 32)) by lia. rewrite (U (hi * 2 ^ 32 + lo)) by lia. unfold s64. apply s_wrap_small; [lia|]. change (2 ^ (64 - 1)) with (2 ^ 63). lia.
Qed.
Print Assumptions C60_int64_round_trip.
(** Finding: a low word with its top bit set is taken as negative, so the number read is 2^32 too small. *)
Theorem C60_int64_refuted : forall hi lo t, 0 <= hi < 2 ^ 31 -> 2 ^ 31 <= lo < 2 ^ 32 ->
  string_to_int64 ([48; 120] ++ hex_digits true 8 hi ++ hex_digits true 8 lo ++ 0 :: t) = Ok (hi * 2 ^ 32 + lo - 2 ^ 32).
Proof.
  intros hi lo t Hh Hl. rewrite read_int64 by lia. f_equal.
  assert (E1 : s32 hi = hi) by (unfold s32; apply s_wrap_small; [lia|change (2 ^ (32 - 1)) with (2 ^ 31); lia]).
  assert (E2 : s32 lo = lo - 2 ^ 32) by (unfold s32, s_wrap; lia). rewrite E1, E2. unfold s64, s_wrap, u64. lia.
Qed.
Print Assumptions C60_int64_refuted.
(** Findings: after a long directive every decimal value is stored as 64 bits, also for %d; '-' alone is the number 0; a mask ending in '%' is read past its end; a number of 64 bits and more overflows. *)
Theorem C60_scan_refuted :
  stscanf [49; 32; 50; 0] [37; 108; 100; 32; 37; 100; 0] = Ok ([SL 1; SL 2], false) /\
  stscanf [45; 0] [37; 100; 0] = Ok ([SI 0], false) /\
  stscanf [49; 48; 48; 0] [49; 37; 0] = Bad /\
  (exists v, stscanf (repeat 57 19 ++ [0]) [37; 108; 100; 0] = Ok ([SL v], true)).
Proof. split; [vm_compute; reflexivity|]. split; [vm_compute; reflexivity|]. split; [vm_compute; reflexivity|]. eexists. vm_compute. reflexivity. Qed.
Print Assumptions C60_scan_refuted.
