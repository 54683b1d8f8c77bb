(** C68-C71: base 64, words, numbers and fractions in text. *)
From Verif Require Import Base BaseProofs Tree Arr Str StrSpec StrProofs StrProofs3 Printf PrintfSpec PrintfProofs PrintfProofs3 Scan ScanSpec ScanProofs ScanProofs2 Expr ExprSpec ExprProofs ExprProofs2 ExprProofs3 PropStr.

(** ** C68: base 64 *)
(** Every buffer is encoded as RFC 4648 says, with a terminator, and nothing around it changes. *)
Theorem C68_encode : forall bs pre hole post len, bytes_ok bs -> zlen hole = zlen (base64 bs) + 1 -> zlen hole <= len ->
  to_base64 (pre ++ hole ++ post) (zlen pre) len bs = Ok (true, pre ++ base64 bs ++ 0 :: post).
Proof. intros bs pre hole post len H1 H2 H3. apply encode_ok; assumption. Qed.
Print Assumptions C68_encode.
Theorem C68_length : forall bs, zlen (base64 bs) = 4 * ((zlen bs + 2) / 3).
Proof. exact base64_len. Qed.
Print Assumptions C68_length.
(** Without room it is refused, and the text buffer is not left. *)
Theorem C68_short : forall bs pre hole post, bytes_ok bs -> bs <> [] -> zlen hole <= zlen (base64 bs) ->
  exists hole', to_base64 (pre ++ hole ++ post) (zlen pre) (zlen hole) bs = Ok (false, pre ++ hole' ++ post) /\ zlen hole' = zlen hole.
Proof. intros bs pre hole post H1 H2 H3. apply encode_short; assumption. Qed.
Print Assumptions C68_short.
(** But an empty buffer is written with its terminator even where there is no room at all. *)
Theorem C68_empty_refuted : exists pre post, to_base64 (pre ++ post) (zlen pre) 0 [] = Ok (true, pre ++ 0 :: tl post) /\ post <> 0 :: tl post.
Proof. exists [1], [2]. split; [reflexivity|discriminate]. Qed.
Print Assumptions C68_empty_refuted.
(** What was encoded is decoded: blanks before are skipped, the bytes are cut to the buffer. *)
Theorem C68_decode : forall ws bs rest hole post, Forall space_char ws -> bytes_ok bs -> bs <> [] -> base64_ends rest ->
  is_base64 (ws ++ base64 bs ++ rest) (hole ++ post) (zlen hole) = Ok (rest, firstn (length hole) bs ++ skipn (length bs) hole ++ post, Z.min (zlen bs) (zlen hole)).
Proof.
  intros ws bs rest hole post Hw Hb Hn Hr. unfold is_base64. rewrite skip_blank; [|exact Hw|].
  - cbn [bind]. pose proof (decode_loop bs rest post Hb Hr 0 0 [] hole eq_refl ltac:(lia)) as H. cbn [app] in H. change (zlen (@nil Z)) with 0 in H. rewrite H, puts_all. cbn [fst snd app]. do 2 f_equal. unfold zlen. rewrite firstn_length. lia.
  - assert (S : forall k, 0 <= k < 64 -> ~ space_char (sextet k)). { intros k Hk. rewrite space_is. assert (A : forallb (fun n => negb (is_space (sextet (Z.of_nat n)))) (seq 0 64) = true) by (vm_compute; reflexivity). rewrite forallb_forall in A. specialize (A (Z.to_nat k) ltac:(apply in_seq; lia)). rewrite Z2Nat.id in A by lia. destruct (is_space _); [discriminate A|discriminate]. }
    destruct bs as [|a [|b [|c r]]]; [congruence| | |]; apply Forall_cons_iff in Hb; destruct Hb as [Ha Hb]; unfold is_byte in Ha; cbn [base64 app]; apply S.
    + lia.
    + apply Forall_cons_iff in Hb. destruct Hb as [Hb _]. unfold is_byte in Hb. lia.
    + apply Forall_cons_iff in Hb. destruct Hb as [Hb Hc]. apply Forall_cons_iff in Hc. destruct Hc as [Hc _]. unfold is_byte in *. lia.
Qed.
Print Assumptions C68_decode.
(** Any terminated text is decoded without leaving the text or the buffer. *)
Theorem C68_safe : forall s t hole post, Forall (fun b => b <> 0) s -> exists s' o k, is_base64 (s ++ 0 :: t) (hole ++ post) (zlen hole) = Ok (s' ++ 0 :: t, o ++ post, k) /\ zlen o = zlen hole /\ 0 <= k <= zlen hole.
Proof.
  intros s t hole post Hs. unfold is_base64. destruct (skip_any s t Hs) as (s1 & E & H1). rewrite E. cbn [bind]. destruct (loop_safe s1 t H1 0 0 [] hole post) as (s' & o & k & E2 & _ & L & K). cbn [app] in E2. change (zlen (@nil Z)) with 0 in E2. rewrite E2. exists s', o, (0 + k). split; [reflexivity|]. split; [exact L|]. lia.
Qed.
Print Assumptions C68_safe.
Example C68_ex : base64 [77; 97; 110; 255] = [84; 87; 70; 117; 47; 119; 61; 61] /\ is_base64 ([32] ++ base64 [77; 97; 110; 255] ++ [0]) (repeat 9 6) 5 = Ok ([0], [77; 97; 110; 255; 9; 9], 4) /\ base64_ends [0] /\ to_base64 (repeat 9 6) 0 5 [1; 2; 3] = Ok (true, base64 [1; 2; 3] ++ [0; 9]).
Proof. split; [reflexivity|]. split; [reflexivity|]. split; [|reflexivity]. exists 0, []. split; [reflexivity|]. split; [|discriminate]. vm_compute. intuition discriminate. Qed.

(** ** C69: words and numbers *)
(** A signed decimal number of less than 2^63 is read with its sign, up to the first character that is no digit. *)
Theorem C69_int : forall sg neg cs ds rest, signed_text sg neg -> digits_of 10 cs ds -> cs <> [] -> value 10 ds < 2 ^ 63 -> no_digit 10 rest ->
  is_int (sg ++ cs ++ rest) = Ok (Some (signed neg (value 10 ds), rest)).
Proof. exact int_ok. Qed.
Print Assumptions C69_int.
(** Without digits there is none, and the text is not moved. *)
Theorem C69_none : forall sg neg l, signed_text sg neg -> no_digit 10 l -> (sg = [] -> hd 0 l <> 45 /\ hd 0 l <> 43) -> is_int (sg ++ l) = Ok None.
Proof. intros sg neg l S R H. apply (int_none l sg neg S R). intros _ E. specialize (H E). destruct R as (c & r & -> & _). exact H. Qed.
Print Assumptions C69_none.
(** The printed text of any int is read back. *)
Theorem C69_printed : forall v t len, - 2 ^ 31 <= v < 2 ^ 31 -> 12 <= len < 2 ^ 64 -> exists o, int_to_string len v false = Ok o /\ is_int (o ++ t) = Ok (Some (v, 0 :: t)).
Proof.
  intros v t len Hv Hl. exists (decimal v ++ [0]). split; [rewrite int_dec by lia; rewrite fit_all by (pose proof (decimal_len v Hv); lia); reflexivity|]. rewrite <- app_assoc. unfold decimal. rewrite <- app_assoc.
  destruct (shown_digits 10 false (Z.abs v) ltac:(lia)) as (D & V & N); [split; [lia|apply Z.lt_trans with (2 ^ 32); [lia|reflexivity]]|].
  rewrite (int_ok _ (v <? 0) _ (numeral 40 10 (Z.abs v)) ([0] ++ t)); [|destruct (v <? 0); [left|right]; auto|exact D|exact N|rewrite V; lia|exists 0, t; split; [reflexivity|intros d Hd; apply digit10 in Hd; lia]].
  rewrite V. do 3 f_equal. unfold signed. destruct (Z.ltb_spec v 0); lia.
Qed.
Print Assumptions C69_printed.
(** But -2^63 is an intptr_t and cannot be read: the magnitude overflows first. *)
Theorem C69_least_refuted : exists cs ds, digits_of 10 cs ds /\ - value 10 ds = - 2 ^ 63 /\ is_int ([45] ++ cs ++ [0]) = Bad.
Proof.
  exists [57;50;50;51;51;55;50;48;51;54;56;53;52;55;55;53;56;48;56], [9;2;2;3;3;7;2;0;3;6;8;5;4;7;7;5;8;0;8]. split; [|split; reflexivity].
  assert (A : forall ds, forallb (fun d => (0 <=? d) && (d <? 10)) ds = true -> digits_of 10 (map (Z.add 48) ds) ds). { induction ds as [|d ds IH]; intros H; constructor; cbn [forallb] in H; apply andb_prop in H; destruct H; [apply D_dec; lia|apply IH; assumption]. }
  apply (A [9;2;2;3;3;7;2;0;3;6;8;5;4;7;7;5;8;0;8]). reflexivity.
Qed.
Print Assumptions C69_least_refuted.
(** A number of a given count of digits: exactly those are taken, and fewer are refused. *)
Theorem C69_fixed : forall sg neg cs ds rest, signed_text sg neg -> digits_of 10 cs ds -> cs <> [] -> value 10 ds < 2 ^ 63 ->
  is_int_ex (length cs) (sg ++ cs ++ rest) = Ok (Some (signed neg (value 10 ds), rest)) /\
  forall k, (length cs < k)%nat -> no_digit 10 rest -> is_int_ex k (sg ++ cs ++ rest) = Ok None.
Proof. intros sg neg cs ds rest S D N V. split; [apply int_ex_ok; assumption|]. intros k Hk R. apply (int_ex_short sg neg cs ds); assumption. Qed.
Print Assumptions C69_fixed.
Theorem C69_hex : forall sg neg cs ds rest, signed_text sg neg -> digits_of 16 cs ds -> cs <> [] -> value 16 ds < 2 ^ 63 -> no_digit 16 rest ->
  is_hex (sg ++ [48; 120] ++ cs ++ rest) = Ok (Some (signed neg (value 16 ds), rest)).
Proof. exact hex_ok. Qed.
Print Assumptions C69_hex.
(** Colours of six and eight digits. *)
Theorem C69_colour : forall be cs ds rest r g b, digits_of 16 cs ds -> is_byte r -> is_byte g -> is_byte b -> no_digit 16 rest ->
  (zlen cs = 6 -> value 16 ds = (r * 256 + g) * 256 + b -> is_rgb be (35 :: cs ++ rest) = Ok (Some (colour be r g b 0, rest))) /\
  forall a, is_byte a -> zlen cs = 8 -> value 16 ds = ((r * 256 + g) * 256 + b) * 256 + a -> is_rgb be (35 :: cs ++ rest) = Ok (Some (colour be r g b a, rest)).
Proof. intros be cs ds rest r g b D Hr Hg Hb R. split; [intros L V; apply (rgb_ok be cs ds); assumption|]. intros a Ha L V. apply (rgba_ok be cs ds); assumption. Qed.
Print Assumptions C69_colour.
(** A code of one to four characters between quotes is what StringToFourCC makes of them. *)
Theorem C69_fourcc : forall be local w rest t, zlen local = 5 -> Forall (fun b => 0 < b < 256 /\ b <> 39) w -> 1 <= zlen w <= 4 -> Forall (fun b => b <> 0) rest ->
  exists f, string_to_fourcc be local (w ++ [0]) false = Ok f /\ is_fourcc be local ([64; 39] ++ w ++ 39 :: rest ++ 0 :: t) = Ok (Some (f, rest ++ 0 :: t)).
Proof.
  intros be local w rest t Hl Hw Hn Hr. rewrite fourcc_read by assumption. assert (W : Forall (fun b => b <> 0) w) by (eapply Forall_impl; [|exact Hw]; cbv beta; intros; lia).
  assert (N : w <> []) by (intros ->; change (zlen (@nil Z)) with 0 in Hn; lia).
  assert (H1 : holds (w ++ repeat 0 (Z.to_nat (16 - zlen w))) w). { replace (Z.to_nat (16 - zlen w)) with (S (Z.to_nat (15 - zlen w))) by lia. eexists. split; [reflexivity|exact W]. }
  rewrite (C42_cut be local _ w Hl H1 N). assert (F : firstn 4 w = w) by (apply firstn_all2; unfold zlen in Hn; lia). rewrite F.
  assert (H2 : holds (w ++ [0]) w) by (exists []; split; [reflexivity|exact W]). destruct (of_string_ok be local _ w false Hl H2 N) as (a & b & c & d & _ & E). rewrite E. eexists. split; reflexivity.
Qed.
Print Assumptions C69_fourcc.
(** A word is copied up to a blank, a delimiter or the end, cut to the buffer and terminated. *)
Theorem C69_word : forall ws w rest out len delim dt, Forall space_char ws -> Forall (fun b => b <> 0) delim -> word_ends delim rest -> Forall (word_char delim) w -> w <> [] -> 1 <= len <= zlen out ->
  exists o, is_name (ws ++ w ++ rest) out len (delim ++ 0 :: dt) = Ok (1 <? len, rest, o) /\ holds o (fit len w) /\ zlen o = zlen out /\ skipn (Z.to_nat len) o = skipn (Z.to_nat len) out.
Proof. exact is_name_ok. Qed.
Print Assumptions C69_word.
Theorem C69_symbol : forall ws c rest ch, Forall space_char ws -> c <> 0 -> ~ space_char c ->
  is_symbol ch (ws ++ c :: rest) = Ok (if c =? ch then (true, rest) else (false, c :: rest)) /\
  forall d, is_symbol2 ch d (ws ++ c :: rest) = (if c =? ch then do e <- cur rest; Ok (if e =? d then (true, tl rest) else (false, c :: rest)) else Ok (false, c :: rest)).
Proof.
  intros ws c rest ch Hw Hc Hs. assert (E : expr_skip_space (ws ++ c :: rest) = Ok (c :: rest)) by (apply skip_blank; assumption). split.
  - unfold is_symbol. assert (C : exists d, cur (ws ++ c :: rest) = Ok d /\ (d =? 0) = false). { destruct Hw as [|w ws W _]; [exists c; split; [reflexivity|lia]|]. exists w. split; [reflexivity|]. destruct (Z.eqb_spec w 0) as [->|]; [|reflexivity]. apply space_is in W. discriminate W. }
    destruct C as (d & -> & D). cbn [bind]. rewrite D, E. cbn [bind cur tl]. destruct (c =? ch); reflexivity.
  - intros d. unfold is_symbol2. rewrite E. cbn [bind cur tl]. destruct (c =? ch); [|reflexivity]. destruct (cur rest); reflexivity.
Qed.
Print Assumptions C69_symbol.
(** Text is skipped up to and with the first character wanted, or to the end. *)
Theorem C69_after : forall ch w rest, ch <> 0 -> Forall (fun b => b <> 0 /\ b <> ch) w -> skip_after ch (w ++ ch :: rest) = Ok (true, rest) /\ skip_after ch (w ++ 0 :: rest) = Ok (false, 0 :: rest).
Proof. intros ch w rest Hc Hw. split; [apply skip_after_ok|apply skip_after_none]; assumption. Qed.
Print Assumptions C69_after.
Example C69_ex : is_int [45; 52; 50; 59; 0] = Ok (Some (-42, [59; 0])) /\ is_hex [48; 120; 70; 102; 0] = Ok (Some (255, [0])) /\ is_rgb false [35; 48; 49; 48; 50; 48; 51; 0] = Ok (Some (1 + 2 * 256 + 3 * 65536, [0])) /\
  is_name [32; 97; 98; 99; 61; 49; 0] [9; 9; 9; 9] 3 [61; 0] = Ok (true, [61; 49; 0], [97; 98; 0; 9]) /\ is_fourcc false (repeat 0 5) [64; 39; 97; 98; 39; 0] = Ok (Some (fourcc false 97 98 95 95, [0])) /\ is_int_ex 2 [49; 50; 51; 0] = Ok (Some (12, [51; 0])) /\ is_int_ex 4 [49; 50; 51; 0] = Ok None.
Proof. repeat split; reflexivity. Qed.

(** ** C70: fractions *)
(** Terms that fit an int are kept; others are divided by their common divisor and, if they still do not fit, halved together as often as they need. *)
Theorem C70_simplify : forall num den n d, - 2 ^ 63 < num < 2 ^ 63 -> - 2 ^ 63 < den < 2 ^ 63 -> den <> 0 -> reduced num den n d ->
  exists k, fits_after k n d /\ simplify_frac num den = Ok (signed (negb (Bool.eqb (num <? 0) (den <? 0))) (n / 2 ^ Z.of_nat k), d / 2 ^ Z.of_nat k).
Proof. exact simplify_ok. Qed.
Print Assumptions C70_simplify.
(** When they fit after the division the fraction is the same number. *)
Theorem C70_exact : forall num den n d, - 2 ^ 63 < num < 2 ^ 63 -> - 2 ^ 63 < den < 2 ^ 63 -> den <> 0 -> reduced num den n d -> n <= 2 ^ 31 - 1 -> d <= 2 ^ 31 - 1 ->
  exists a b, simplify_frac num den = Ok (a, b) /\ 0 < b /\ a * den = num * b.
Proof.
  intros num den n d H1 H2 H3 R Fn Fd. pose proof (reduced_range num den n d H3 R) as (R1 & R2 & R3). rewrite (simplify_exact num den n d) by assumption. eexists. eexists. split; [reflexivity|]. split; [lia|].
  destruct (Z.ltb_spec num 0), (Z.ltb_spec den 0); cbn [Bool.eqb negb signed]; lia.
Qed.
Print Assumptions C70_exact.
(** But a fraction that does not fit may be left with no denominator. *)
Theorem C70_denominator_refuted : exists num, 0 < num < 2 ^ 63 /\ simplify_frac num 1 = Ok (1500000000, 0).
Proof. exists 3000000000. split; [lia|]. vm_compute. reflexivity. Qed.
Print Assumptions C70_denominator_refuted.
(** Text without a minus sign is read as the decimal number it shows. *)
Theorem C70_read : forall sg cs ds sep fs es rest n d, sg = [] \/ sg = [43] -> digits_of 10 cs ds -> cs <> [] -> sep = 46 \/ sep = 44 -> digits_of 10 fs es -> no_digit 10 rest -> value 10 (ds ++ es) < 2 ^ 63 -> 10 ^ zlen es < 2 ^ 63 ->
  reduced (value 10 (ds ++ es)) (10 ^ zlen es) n d -> n <= 2 ^ 31 - 1 -> d <= 2 ^ 31 - 1 ->
  exists a b, is_frac (sg ++ cs ++ sep :: fs ++ rest) = Ok (Some (a, b, rest)) /\ 0 < b /\ a * 10 ^ zlen es = value 10 (ds ++ es) * b.
Proof.
  intros sg cs ds sep fs es rest n d S D N Hs De R V P Rd Fn Fd. rewrite (frac_text sg cs ds sep fs es rest) by assumption. assert (K : known 10) by (right; left; reflexivity). assert (V0 : 0 <= value 10 (ds ++ es)) by (apply (value_nonneg 10 (cs ++ fs)); [exact K|apply Forall2_app; assumption]).
  pose proof (Z.pow_pos_nonneg 10 (zlen es) ltac:(lia) (zlen_nonneg es)). destruct (C70_exact (value 10 (ds ++ es)) (10 ^ zlen es) n d) as (a & b & E & B & Q); try assumption; try lia. rewrite E. exists a, b. cbn [bind fst snd]. auto.
Qed.
Print Assumptions C70_read.
Theorem C70_read_whole : forall sg neg cs ds rest, signed_text sg neg -> digits_of 10 cs ds -> cs <> [] -> no_digit 10 rest -> hd 0 rest <> 46 -> hd 0 rest <> 44 -> value 10 ds <= 2 ^ 31 - 1 ->
  is_frac (sg ++ cs ++ rest) = Ok (Some (signed neg (value 10 ds), 1, rest)).
Proof.
  intros sg neg cs ds rest S D N R R1 R2 V. assert (K : known 10) by (right; left; reflexivity). pose proof (value_nonneg 10 cs ds K D).
  rewrite (frac_whole sg cs ds rest) by (try assumption; try lia; destruct S as [[-> _]|[[->| ->] _]]; auto). set (v := value 10 ds) in *. replace (match sg with 45 :: _ => true | _ => false end) with neg by (destruct S as [[-> ->]|[[->| ->] ->]]; reflexivity).
  rewrite (simplify_exact (signed neg v) 1 v 1); try (destruct neg; cbn [signed]; lia).
  - cbn [bind fst snd]. do 4 f_equal. change (1 <? 0) with false. destruct neg; cbn [signed]; [|replace (v <? 0) with false by lia; reflexivity]. destruct (Z.ltb_spec (- v) 0); cbn [Bool.eqb negb signed]; lia.
  - unfold reduced. replace (Z.abs (signed neg v)) with v by (destruct neg; cbn [signed]; lia). change (Z.abs 1) with 1. replace ((2 ^ 31 - 1 <? v) || (2 ^ 31 - 1 <? 1)) with false by lia. rewrite !Z.div_1_r. lia.
Qed.
Print Assumptions C70_read_whole.
(** But the decimals of a negative number are added to it: -1.5 is read as -0.5, and -0.5 as 0.5. *)
Theorem C70_negative_refuted : is_frac [45; 49; 46; 53; 0] = Ok (Some (-5, 10, [0])) /\ is_frac [45; 48; 46; 53; 0] = Ok (Some (5, 10, [0])).
Proof. split; vm_compute; reflexivity. Qed.
Print Assumptions C70_negative_refuted.
(** The bits of a double from 2^-10 to 2^53: the significand over a power of two, kept when it fits. *)
Theorem C70_double : forall e f n d, -10 <= e <= 52 -> 0 <= f < 2 ^ 52 -> reduced (2 ^ 52 + f) (2 ^ (52 - e)) n d ->
  exists k, fits_after k n d /\ double_to_frac ((e + 1023) * 2 ^ 52 + f) = Ok (n / 2 ^ Z.of_nat k, d / 2 ^ Z.of_nat k).
Proof.
  intros e f n d He Hf R. rewrite double_bits by assumption. assert (P : 0 < 2 ^ (52 - e) <= 2 ^ 62) by (split; [apply Z.pow_pos_nonneg; lia|apply Z.pow_le_mono_r; lia]). destruct (simplify_ok (2 ^ 52 + f) (2 ^ (52 - e)) n d) as (k & F & E); [lia|lia|lia|exact R|].
  exists k. split; [exact F|]. rewrite E. replace (2 ^ 52 + f <? 0) with false by lia. replace (2 ^ (52 - e) <? 0) with false by lia. reflexivity.
Qed.
Print Assumptions C70_double.
(** But every negative double, and one below 2^-10 or from 2^53, makes a shift that C does not define. *)
Theorem C70_double_refuted : (forall v, - 2 ^ 63 <= v < 0 -> double_to_frac v = Bad) /\
  forall e f, (-1023 <= e < -10 \/ 52 < e <= 1024) -> 0 <= f < 2 ^ 52 -> (e = -1023 -> f <> 0) -> double_to_frac ((e + 1023) * 2 ^ 52 + f) = Bad.
Proof. split; [exact double_neg|exact double_far]. Qed.
Print Assumptions C70_double_refuted.
Example C70_ex : is_frac [51; 46; 49; 52; 0] = Ok (Some (314, 100, [0])) /\ reduced 314 100 314 100 /\ simplify_frac (3 * 2 ^ 40) (9 * 2 ^ 40) = Ok (1, 3) /\ double_to_frac (1023 * 2 ^ 52 + 2 ^ 51) = Ok (3, 2).
Proof. split; [vm_compute; reflexivity|]. split; [vm_compute; split; reflexivity|]. split; vm_compute; reflexivity. Qed.

(** ** C71: fractions shown *)
(** A fraction is shown with the decimals asked for, as a number of units of the last decimal near to it. *)
Theorem C71_shown : forall len num den k, 1 <= len < 2 ^ 64 -> 0 <= num -> 0 < den < 2 ^ 31 -> (k <= 9)%nat -> num + den / (2 * 10 ^ Z.of_nat k) < 2 ^ 31 - 1 ->
  exists t, 0 <= t /\ near (10 ^ Z.of_nat k) num den t /\ fraction_to_string len num den 0 k = Ok (fit len (fixed_point k t) ++ [0]).
Proof.
  intros len num den k Hl Hn Hd Hk Hr. exists (rounded (10 ^ Z.of_nat k) num den). pose proof (p10_range k Hk). split; [apply rounded_range; try assumption; pose proof (p10_le k Hk); lia|]. split; [apply rounded_near; lia|]. apply fraction_text; assumption.
Qed.
Print Assumptions C71_shown.
(** It is rounded half up when the denominator is a multiple of twice the power of ten. *)
Theorem C71_half_up : forall len num den k, 1 <= len < 2 ^ 64 -> 0 < num -> 0 < den < 2 ^ 31 -> (k <= 9)%nat -> num + den / (2 * 10 ^ Z.of_nat k) < 2 ^ 31 - 1 -> den mod (2 * 10 ^ Z.of_nat k) = 0 ->
  fraction_to_string len num den 0 k = Ok (fit len (fixed_point k ((2 * (num * 10 ^ Z.of_nat k) + den) / (2 * den))) ++ [0]).
Proof. intros len num den k Hl Hn Hd Hk Hr Hm. pose proof (p10_range k Hk). rewrite fraction_text by (assumption || lia). rewrite rounded_half_up by (assumption || lia). reflexivity. Qed.
Print Assumptions C71_half_up.
(** But not in general: 2/3 is shown as 0.66. *)
Theorem C71_half_up_refuted : fraction_to_string 16 2 3 0 2 = Ok (fixed_point 2 66 ++ [0]) /\ (2 * (2 * 100) + 3) / (2 * 3) = 67.
Proof. split; vm_compute; reflexivity. Qed.
Print Assumptions C71_half_up_refuted.
(** Percents: the fraction times 100, and a percent sign. *)
Theorem C71_percent : forall len num den k, 0 <= num <= 21474836 -> 0 < den < 2 ^ 31 -> (k <= 9)%nat -> num * 100 + den / (2 * 10 ^ Z.of_nat k) < 2 ^ 31 - 1 -> len < 2 ^ 64 ->
  exists t, 0 <= t /\ near (10 ^ Z.of_nat k) (num * 100) den t /\ (zlen (fixed_point k t) + 1 < len -> exists o, fraction_to_string len num den 1 k = Ok o /\ holds o (fixed_point k t ++ [37])).
Proof.
  intros len num den k Hn Hd Hk Hr Hl. exists (rounded (10 ^ Z.of_nat k) (num * 100) den). pose proof (p10_range k Hk). split; [apply rounded_range; try assumption; try lia; pose proof (p10_le k Hk); lia|]. split; [apply rounded_near; lia|]. set (x := fixed_point k _). intros Hx. pose proof (zlen_nonneg x).
  assert (E : fraction_to_string len (num * 100) den 0 k = Ok (x ++ [0])). { rewrite fraction_text by (assumption || lia). fold x. rewrite fit_all by lia. reflexivity. }
  unfold fraction_to_string in E |- *. change (negb (0 =? 0)) with false in E. change (negb (1 =? 0)) with true. rewrite percent_parts by assumption. change (0 <? 0) with false in E. change (0 <? 1) with true. cbv iota in E |- *. destruct (fraction_parts _ _ _ _) as [| | |q]; try discriminate E. cbn [bind] in E |- *.
  destruct (if (k =? 0)%nat then _ else _) as [| | |o]; try discriminate E. cbn [bind] in E |- *. assert (o = x ++ [0]) as -> by congruence.
  assert (Hz : Forall (fun b => b <> 0) x).
  { unfold x, fixed_point. assert (Dz : forall cs ds, digits_of 10 cs ds -> Forall (fun b => b <> 0) cs) by (induction 1 as [|c d cs ds Hc _ IH]; constructor; [apply digit10 in Hc; lia|exact IH]).
    destruct (rounded_range (10 ^ Z.of_nat k) (num * 100) den) as [R1 R2]; [pose proof (p10_le k Hk); lia|lia|assumption|assumption|]. set (t := rounded _ _ _) in *. clearbody t.
    destruct (decimal_digits (t / 10 ^ Z.of_nat k)) as (D & _ & _); [split; [apply Z.div_pos; lia|exact R2]|]. apply Forall_app. split; [exact (Dz _ _ D)|]. destruct (Nat.eqb_spec k 0); [constructor|]. constructor; [discriminate|].
    destruct (filled_digits k (t mod 10 ^ Z.of_nat k)) as (es & De & _); [lia|apply Z.mod_pos_bound; lia|]. exact (Dz _ _ De). }
  destruct (C40_append ((x ++ [0]) ++ repeat 0 (Z.to_nat (len - zlen (x ++ [0])))) len [37; 0] x [37]) as (o & Eo & Ho & _).
  - split; [lia|]. unfold zlen in *. rewrite !app_length, repeat_length. cbn [length] in *. lia.
  - exists (repeat 0 (Z.to_nat (len - zlen (x ++ [0])))). rewrite <- app_assoc. split; [reflexivity|exact Hz].
  - exists []. split; [reflexivity|]. constructor; [discriminate|constructor].
  - exists o. split; [exact Eo|]. rewrite fit_all in Ho by (rewrite zlen_app; change (zlen [37]) with 1; lia). exact Ho.
Qed.
Print Assumptions C71_percent.
(** A text of this form is read as the same number. *)
Theorem C71_round_trip : forall k t rest, (k <= 9)%nat -> 0 <= t < 2 ^ 31 -> no_digit 10 rest -> hd 0 rest <> 46 -> hd 0 rest <> 44 -> is_frac (fixed_point k t ++ rest) = Ok (Some (t, 10 ^ Z.of_nat k, rest)).
Proof. exact frac_back. Qed.
Print Assumptions C71_round_trip.
(** But a negative fraction is shown with its sign among the decimals: -1/2 as 0.-5. *)
Theorem C71_negative_refuted : fraction_to_string 16 (-1) 2 0 1 = Ok [48; 46; 45; 53; 0].
Proof. vm_compute. reflexivity. Qed.
Print Assumptions C71_negative_refuted.
Example C71_ex : fraction_to_string 16 7 200 0 2 = Ok [48; 46; 48; 52; 0] /\ fixed_point 2 4 = [48; 46; 48; 52] /\ 200 mod (2 * 10 ^ Z.of_nat 2) = 0 /\ (exists o, fraction_to_string 16 1 3 1 1 = Ok o /\ holds o [51; 51; 46; 51; 37]).
Proof. split; [vm_compute; reflexivity|]. split; [reflexivity|]. split; [reflexivity|]. eexists. split; [vm_compute; reflexivity|]. eexists. split; [reflexivity|repeat constructor; discriminate]. Qed.
