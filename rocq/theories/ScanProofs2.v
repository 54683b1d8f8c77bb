(** Proofs about the conversions between numbers and texts. *)
From Verif Require Import Base BaseProofs VintProofs IntEltProofs Tree Arr Str StrSpec StrProofs StrProofs2 StrProofs3 Printf PrintfSpec PrintfProofs PrintfProofs2 PrintfProofs3 Scan ScanSpec ScanProofs.

Lemma numeral_len q n (k : nat) : 1 < q -> 0 <= n < q ^ Z.of_nat k -> (1 <= k <= 40)%nat -> (length (numeral 40 q n) <= k)%nat.
Proof.
  intros Hq Hn Hk. assert (B : 0 <= n < q ^ Z.of_nat 40) by (split; [lia|]; eapply Z.lt_le_trans; [apply Hn|apply Z.pow_le_mono_r; lia]).
  destruct (numeral_fixed q Hq 39 n B) as (j & -> & H1 & H2). rewrite fixed_length. destruct H2 as [->|H2]; [lia|]. assert (Z.of_nat j < Z.of_nat k); [|lia]. apply (Z.pow_lt_mono_r_iff q); lia.
Qed.
Lemma shown_digits q up n : 1 < q <= 16 -> 0 <= n < q ^ 40 -> digits_of q (shown q up n) (numeral 40 q n) /\ value q (numeral 40 q n) = n /\ shown q up n <> [].
Proof.
  intros Hq Hn. change 40 with (Z.of_nat 40) in Hn. destruct (numeral_ok q ltac:(lia) 40 n Hn) as (H1 & H2 & _). split; [|split; [exact H1|]].
  - unfold shown, digits_of. clear H1 Hn. induction H2 as [|d ds Hd _ IH]; cbn [map]; [constructor|]. constructor; [|exact IH]. unfold digit_char. destruct (Z.ltb_spec d 10); [apply D_dec; lia|]. destruct up; [apply D_up; lia|apply D_low; lia].
  - unfold shown. intros E. apply map_eq_nil in E. revert E. apply (numeral_nonnil 39 q n).
Qed.
Lemma value_zeros q ds : forall k, value q (repeat 0 k ++ ds) = value q ds.
Proof. unfold value. induction k as [|k IH]; [reflexivity|]. cbn [repeat app fold_left]. exact IH. Qed.
Lemma hex_digits_ok up (k : nat) v : (1 <= k <= 8)%nat -> 0 <= v < 16 ^ Z.of_nat k ->
  zlen (hex_digits up (Z.of_nat k) v) = Z.of_nat k /\ exists ds, digits_of 16 (hex_digits up (Z.of_nat k) v) ds /\ value 16 ds = v.
Proof.
  intros Hk Hv. assert (B : 0 <= v < 16 ^ 40) by (split; [lia|]; eapply Z.lt_le_trans; [apply Hv|apply Z.pow_le_mono_r; lia]).
  destruct (shown_digits 16 up v ltac:(lia) B) as (D & V & _). unfold hex_digits, num_field. change (zlen (@nil Z)) with 0. cbn [app].
  assert (L : zlen (shown 16 up v) <= Z.of_nat k). { unfold zlen, shown. rewrite map_length. pose proof (numeral_len 16 v k ltac:(lia) Hv ltac:(lia)). lia. }
  split; [unfold zlen in *; rewrite app_length, repeat_length; lia|]. set (z := Z.to_nat _). exists (repeat 0 z ++ numeral 40 16 v). split; [|rewrite value_zeros; exact V].
  apply Forall2_app; [|exact D]. clear. induction z as [|z IH]; cbn [repeat]; constructor; [|exact IH]. apply (D_dec 16 0); lia.
Qed.
Lemma num_text p : text_of (Num false WNone false 100 p) = decimal p.
Proof. unfold decimal. cbn [text_of width_of]. unfold num_field. rewrite blank_nil; [reflexivity|]. pose proof (zlen_nonneg (if p <? 0 then [45] else [])). pose proof (zlen_nonneg (shown 10 false (Z.abs p))). lia. Qed.
Lemma int_dec len p : 1 <= len < 2 ^ 64 -> - 2 ^ 31 <= p < 2 ^ 31 -> int_to_string len p false = Ok (fit len (decimal p) ++ [0]).
Proof.
  intros Hl Hp. unfold int_to_string. pose proof (vstprintf_ok false len [Num false WNone false 100 p] [] Hl) as H. cbn [map concat] in H. rewrite !app_nil_r, num_text in H. apply H.
  - repeat constructor; lia.
  - cbn [rooms room_for]. tauto.
Qed.
Lemma decimal_len p : - 2 ^ 31 <= p < 2 ^ 31 -> 1 <= zlen (decimal p) <= 11.
Proof.
  intros Hp. unfold decimal. rewrite zlen_app. assert (N : (length (numeral 40 10 (Z.abs p)) <= 10)%nat) by (apply numeral_len; [lia|change (10 ^ Z.of_nat 10) with 10000000000; lia|lia]).
  pose proof (numeral_nonnil 39 10 (Z.abs p)). assert (1 <= length (numeral 40 10 (Z.abs p)))%nat by (destruct (numeral 40 10 (Z.abs p)); [contradiction|cbn; lia]).
  unfold shown, zlen. rewrite map_length. destruct (p <? 0); cbn [length]; lia.
Qed.
Lemma decimal_item p : - 2 ^ 31 <= p < 2 ^ 31 -> let i := SNum 10 100 None false [] (p <? 0) (shown 10 false (Z.abs p)) (numeral 40 10 (Z.abs p)) in separated [i] /\ item_text i = decimal p /\ values false [i] = [(false, p)].
Proof.
  intros Hp i. destruct (shown_digits 10 false (Z.abs p) ltac:(lia)) as (D & V & N); [change (10 ^ 40) with (10 ^ 10 * 10 ^ 30); lia|]. split; [|split; [reflexivity|]].
  - cbn [separated i]. split; [|split; exact I]. cbn [item_ok]. split; [left; split; [reflexivity|left; reflexivity]|]. split; [constructor|]. split; [exact D|]. split; [exact N|]. split; [rewrite V; lia|exact I].
  - unfold i. cbn [values orb andb]. rewrite V. do 2 f_equal. destruct (Z.ltb_spec p 0); lia.
Qed.
Lemma fit_all len s : zlen s < len -> fit len s = s.
Proof. intros H. unfold fit. apply firstn_all2. unfold zlen in *. lia. Qed.
Lemma scan_decimal p t : - 2 ^ 31 <= p < 2 ^ 31 -> stscanf (decimal p ++ 0 :: t) [37; 100; 0] = Ok ([SI p], false).
Proof.
  intros Hp. destruct (decimal_item p Hp) as (S & T & V). pose proof (stscanf_ok _ t [] S) as H. cbn [map concat] in H. rewrite app_nil_r, T in H. cbn [item_mask app] in H. rewrite H by (pose proof (decimal_len p Hp); lia).
  rewrite V. unfold store_of. cbn [map fst snd]. do 3 f_equal. f_equal. unfold s32. apply s_wrap_small; [lia|]. change (2 ^ (32 - 1)) with (2 ^ 31). lia.
Qed.
Lemma decimal_hd p t : - 2 ^ 31 <= p < 2 ^ 31 -> exists c r, decimal p ++ 0 :: t = c :: r /\ is_space c = false /\ (c = 48 -> hd 0 r <> 120).
Proof.
  intros Hp. unfold decimal. destruct (p <? 0); cbn [app]; [do 2 eexists; split; [reflexivity|]; split; [reflexivity|discriminate]|].
  destruct (shown_digits 10 false (Z.abs p) ltac:(lia)) as (D & V & N); [change (10 ^ 40) with (10 ^ 10 * 10 ^ 30); lia|]. revert D N. generalize (shown 10 false (Z.abs p)) (numeral 40 10 (Z.abs p)). clear. intros l l' D N. destruct D as [|c d cs ds H D']; [contradiction|]. cbn [app].
  destruct (digit_val_of 10 c d ltac:(right; left; reflexivity) H) as (_ & _ & E & _). exists c, (cs ++ 0 :: t). split; [reflexivity|]. split; [exact E|]. intros _. destruct D' as [|c' d' cs' ds' H' _]; cbn [app hd]; [lia|]. inversion H'; lia.
Qed.
Lemma char1 a b r : char_at (a :: b :: r) 1 = Ok b.
Proof. unfold char_at, mem_get. rewrite !zlen_cons. pose proof (zlen_nonneg r). replace ((1 <? 0) || (1 <? 0) || (zlen r + 1 + 1 <? 1 + 1)) with false by lia. reflexivity. Qed.
Lemma int_round_dec p t h : - 2 ^ 31 <= p < 2 ^ 31 -> h <= 0 -> string_to_int (decimal p ++ 0 :: t) h = Ok p.
Proof.
  intros Hp Hh. unfold string_to_int. destruct (Z.ltb_spec h 0).
  - destruct (decimal_hd p t Hp) as (c & r & E & Hc & Hx). rewrite E. cbn [expr_skip_space]. rewrite Hc. cbn [bind]. rewrite char0. cbn [bind]. destruct (Z.eqb_spec c 48) as [->|].
    + destruct r as [|x r]; [exfalso; pose proof (decimal_len p Hp); assert (zlen (decimal p ++ 0 :: t) = 1) by (rewrite E; reflexivity); rewrite zlen_app, zlen_cons in *; pose proof (zlen_nonneg t); lia|]. rewrite char1. cbn [bind]. specialize (Hx eq_refl). cbn [hd] in Hx. replace (x =? 120) with false by lia. cbn [bind fst snd]. rewrite <- E, scan_decimal by assumption. reflexivity.
    + cbn [bind fst snd]. rewrite <- E, scan_decimal by assumption. reflexivity.
  - replace h with 0 by lia. change (negb (0 =? 0)) with false. cbn [bind fst snd]. rewrite scan_decimal by assumption. reflexivity.
Qed.
Lemma hex_text up v : text_of (Hex true (WLit [8]) false up v) = hex_digits up 8 v.
Proof. reflexivity. Qed.
Lemma int_hex len p : 1 <= len < 2 ^ 64 -> 0 <= p < 2 ^ 31 -> int_to_string len p true = Ok (fit len ([48; 120] ++ hex_digits true 8 p) ++ [0]).
Proof.
  intros Hl Hp. unfold int_to_string. pose proof (vstprintf_ok false len [Lit 48; Lit 120; Hex true (WLit [8]) false true p] [] Hl) as H. cbn [map concat] in H. rewrite !app_nil_r in H. rewrite hex_text in H. cbn [text_of fmt_of args_of width_arg app] in H. cbn [app]. apply H.
  - repeat constructor; try lia; try discriminate.
  - cbn [rooms room_for]. tauto.
Qed.
Lemma scan_hex p t : 0 <= p < 2 ^ 31 -> stscanf (hex_digits true 8 p ++ 0 :: t) [37; 88; 0] = Ok ([SI p], false).
Proof.
  intros Hp. destruct (hex_digits_ok true 8 p ltac:(lia)) as (L & ds & D & V); [change (16 ^ Z.of_nat 8) with (2 ^ 32); lia|]. change (Z.of_nat 8) with 8 in *.
  pose proof (stscanf_ok [SNum 16 88 None false [] false (hex_digits true 8 p) ds] t []) as H. cbn [map concat item_text item_mask app] in H. rewrite app_nil_r in H. rewrite H.
  - cbn [values map]. rewrite V. unfold store_of. cbn [orb andb fst snd]. change ((16 =? 10) && false) with false. cbv iota. do 3 f_equal. f_equal. unfold s32. apply s_wrap_small; [lia|]. change (2 ^ (32 - 1)) with (2 ^ 31). lia.
  - cbn [separated]. split; [|split; exact I]. cbn [item_ok]. split; [right; left; split; [reflexivity|right; reflexivity]|]. split; [constructor|]. split; [exact D|]. split; [intros E; rewrite E in L; discriminate|]. split; [rewrite V; lia|exact I].
  - lia.
Qed.
Lemma int_round_hex p t : 0 <= p < 2 ^ 31 -> string_to_int ([48; 120] ++ hex_digits true 8 p ++ 0 :: t) (-1) = Ok p.
Proof.
  intros Hp. unfold string_to_int. cbn [app expr_skip_space Z.ltb Z.compare]. change (is_space 48) with false. cbv iota. cbn [bind]. rewrite char0. cbn [bind]. change (48 =? 48) with true. cbv iota.
  set (r := hex_digits true 8 p ++ 0 :: t).
  rewrite char1. cbn [bind]. change (120 =? 120) with true. cbv iota. cbn [fst snd tl]. unfold r. rewrite scan_hex by exact Hp. reflexivity.
Qed.
(** ** Numbers of 64 bits *)
Lemma int64_small len p : 1 <= len < 2 ^ 64 -> 0 <= p < 2 ^ 31 -> int64_to_string len p false = Ok (fit len (decimal p) ++ [0]).
Proof.
  intros Hl Hp. unfold int64_to_string. change 4294967295 with (Z.ones 32). rewrite Z.land_ones, Z.mod_small, Z.eqb_refl by lia. cbn [negb andb].
  rewrite <- int_dec by lia. unfold int_to_string. replace (s32 p) with p; [reflexivity|]. symmetry. unfold s32. apply s_wrap_small; [lia|]. change (2 ^ (32 - 1)) with (2 ^ 31). lia.
Qed.
Lemma hi_lo hi lo : 0 <= hi < 2 ^ 32 -> 0 <= lo < 2 ^ 32 -> u32 (Z.shiftr (u64 (hi * 2 ^ 32 + lo)) 32) = hi /\ u32 (hi * 2 ^ 32 + lo) = lo.
Proof.
  intros Hh Hl. assert (E : u64 (hi * 2 ^ 32 + lo) = hi * 2 ^ 32 + lo) by (unfold u64; apply Z.mod_small; lia). rewrite E, Z.shiftr_div_pow2 by lia. split.
  - rewrite Z.add_comm, Z.div_add, Z.div_small by lia. unfold u32. apply Z.mod_small. lia.
  - unfold u32. rewrite Z.add_comm, Z.mod_add by lia. apply Z.mod_small. lia.
Qed.
Lemma int64_hex len hi lo : 1 <= len < 2 ^ 64 -> 0 <= hi < 2 ^ 31 -> 0 <= lo < 2 ^ 31 ->
  int64_to_string len (hi * 2 ^ 32 + lo) true = Ok (fit len ([48; 120] ++ hex_digits true 8 hi ++ hex_digits true 8 lo) ++ [0]).
Proof.
  intros Hl Hh Hlo. unfold int64_to_string. cbn [negb andb]. destruct (hi_lo hi lo ltac:(lia) ltac:(lia)) as [-> ->].
  pose proof (vstprintf_ok false len [Lit 48; Lit 120; Hex true (WLit [8]) false true hi; Hex true (WLit [8]) false true lo] [] Hl) as H. cbn [map concat] in H. rewrite !app_nil_r in H. rewrite !hex_text in H. cbn [text_of fmt_of args_of width_arg app] in H. cbn [app]. apply H.
  - repeat constructor; try lia; try discriminate.
  - cbn [rooms room_for]. tauto.
Qed.
(** The two words are read as ints and added. *)
Lemma read_int64 hi lo t : 0 <= hi < 2 ^ 32 -> 0 <= lo < 2 ^ 32 -> string_to_int64 ([48; 120] ++ hex_digits true 8 hi ++ hex_digits true 8 lo ++ 0 :: t) = Ok (s64 (u64 (u64 (u64 (s32 hi) * 2 ^ 32) + u64 (s32 lo)))).
Proof.
  intros Hh Hl. destruct (hex_digits_ok true 8 hi ltac:(lia)) as (L1 & d1 & D1 & V1); [change (16 ^ Z.of_nat 8) with (2 ^ 32); lia|]. destruct (hex_digits_ok true 8 lo ltac:(lia)) as (L2 & d2 & D2 & V2); [change (16 ^ Z.of_nat 8) with (2 ^ 32); lia|]. change (Z.of_nat 8) with 8 in *.
  pose proof (stscanf_ok [SLit 48; SLit 120; SNum 16 120 (Some 8) false [] false (hex_digits true 8 hi) d1; SNum 16 120 (Some 8) false [] false (hex_digits true 8 lo) d2] t []) as H. cbn [map concat item_text item_mask app] in H. rewrite app_nil_r, <- app_assoc in H.
  unfold string_to_int64. cbn [app]. change (48 + 8) with 56 in H. rewrite H.
  - cbn [bind fst values map]. rewrite V1, V2. unfold store_of. cbn [orb andb fst snd]. change ((16 =? 10) && false) with false. cbv iota. reflexivity.
  - cbn [separated item_ok ends map concat item_text app]. rewrite !V1, !V2. change (digit_room 16 false 8) with 8. rewrite L1, L2.
    assert (N1 : hex_digits true 8 hi <> []) by (intros E; rewrite E in L1; discriminate). assert (N2 : hex_digits true 8 lo <> []) by (intros E; rewrite E in L2; discriminate).
    assert (RB : reads_base 16 120) by (right; left; split; [reflexivity|left; reflexivity]).
    split; [lia|]. split; [exact I|]. split; [lia|]. split; [exact I|]. split; [split; [exact RB|]; split; [constructor|]; split; [exact D1|]; split; [exact N1|]; split; [lia|]; lia|].
    split; [rewrite app_nil_r; destruct (hex_digits true 8 lo); [exact I|right; exists 8; split; reflexivity]|]. split; [|split; exact I]. split; [exact RB|]; split; [constructor|]; split; [exact D2|]; split; [exact N2|]; split; [lia|]; lia.
  - rewrite !zlen_cons, zlen_app. lia.
Qed.
(** ** GUIDs *)
Definition hx (w : Z) (v : Z) : piece := Hex true (WLit [w]) false false v.
Lemma guid_ok len v1 v2 v3 v4 : 1 <= len < 2 ^ 64 -> 0 <= v1 < 2 ^ 31 -> 0 <= v2 < 65536 -> 0 <= v3 < 65536 -> Forall (fun b => 0 <= b < 256) v4 -> length v4 = 8%nat ->
  guid_to_string len v1 v2 v3 v4 = Ok (fit len (guid_text v1 v2 v3 v4) ++ [0]).
Proof.
  intros Hl H1 H2 H3 H4 L4. destruct v4 as [|b0 [|b1 [|b2 [|b3 [|b4 [|b5 [|b6 [|b7 [|]]]]]]]]]; try discriminate L4.
  unfold guid_to_string. replace (s32 v1) with v1 by (symmetry; unfold s32; apply s_wrap_small; [lia|change (2 ^ (32 - 1)) with (2 ^ 31); lia]).
  pose proof (vstprintf_ok false len [hx 8 v1; Lit 45; hx 4 v2; Lit 45; hx 4 v3; Lit 45; hx 2 b0; hx 2 b1; Lit 45; hx 2 b2; hx 2 b3; hx 2 b4; hx 2 b5; hx 2 b6; hx 2 b7] [] Hl) as H.
  assert (T : concat (map text_of [hx 8 v1; Lit 45; hx 4 v2; Lit 45; hx 4 v3; Lit 45; hx 2 b0; hx 2 b1; Lit 45; hx 2 b2; hx 2 b3; hx 2 b4; hx 2 b5; hx 2 b6; hx 2 b7]) = guid_text v1 v2 v3 [b0; b1; b2; b3; b4; b5; b6; b7]).
  { assert (Tx : forall w v, text_of (hx w v) = hex_digits false w v) by reflexivity. cbn [map concat]. rewrite !Tx. unfold guid_text. cbn [firstn skipn map concat text_of]. rewrite !app_nil_r, <- !app_assoc. reflexivity. }
  rewrite T in H. apply H.
  - repeat (apply Forall_cons_iff in H4; destruct H4 as [? H4]). unfold hx. repeat (constructor; [cbn [piece_ok width_ok value fold_left hd]; first [split; [split; [repeat constructor; lia|split; [discriminate|unfold value; cbn [fold_left]; lia]]|cbv beta in *; lia]|lia]|]). constructor.
  - cbn [rooms room_for hx]. tauto.
Qed.
