(** Proofs about the texts of Texts.v. *)
From Verif Require Import Base BaseProofs VintProofs EbmlId EbmlIdSpec EbmlIdProofs Vint Ebml Tree Arr Str StrProofs Printf PrintfSpec PrintfProofs PrintfProofs2 PrintfProofs3 ScanProofs2 StrSpec XmlProofs Texts.
From Verif Require Import TextsSpec.

(** ** Digits *)
Lemma fixed_len q k : forall n, length (fixed q k n) = k.
Proof. induction k as [|k IH]; intros n; [reflexivity|]. cbn [fixed]. rewrite app_length, IH. cbn [length]. lia. Qed.
Lemma fixed_zero q k : 0 < q -> fixed q k 0 = repeat 0 k.
Proof. intros Q. induction k as [|k IH]; [reflexivity|]. cbn [fixed]. rewrite Z.div_0_l, Z.mod_0_l by lia. rewrite IH. symmetry. apply repeat_cons. Qed.
(** The printer's digits, filled with zeros. *)
Lemma padded q : 1 < q -> forall k fuel n, (k < fuel)%nat -> 0 <= n < q ^ Z.of_nat (S k) ->
  repeat 0 (S k - length (numeral fuel q n)) ++ numeral fuel q n = fixed q (S k) n /\ (length (numeral fuel q n) <= S k)%nat.
Proof.
  intros Q. induction k as [|k IH]; intros fuel n Hf Hn; (destruct fuel as [|fuel]; [lia|]); cbn [numeral].
  - change (Z.of_nat 1) with 1 in Hn. rewrite Z.pow_1_r in Hn. replace (n <? q) with true by lia. cbn [length repeat fixed app Nat.sub]. rewrite Z.mod_small by lia. split; [reflexivity|lia].
  - destruct (n <? q) eqn:E.
    + change (fixed q (S (S k)) n) with (fixed q (S k) (n / q) ++ [n mod q]). rewrite Z.div_small, Z.mod_small by lia. rewrite fixed_zero by lia. cbn [length]. split; [|lia]. replace (S (S k) - 1)%nat with (S k) by lia. reflexivity.
    + rewrite Nat2Z.inj_succ, Z.pow_succ_r in Hn by lia. destruct (IH fuel (n / q)) as [I1 I2]; [lia|split; [apply Z.div_pos; lia|apply Z.div_lt_upper_bound; lia]|].
      rewrite app_length. cbn [length]. split; [|lia]. change (fixed q (S (S k)) n) with (fixed q (S k) (n / q) ++ [n mod q]). rewrite <- I1. rewrite app_assoc. f_equal. f_equal. f_equal. lia.
Qed.
Lemma char_up d : digit_char true d = char_of d.
Proof. unfold digit_char, char_of. destruct (d <? 10); reflexivity. Qed.
Lemma char_low d : d < 10 -> digit_char false d = char_of d.
Proof. intros H. unfold digit_char, char_of. replace (d <? 10) with true by lia. reflexivity. Qed.
Lemma fixed_range q k : 0 < q -> forall n, Forall (fun d => 0 <= d < q) (fixed q k n).
Proof. intros Q. induction k as [|k IH]; intros n; [constructor|]. cbn [fixed]. apply Forall_app. split; [apply IH|]. constructor; [apply Z.mod_pos_bound; lia|constructor]. Qed.
Lemma rep_map {A B} (f : A -> B) x n : map f (repeat x n) = repeat (f x) n.
Proof. induction n as [|n IH]; [reflexivity|]. cbn [repeat map]. rewrite IH. reflexivity. Qed.
(** What %0kX and %0kd print. *)
Lemma field_hex k n : (S k <= 8)%nat -> 0 <= n < 16 ^ Z.of_nat (S k) -> num_field true (Z.of_nat (S k)) false (shown 16 true n) = digits 16 (S k) n.
Proof.
  intros Hk Hn. destruct (padded 16 ltac:(lia) k 40 n ltac:(lia) Hn) as [P L]. unfold num_field, shown, digits. cbn [app]. rewrite <- P, map_app. f_equal.
  - unfold zlen. rewrite map_length. cbn [length]. rewrite rep_map. replace (Z.to_nat (Z.of_nat (S k) - Z.of_nat 0 - Z.of_nat (length (numeral 40 16 n)))) with (S k - length (numeral 40 16 n))%nat by lia. reflexivity.
Qed.
Lemma field_dec k n : (S k <= 10)%nat -> 0 <= n < 10 ^ Z.of_nat (S k) -> num_field true (Z.of_nat (S k)) false (shown 10 false n) = digits 10 (S k) n.
Proof.
  intros Hk Hn. destruct (padded 10 ltac:(lia) k 40 n ltac:(lia) Hn) as [P L]. unfold num_field, shown, digits. cbn [app]. rewrite <- P, map_app. f_equal.
  - unfold zlen. rewrite map_length. cbn [length]. rewrite rep_map. replace (Z.to_nat (Z.of_nat (S k) - Z.of_nat 0 - Z.of_nat (length (numeral 40 10 n)))) with (S k - length (numeral 40 10 n))%nat by lia. reflexivity.
  - pose proof (fixed_range 10 (S k) ltac:(lia) n) as R. rewrite <- P in R. apply Forall_app in R. apply map_ext_in. intros d Hd. apply char_low. pose proof (proj1 (Forall_forall _ _) (proj2 R) d Hd) as B. cbv beta in B. lia.
Qed.
Lemma numeral_plain q : 1 < q -> forall fuel n, 0 <= n < q ^ Z.of_nat (S fuel) ->
  exists k, numeral (S fuel) q n = fixed q (S k) n /\ n < q ^ Z.of_nat (S k) /\ (k = O \/ q ^ Z.of_nat k <= n).
Proof.
  intros Q. induction fuel as [|fuel IH]; intros n Hn; cbn [numeral].
  - change (Z.of_nat 1) with 1 in Hn. rewrite Z.pow_1_r in Hn. replace (n <? q) with true by lia. exists O. cbn [fixed app]. rewrite Z.mod_small by lia. change (Z.of_nat 1) with 1. rewrite Z.pow_1_r. split; [reflexivity|]. split; [lia|left; reflexivity].
  - destruct (n <? q) eqn:E; [exists O; cbn [fixed app]; rewrite Z.mod_small by lia; change (Z.of_nat 1) with 1; rewrite Z.pow_1_r; split; [reflexivity|]; split; [lia|left; reflexivity]|].
    rewrite (Nat2Z.inj_succ (S fuel)), Z.pow_succ_r in Hn by lia. destruct (IH (n / q)) as (k & K1 & K2 & K3); [split; [apply Z.div_pos; lia|apply Z.div_lt_upper_bound; lia]|].
    exists (S k). cbn [numeral] in K1. rewrite K1. split; [reflexivity|]. pose proof (Z.div_mod n q ltac:(lia)) as D. pose proof (Z.mod_pos_bound n q ltac:(lia)) as M. split.
    + rewrite (Nat2Z.inj_succ (S k)), Z.pow_succ_r by lia. nia.
    + right. rewrite Nat2Z.inj_succ, Z.pow_succ_r by lia. destruct K3 as [->|K3]; [change (Z.of_nat 0) with 0; rewrite Z.pow_0_r; lia|nia].
Qed.
Lemma shown_plainly n : 0 <= n < 10 ^ 40 -> plainly n (shown 10 false n).
Proof.
  intros Hn. destruct (numeral_plain 10 ltac:(lia) 39 n Hn) as (k & K1 & K2 & K3). exists k. split; [|split; assumption]. unfold shown, digits. rewrite K1. apply map_ext_in. intros d Hd. apply char_low.
  pose proof (proj1 (Forall_forall _ _) (fixed_range 10 (S k) ltac:(lia) n) d Hd) as B. cbv beta in B. lia.
Qed.
Lemma digits_pos q k n : 0 < q <= 16 -> Forall (fun c => 0 < c) (digits q k n).
Proof. intros Q. unfold digits. apply Forall_map. pose proof (fixed_range q k ltac:(lia) n) as R. revert R. apply Forall_impl. intros d D. unfold char_of. destruct (d <? 10) eqn:E; lia. Qed.
Lemma plainly_pos n s : plainly n s -> Forall (fun c => 0 < c) s.
Proof. intros (k & -> & _). apply digits_pos. lia. Qed.

(** ** Printing behind a text *)
Lemma fit_app len a t : fit len a ++ fit (len - zlen (fit len a)) t = fit len (a ++ t).
Proof.
  unfold fit. rewrite firstn_app. f_equal. unfold zlen. rewrite firstn_length. f_equal. lia.
Qed.
Lemma fit_pos len s : Forall (fun c => 0 < c) s -> Forall (fun c => 0 < c) (fit len s).
Proof. intros H. apply Forall_forall. intros x Hx. apply (proj1 (Forall_forall _ _) H). unfold fit in Hx. rewrite <- (firstn_skipn (Z.to_nat (len - 1)) s). apply in_or_app. left. exact Hx. Qed.
Lemma cat_ok len a ps : 1 <= len < 2 ^ 64 -> Forall piece_ok ps -> (forall n, rooms n ps) -> Forall (fun c => 0 < c) (concat (map text_of ps)) ->
  cat_printf len (fit len a) (concat (map fmt_of ps) ++ [0]) (concat (map args_of ps)) = Ok (fit len (a ++ concat (map text_of ps))).
Proof.
  intros Hl Hp Hr Ht. unfold cat_printf. cbv zeta. assert (L : 0 <= zlen (fit len a) <= len - 1) by (unfold fit, zlen; rewrite firstn_length; lia). replace (zlen (fit len a) <? len) with true by lia.
  rewrite (vstprintf_ok false (len - zlen (fit len a)) ps []) by (try assumption; try lia; apply Hr). cbn [bind]. rewrite tcslen_end by (apply fit_pos; exact Ht). cbn [bind].
  rewrite <- fit_app. f_equal. f_equal. unfold zlen at 1. rewrite Nat2Z.id, firstn_app, Nat.sub_diag, firstn_all. cbn [firstn]. apply app_nil_r.
Qed.
Lemma cat_eq len a fmt args ps txt : fmt = concat (map fmt_of ps) ++ [0] -> args = concat (map args_of ps) -> concat (map text_of ps) = txt ->
  1 <= len < 2 ^ 64 -> Forall piece_ok ps -> (forall n, rooms n ps) -> Forall (fun c => 0 < c) txt -> cat_printf len (fit len a) fmt args = Ok (fit len (a ++ txt)).
Proof. intros -> -> <- Hl Hp Hr Ht. apply cat_ok; assumption. Qed.
Lemma print_eq len fmt args ps txt : fmt = concat (map fmt_of ps) ++ [0] -> args = concat (map args_of ps) -> concat (map text_of ps) = txt ->
  1 <= len < 2 ^ 64 -> Forall piece_ok ps -> (forall n, rooms n ps) -> Forall (fun c => 0 < c) txt -> printf len fmt args = Ok (fit len txt).
Proof. intros E1 E2 E3 Hl Hp Hr Ht. unfold printf. pose proof (cat_eq len [] fmt args ps txt E1 E2 E3 Hl Hp Hr Ht) as H. unfold fit at 1 in H. rewrite firstn_nil in H. exact H. Qed.

(** ** IDs *)
Lemma one_byte len a x : 1 <= len < 2 ^ 64 -> 0 <= x < 256 -> cat_printf len (fit len a) [91; 37; 48; 50; 88; 93; 0] [AInt x] = Ok (fit len (a ++ [91] ++ digits 16 2 x ++ [93])).
Proof.
  intros Hl Hx. apply (cat_eq len a _ _ [Lit 91; Hex true (WLit [2]) false true x; Lit 93]); [reflexivity|reflexivity| |exact Hl| | |].
  - cbn [map concat]. rewrite <- (field_hex 1 x) by (change (16 ^ Z.of_nat 2) with 256; lia). reflexivity.
  - constructor; [cbn [piece_ok]; lia|]. constructor; [|constructor; [cbn [piece_ok]; lia|constructor]]. cbn [piece_ok width_ok]. split; [|lia]. split; [repeat constructor; lia|]. split; [discriminate|]. vm_compute. discriminate.
  - intros n. cbn [rooms room_for]. repeat split.
  - apply Forall_app. split; [repeat constructor; lia|]. apply Forall_app. split; [apply digits_pos; lia|repeat constructor; lia].
Qed.
(** The bytes of an ID without the zeros in front. *)
Definition four (id : Z) : list Z := [id / 2 ^ 24 mod 256; id / 2 ^ 16 mod 256; id / 2 ^ 8 mod 256; id mod 256].
Fixpoint strip (l : list Z) : list Z := match l with [] => [] | x :: l => if x =? 0 then strip l else x :: l end.
Lemma byte_at id k : 0 <= k -> Z.land (Z.shiftr id k) 255 = id / 2 ^ k mod 256.
Proof. intros Hk. change 255 with (Z.ones 8). rewrite Z.land_ones, Z.shiftr_div_pow2 by lia. reflexivity. Qed.
Lemma one_more len a x : 0 <= zlen a -> zlen a + 4 < len < 2 ^ 64 -> 0 <= x < 256 -> cat_printf len a [91; 37; 48; 50; 88; 93; 0] [AInt x] = Ok (a ++ [91] ++ digits 16 2 x ++ [93]).
Proof.
  intros Ha Hl Hx. pose proof (one_byte len a x ltac:(lia) Hx) as H. rewrite fit_all in H by lia. rewrite H. rewrite fit_all; [reflexivity|]. rewrite !zlen_app. unfold zlen at 2 3 4. unfold digits. rewrite map_length, fixed_len. cbn [length]. lia.
Qed.
Lemma strip_len l : zlen (strip l) <= zlen l.
Proof. induction l as [|x l IH]; [cbn [strip]; lia|]. cbn [strip]. destruct (x =? 0); [rewrite zlen_cons; lia|lia]. Qed.
Lemma id_loop_ok len id : len < 2 ^ 64 -> forall shifts a, Forall (fun k => 0 <= k) shifts ->
  let bs := map (fun k => id / 2 ^ k mod 256) shifts in let out := if 0 <? zlen a then bs else strip bs in
  zlen a + 4 * zlen out < len -> id_loop len id shifts a = Ok (a ++ shown_bytes out).
Proof.
  intros Hl. induction shifts as [|k l IH]; intros a Hs bs out Hr; subst bs out; cbn [id_loop map] in *.
  - destruct (0 <? zlen a); cbn [strip shown_bytes map concat]; rewrite app_nil_r; reflexivity.
  - pose proof (Forall_inv Hs) as Hk. cbv beta in Hk. apply Forall_inv_tail in Hs. rewrite byte_at by exact Hk. set (x := id / 2 ^ k mod 256) in *. assert (Hx : 0 <= x < 256) by (apply Z.mod_pos_bound; lia). set (bs := map (fun k0 => id / 2 ^ k0 mod 256) l) in *.
    pose proof (zlen_nonneg a) as Na. pose proof (zlen_nonneg bs) as Nb.
    assert (A : forall b, zlen ([91] ++ digits 16 2 b ++ [93]) = 4) by (intros b; rewrite !zlen_app; unfold zlen, digits; rewrite map_length, fixed_len; reflexivity).
    destruct (0 <? zlen a) eqn:Ea.
    + cbn [orb]. rewrite zlen_cons in Hr. rewrite one_more by lia. cbn [bind]. specialize (IH (a ++ [91] ++ digits 16 2 x ++ [93]) Hs). cbv zeta in IH. fold bs in IH. rewrite zlen_app, A in IH. replace (0 <? zlen a + 4) with true in IH by lia.
      rewrite IH by lia. f_equal. cbn [shown_bytes map concat]. rewrite <- app_assoc. reflexivity.
    + cbn [orb strip] in *. destruct (x =? 0) eqn:Ex; cbn [negb].
      * cbn [bind]. specialize (IH a Hs). cbv zeta in IH. fold bs in IH. rewrite Ea in IH. apply IH. exact Hr.
      * rewrite zlen_cons in Hr. rewrite one_more by lia. cbn [bind]. specialize (IH (a ++ [91] ++ digits 16 2 x ++ [93]) Hs). cbv zeta in IH. fold bs in IH. rewrite zlen_app, A in IH. replace (0 <? zlen a + 4) with true in IH by lia.
        rewrite IH by lia. f_equal. cbn [shown_bytes map concat]. rewrite <- app_assoc. reflexivity.
Qed.
Lemma be_four id : be_bytes 4 id = four id.
Proof. unfold four. cbn [be_bytes app]. rewrite !Z.div_div by lia. reflexivity. Qed.
Lemma id_len id : 1 <= id < 2 ^ 32 -> exists n, 1 <= n <= 4 /\ get_id_length id = n /\ 256 ^ (n - 1) <= id < 256 ^ n.
Proof.
  intros H. assert (H32 : 0 <= id < 2 ^ 32) by lia. pose proof (land_high_mask id 8 H32 ltac:(lia)) as H8. pose proof (land_high_mask id 16 H32 ltac:(lia)) as H16. pose proof (land_high_mask id 24 H32 ltac:(lia)) as H24.
  change (2 ^ 32 - 2 ^ 8) with 4294967040 in H8. change (2 ^ 32 - 2 ^ 16) with 4294901760 in H16. change (2 ^ 32 - 2 ^ 24) with 4278190080 in H24. change (2 ^ 8) with 256 in H8. change (2 ^ 16) with 65536 in H16. change (2 ^ 24) with 16777216 in H24.
  unfold get_id_length. destruct (Z.land id 4294967040 =? 0) eqn:E1; [exists 1; change (256 ^ (1 - 1)) with 1; change (256 ^ 1) with 256; lia|].
  destruct (Z.land id 4294901760 =? 0) eqn:E2; [exists 2; change (256 ^ (2 - 1)) with 256; change (256 ^ 2) with 65536; lia|].
  destruct (Z.land id 4278190080 =? 0) eqn:E3; [exists 3; change (256 ^ (3 - 1)) with 65536; change (256 ^ 3) with 16777216; lia|exists 4; change (256 ^ (4 - 1)) with 16777216; change (256 ^ 4) with (2 ^ 32); lia].
Qed.
(** The bytes shown are the ones written to a file. *)
Lemma id_bytes_ok id : 1 <= id < 2 ^ 32 -> strip (four id) = fill_buffer_id 4 id /\ zlen (fill_buffer_id 4 id) = get_id_length id.
Proof.
  intros H. destruct (id_len id H) as (n & Hn & En & Hb). unfold fill_buffer_id. rewrite En. replace (4 <? n) with false by lia. rewrite fill_id_loop_ok, app_nil_r. change (256 ^ Z.of_nat 0) with 1. rewrite Z.div_1_r. split; [|rewrite be_bytes_zlen; lia].
  unfold four. assert (n = 1 \/ n = 2 \/ n = 3 \/ n = 4) as [->|[->|[->| ->]]] by lia.
  - change (256 ^ (1 - 1)) with 1 in Hb. change (256 ^ 1) with 256 in Hb. change (2 ^ 24) with 16777216. change (2 ^ 16) with 65536. change (2 ^ 8) with 256. replace (id / 16777216 mod 256) with 0 by lia. replace (id / 65536 mod 256) with 0 by lia. replace (id / 256 mod 256) with 0 by lia. cbn [strip Z.eqb]. replace (id mod 256 =? 0) with false by lia. reflexivity.
  - change (256 ^ (2 - 1)) with 256 in Hb. change (256 ^ 2) with 65536 in Hb. change (2 ^ 24) with 16777216. change (2 ^ 16) with 65536. change (2 ^ 8) with 256. replace (id / 16777216 mod 256) with 0 by lia. replace (id / 65536 mod 256) with 0 by lia. cbn [strip Z.eqb]. replace (id / 256 mod 256 =? 0) with false by lia. reflexivity.
  - change (256 ^ (3 - 1)) with 65536 in Hb. change (256 ^ 3) with 16777216 in Hb. change (2 ^ 24) with 16777216. change (2 ^ 16) with 65536. change (2 ^ 8) with 256. replace (id / 16777216 mod 256) with 0 by lia. cbn [strip Z.eqb]. replace (id / 65536 mod 256 =? 0) with false by lia. change (Z.to_nat 3) with 3%nat. cbn [be_bytes app]. rewrite !Z.div_div by lia. reflexivity.
  - change (256 ^ (4 - 1)) with 16777216 in Hb. change (256 ^ 4) with (2 ^ 32) in Hb. change (2 ^ 24) with 16777216. replace (strip _) with (four id) by (unfold four; cbn [strip]; change (2 ^ 24) with 16777216; replace (id / 16777216 mod 256 =? 0) with false by lia; reflexivity). rewrite <- be_four. reflexivity.
Qed.
Lemma id_text_ok len id : 1 <= id < 2 ^ 32 -> 4 * get_id_length id < len < 2 ^ 64 ->
  id_to_string len id = Ok (4 * get_id_length id, Some (shown_bytes (fill_buffer_id 4 id))).
Proof.
  intros H Hl. destruct (id_bytes_ok id H) as [B1 B2]. unfold id_to_string. cbv zeta. replace (len <? get_id_length id * 4 + 1) with false by lia.
  assert (E : map (fun k => id / 2 ^ k mod 256) [24; 16; 8; 0] = four id) by (cbn [map]; unfold four; change (2 ^ 0) with 1; rewrite Z.div_1_r; reflexivity).
  rewrite (id_loop_ok len id ltac:(lia) [24; 16; 8; 0] []).
  - cbv zeta. rewrite E. change (0 <? zlen (@nil Z)) with false. cbv iota. rewrite B1. cbn [bind app]. f_equal. f_equal. lia.
  - repeat constructor; lia.
  - cbv zeta. rewrite E. change (0 <? zlen (@nil Z)) with false. cbv iota. change (zlen (@nil Z)) with 0. rewrite B1, B2. lia.
Qed.
Lemma digits2_inj a b : 0 <= a < 256 -> 0 <= b < 256 -> digits 16 2 a = digits 16 2 b -> a = b.
Proof.
  intros Ha Hb H. unfold digits in H. cbn [fixed app map] in H. assert (C : forall x y, 0 <= x < 16 -> 0 <= y < 16 -> char_of x = char_of y -> x = y) by (intros x y Hx Hy; unfold char_of; destruct (x <? 10) eqn:?, (y <? 10) eqn:?; lia).
  injection H as H1 H2. apply C in H1; [|lia|lia]. apply C in H2; [|lia|lia]. lia.
Qed.
Lemma shown_inj : forall a b, bytes_ok a -> bytes_ok b -> shown_bytes a = shown_bytes b -> a = b.
Proof.
  induction a as [|x a IH]; intros [|y b] Ha Hb H; [reflexivity|discriminate|discriminate|]. pose proof (Forall_inv Ha) as Hx. pose proof (Forall_inv Hb) as Hy. apply Forall_inv_tail in Ha, Hb.
  assert (S : forall z l, shown_bytes (z :: l) = [91] ++ digits 16 2 z ++ [93] ++ shown_bytes l) by (intros z l; unfold shown_bytes; cbn [map concat]; rewrite <- !app_assoc; reflexivity). rewrite !S in H.
  assert (D : exists c1 c2 c3 c4, digits 16 2 x = [c1; c2] /\ digits 16 2 y = [c3; c4]) by (eexists _, _, _, _; split; reflexivity). destruct D as (c1 & c2 & c3 & c4 & D1 & D2). rewrite D1, D2 in H. cbn [app] in H. injection H as E1 E2 E3.
  f_equal; [apply digits2_inj; [exact Hx|exact Hy|]; rewrite D1, D2, E1, E2; reflexivity|apply IH; assumption].
Qed.
Lemma id_text_inj id1 id2 : 1 <= id1 < 2 ^ 32 -> 1 <= id2 < 2 ^ 32 -> shown_bytes (fill_buffer_id 4 id1) = shown_bytes (fill_buffer_id 4 id2) -> id1 = id2.
Proof.
  intros H1 H2 E. assert (F : forall id, 1 <= id < 2 ^ 32 -> bytes_ok (fill_buffer_id 4 id) /\ be_val (fill_buffer_id 4 id) = id).
  { intros id H. destruct (id_len id H) as (n & Hn & En & Hb). unfold fill_buffer_id. rewrite En. replace (4 <? n) with false by lia. rewrite fill_id_loop_ok, app_nil_r. change (256 ^ Z.of_nat 0) with 1. rewrite Z.div_1_r. split; [apply be_bytes_ok|].
    rewrite be_val_be_bytes, Z2Nat.id by lia. apply Z.mod_small. pose proof (Z.pow_pos_nonneg 256 (n - 1) ltac:(lia) ltac:(lia)). lia. }
  destruct (F id1 H1) as [A1 A2]. destruct (F id2 H2) as [B1 B2]. rewrite <- A2, <- B2. f_equal. apply shown_inj; assumption.
Qed.

(** ** Colours *)
Lemma fixed_split q a b : 0 < q -> forall n, fixed q (a + b) n = fixed q a (n / q ^ Z.of_nat b) ++ fixed q b n.
Proof.
  intros Q. induction b as [|b IH]; intros n; [rewrite Nat.add_0_r; change (Z.of_nat 0) with 0; rewrite Z.pow_0_r, Z.div_1_r; cbn [fixed]; rewrite app_nil_r; reflexivity|].
  rewrite Nat.add_succ_r. cbn [fixed]. rewrite IH, <- app_assoc. rewrite Nat2Z.inj_succ, Z.pow_succ_r by lia. pose proof (Z.pow_pos_nonneg q (Z.of_nat b) Q ltac:(lia)). rewrite <- Z.div_div by lia. reflexivity.
Qed.
Lemma fixed_mod q k : 0 < q -> forall m n, fixed q k (m * q ^ Z.of_nat k + n) = fixed q k n.
Proof.
  intros Q. induction k as [|k IH]; intros m n; [reflexivity|]. cbn [fixed]. rewrite Nat2Z.inj_succ, Z.pow_succ_r by lia. replace (m * (q * q ^ Z.of_nat k) + n) with (n + m * q ^ Z.of_nat k * q) by lia. rewrite Z.div_add, Z.mod_add by lia. f_equal. rewrite Z.add_comm. apply IH.
Qed.
Lemma digits_four r g b a : 0 <= r < 256 -> 0 <= g < 256 -> 0 <= b < 256 -> 0 <= a < 256 ->
  digits 16 8 (r * 2 ^ 24 + g * 2 ^ 16 + b * 2 ^ 8 + a) = digits 16 2 r ++ digits 16 2 g ++ digits 16 2 b ++ digits 16 2 a.
Proof.
  intros Hr Hg Hb Ha. change (2 ^ 24) with (16 ^ Z.of_nat 6). change (2 ^ 16) with (16 ^ Z.of_nat 4). change (2 ^ 8) with (16 ^ Z.of_nat 2). unfold digits. rewrite <- !map_app. f_equal.
  rewrite (fixed_split 16 2 6) by lia. change (16 ^ Z.of_nat 6) with 16777216. change (16 ^ Z.of_nat 4) with 65536. change (16 ^ Z.of_nat 2) with 256. replace ((r * 16777216 + g * 65536 + b * 256 + a) / 16777216) with r by lia. f_equal.
  replace (r * 16777216 + g * 65536 + b * 256 + a) with (r * 16 ^ Z.of_nat 6 + (g * 65536 + b * 256 + a)) by (change (16 ^ Z.of_nat 6) with 16777216; lia). rewrite fixed_mod by lia.
  rewrite (fixed_split 16 2 4) by lia. change (16 ^ Z.of_nat 4) with 65536. replace ((g * 65536 + b * 256 + a) / 65536) with g by lia. f_equal.
  replace (g * 65536 + b * 256 + a) with (g * 16 ^ Z.of_nat 4 + (b * 256 + a)) by (change (16 ^ Z.of_nat 4) with 65536; lia). rewrite fixed_mod by lia.
  rewrite (fixed_split 16 2 2) by lia. change (16 ^ Z.of_nat 2) with 256. replace ((b * 256 + a) / 256) with b by lia. f_equal.
  replace (b * 256 + a) with (b * 16 ^ Z.of_nat 2 + a) by (change (16 ^ Z.of_nat 2) with 256; lia). apply fixed_mod. lia.
Qed.
Lemma swap_ok r g b a : 0 <= r < 256 -> 0 <= g < 256 -> 0 <= b < 256 -> 0 <= a < 256 -> swap32 (r + 256 * g + 65536 * b + 16777216 * a) = r * 2 ^ 24 + g * 2 ^ 16 + b * 2 ^ 8 + a.
Proof.
  intros Hr Hg Hb Ha. unfold swap32. pose proof (byte_at (r + 256 * g + 65536 * b + 16777216 * a) 0 ltac:(lia)) as H0. rewrite Z.shiftr_0_r in H0. rewrite H0, !byte_at by lia. change (2 ^ 0) with 1. change (2 ^ 24) with 16777216. change (2 ^ 16) with 65536. change (2 ^ 8) with 256. lia.
Qed.
Lemma rgb_ok len r g b a : 10 <= len < 2 ^ 64 -> 0 <= r < 128 -> 0 <= g < 256 -> 0 <= b < 256 -> 0 <= a < 256 -> rgb_to_string len (r + 256 * g + 65536 * b + 16777216 * a) = Ok (shown_colour r g b a).
Proof.
  intros Hl Hr Hg Hb Ha. unfold rgb_to_string. rewrite swap_ok by lia. set (n := r * 2 ^ 24 + g * 2 ^ 16 + b * 2 ^ 8 + a). assert (Hn : 0 <= n < 2 ^ 31) by (unfold n; change (2 ^ 24) with 16777216; change (2 ^ 16) with 65536; change (2 ^ 8) with 256; change (2 ^ 31) with 2147483648; lia).
  assert (Es : s32 n = n) by (unfold s32, s_wrap; change (2 ^ 31) with 2147483648 in *; change (2 ^ (32 - 1)) with 2147483648; change (2 ^ 32) with 4294967296; lia). rewrite Es.
  rewrite (print_eq len _ _ [Lit 35; Hex true (WLit [8]) false true n] ([35] ++ digits 16 8 n)); [|reflexivity|reflexivity| |lia| | |].
  - cbn [bind]. assert (L : zlen ([35] ++ digits 16 8 n) = 9) by (rewrite zlen_app; unfold zlen, digits; rewrite map_length, fixed_len; reflexivity). rewrite fit_all by lia. rewrite L. change (9 <=? 9) with true. cbn [andb].
    unfold n. rewrite digits_four by lia. unfold shown_colour. unfold digits. cbn [fixed app map nth firstn].
    destruct (a =? 0) eqn:E0.
    + assert (a = 0) by lia. subst a. change (char_of (0 / 16 mod 16)) with 48. change (char_of (0 mod 16)) with 48. cbn [Z.eqb Pos.eqb andb]. reflexivity.
    + assert (C : forall x, 0 <= x < 16 -> (char_of x =? 48) = (x =? 0)) by (intros x Hx; unfold char_of; destruct (x <? 10) eqn:?; lia). rewrite !C by lia. replace ((a / 16 mod 16 =? 0) && (a mod 16 =? 0)) with false by lia. reflexivity.
  - cbn [map concat]. rewrite <- (field_hex 7 n) by (try lia; change (16 ^ Z.of_nat 8) with (2 ^ 32); lia). rewrite app_nil_r. reflexivity.
  - constructor; [cbn [piece_ok]; lia|]. constructor; [|constructor]. cbn [piece_ok width_ok]. split; [|exact Hn]. split; [repeat constructor; lia|]. split; [discriminate|]. vm_compute. discriminate.
  - intros k. cbn [rooms room_for]. repeat split.
  - apply Forall_app. split; [repeat constructor; lia|apply digits_pos; lia].
Qed.

(** ** Times *)
Lemma dec_plain n : 0 <= n < 2 ^ 31 -> num_field false 0 false (shown 10 false n) = shown 10 false n.
Proof. intros H. unfold num_field, blank. change (zlen (@nil Z)) with 0. pose proof (zlen_nonneg (shown 10 false n)). replace (Z.to_nat (0 - 0 - zlen (shown 10 false n))) with 0%nat by lia. reflexivity. Qed.
Lemma num_plain n : 0 <= n < 2 ^ 31 -> text_of (Num false WNone false 100 n) = shown 10 false n.
Proof. intros H. cbn [text_of width_of]. replace (n <? 0) with false by lia. rewrite Z.abs_eq by lia. apply dec_plain. exact H. Qed.
Lemma num_fixed k n : (S k = 2 \/ S k = 3)%nat -> 0 <= n < 10 ^ Z.of_nat (S k) -> text_of (Num true (WLit [Z.of_nat (S k)]) false 100 n) = digits 10 (S k) n.
Proof.
  intros Hk Hn. cbn [text_of width_of]. assert (n < 2 ^ 31) by (destruct Hk as [E|E]; rewrite E in Hn; [change (10 ^ Z.of_nat 2) with 100 in Hn|change (10 ^ Z.of_nat 3) with 1000 in Hn]; lia). replace (n <? 0) with false by lia. rewrite Z.abs_eq by lia.
  replace (value 10 [Z.of_nat (S k)]) with (Z.of_nat (S k)) by (unfold value; cbn [fold_left]; lia). apply field_dec; lia.
Qed.
Lemma num_piece w n : w = WNone \/ w = WLit [2] \/ w = WLit [3] -> 0 <= n < 2 ^ 31 -> forall z, piece_ok (Num z w false 100 n).
Proof. intros Hw Hn z. cbn [piece_ok]. split; [|lia]. destruct Hw as [->|[->| ->]]; cbn [width_ok]; [exact I| |]; (split; [repeat constructor; lia|]; split; [discriminate|vm_compute; discriminate]). Qed.
Lemma sign_piece (neg : bool) : piece_ok (Txt false WNone (if neg then [45] else [])).
Proof. cbn [piece_ok width_ok]. split; [exact I|]. destruct neg; repeat constructor; lia. Qed.
Lemma sign_text (neg : bool) : text_of (Txt false WNone (if neg then [45] else [])) = if neg then [45] else [].
Proof. cbn [text_of width_of]. apply field0. Qed.
Lemma tick_ok len tick : 1 <= len < 2 ^ 64 -> - 2 ^ 31 < tick < 2 ^ 31 -> exists s, clock (Z.abs tick) s /\ tick_to_string len tick = Ok (fit len ((if tick <? 0 then [45] else []) ++ s)).
Proof.
  intros Hl Ht. unfold tick_to_string. cbv zeta. replace (tick =? - 2 ^ 31) with false by lia. set (neg := tick <? 0). set (t := Z.abs tick). assert (Hb : 0 <= t < 2147483648) by (unfold t; change (2 ^ 31) with 2147483648 in Ht; lia). clearbody t neg.
  set (h := t / 3600 / 1000). set (t1 := t - h * 3600 * 1000). set (m := t1 / 60 / 1000). set (t2 := t1 - m * 60 * 1000). set (s := t2 / 1000). set (t3 := t2 - s * 1000).
  assert (Eh : h = t / 3600000) by (unfold h; rewrite Z.div_div by lia; reflexivity). assert (Em : m = t1 / 60000) by (unfold m; rewrite Z.div_div by lia; reflexivity).
  assert (Hh : 0 <= h < 600) by lia. assert (H1 : 0 <= t1 < 3600000) by (unfold t1; lia). assert (Hm : 0 <= m < 60) by lia. assert (H2 : 0 <= t2 < 60000) by (unfold t2; lia). assert (Hs : 0 <= s < 60) by (unfold s; lia). assert (H3 : 0 <= t3 < 1000) by (unfold t3, s; lia).
  assert (Et : t = ((h * 60 + m) * 60 + s) * 1000 + t3) by (unfold t3, t2, t1; lia). rewrite Z.div_mul by lia.
  replace (if neg then [45; 0] else [0]) with ((if neg then [45] else []) ++ [0]) by (destruct neg; reflexivity). set (sg := if neg then [45] else []). assert (Psg : Forall (fun c => 0 < c) sg) by (unfold sg; destruct neg; repeat constructor; lia).
  assert (L31 : 2 ^ 31 = 2147483648) by reflexivity. assert (Psh : forall n, 0 <= n < 2 ^ 31 -> Forall (fun c => 0 < c) (shown 10 false n)) by (intros n Hn; apply (plainly_pos n), shown_plainly; assert (2 ^ 31 < 10 ^ 40) by reflexivity; lia).
  assert (Pl : forall n, 0 <= n < 2 ^ 31 -> plainly n (shown 10 false n)) by (intros n Hn; apply shown_plainly; assert (2 ^ 31 < 10 ^ 40) by reflexivity; lia).
  (* the pieces *)
  assert (First : forall n, 0 <= n < 2 ^ 31 -> printf len [37; 115; 37; 100; 0] [AStr (Some (sg ++ [0])); AInt n] = Ok (fit len (sg ++ shown 10 false n))).
  { intros n Hn. apply (print_eq len _ _ [Txt false WNone sg; Num false WNone false 100 n]); [reflexivity|reflexivity| |exact Hl| | |apply Forall_app; split; [exact Psg|apply Psh; exact Hn]].
    - cbn [map concat]. rewrite num_plain by exact Hn. unfold sg. rewrite sign_text, app_nil_r. reflexivity.
    - constructor; [apply sign_piece|]. constructor; [apply num_piece; [left; reflexivity|exact Hn]|constructor].
    - intros k. cbn [rooms room_for width_of]. split; [lia|]. split; [intros _; exact I|exact I]. }
  assert (Hour : printf len [37; 115; 37; 100; 58; 37; 48; 50; 100; 0] [AStr (Some (sg ++ [0])); AInt h; AInt m] = Ok (fit len (sg ++ shown 10 false h ++ [58] ++ digits 10 2 m))).
  { apply (print_eq len _ _ [Txt false WNone sg; Num false WNone false 100 h; Lit 58; Num true (WLit [2]) false 100 m]); [reflexivity|reflexivity| |exact Hl| | |].
    - cbn [map concat]. rewrite num_plain by lia. rewrite (num_fixed 1) by (try (left; reflexivity); change (10 ^ Z.of_nat 2) with 100; lia). unfold sg. rewrite sign_text, app_nil_r. reflexivity.
    - constructor; [apply sign_piece|]. constructor; [apply num_piece; [left; reflexivity|lia]|]. constructor; [cbn [piece_ok]; lia|]. constructor; [apply num_piece; [right; left; reflexivity|lia]|constructor].
    - intros k. cbn [rooms room_for width_of]. split; [lia|]. repeat split.
    - apply Forall_app; split; [exact Psg|]. apply Forall_app; split; [apply Psh; lia|]. apply Forall_app; split; [repeat constructor; lia|apply digits_pos; lia]. }
  assert (Sec : forall a, cat_printf len (fit len a) [58; 37; 48; 50; 100; 0] [AInt s] = Ok (fit len (a ++ [58] ++ digits 10 2 s))).
  { intros a. apply (cat_eq len a _ _ [Lit 58; Num true (WLit [2]) false 100 s]); [reflexivity|reflexivity| |exact Hl| | |].
    - cbn [map concat]. rewrite (num_fixed 1) by (try (left; reflexivity); change (10 ^ Z.of_nat 2) with 100; lia). rewrite app_nil_r. reflexivity.
    - constructor; [cbn [piece_ok]; lia|]. constructor; [apply num_piece; [right; left; reflexivity|lia]|constructor].
    - intros k. cbn [rooms room_for width_of]. repeat split.
    - apply Forall_app; split; [repeat constructor; lia|apply digits_pos; lia]. }
  assert (Mil : forall a, cat_printf len (fit len a) [46; 37; 48; 51; 100; 0] [AInt t3] = Ok (fit len (a ++ [46] ++ digits 10 3 t3))).
  { intros a. apply (cat_eq len a _ _ [Lit 46; Num true (WLit [3]) false 100 t3]); [reflexivity|reflexivity| |exact Hl| | |].
    - cbn [map concat]. rewrite (num_fixed 2) by (try (right; reflexivity); change (10 ^ Z.of_nat 3) with 1000; lia). rewrite app_nil_r. reflexivity.
    - constructor; [cbn [piece_ok]; lia|]. constructor; [apply num_piece; [right; right; reflexivity|lia]|constructor].
    - intros k. cbn [rooms room_for width_of]. repeat split.
    - apply Forall_app; split; [repeat constructor; lia|apply digits_pos; lia]. }
  rewrite Et. destruct (h =? 0) eqn:E0; cbn [andb negb].
  - assert (h = 0) as -> by lia. destruct (m =? 0) eqn:E1.
    + assert (m = 0) as -> by lia. rewrite First by lia. cbn [bind]. rewrite Mil. eexists. split; [|rewrite <- !app_assoc; reflexivity].
      replace (((0 * 60 + 0) * 60 + s) * 1000 + t3) with (s * 1000 + t3) by lia. apply c_sec; [apply Pl; lia|lia|lia].
    + rewrite First by lia. cbn [bind]. rewrite Sec. cbn [bind]. rewrite Mil. eexists. split; [|rewrite <- !app_assoc; reflexivity].
      replace (((0 * 60 + m) * 60 + s) * 1000 + t3) with ((m * 60 + s) * 1000 + t3) by lia. apply c_min; [apply Pl; lia|lia|lia|lia].
  - rewrite Hour. cbn [bind]. rewrite Sec. cbn [bind]. rewrite Mil. eexists. split; [|rewrite <- !app_assoc; reflexivity]. apply c_hour; [apply Pl; lia|lia|lia|lia|lia].
Qed.
(** The bytes of a number that is not 0, without zeros in front. *)
Lemma id_of_bytes x bs : bytes_ok (x :: bs) -> x <> 0 -> zlen (x :: bs) <= 4 -> let id := be_val (x :: bs) in 1 <= id < 2 ^ 32 /\ get_id_length id = zlen (x :: bs) /\ fill_buffer_id 4 id = x :: bs.
Proof.
  intros Hb Hx Hl. cbv zeta. pose proof (be_bytes_be_val _ Hb) as E. set (id := be_val (x :: bs)) in *. pose proof (Forall_inv Hb) as Qx. unfold is_byte in Qx.
  assert (Q : 256 ^ (zlen (x :: bs) - 1) <= id < 256 ^ zlen (x :: bs)).
  { pose proof (be_val_be_bytes (length (x :: bs)) id) as V. rewrite E in V. change (be_val (x :: bs)) with id in V. change (Z.of_nat (length (x :: bs))) with (zlen (x :: bs)) in V.
    pose proof (Z.pow_pos_nonneg 256 (zlen (x :: bs)) ltac:(lia) ltac:(pose proof (zlen_nonneg (x :: bs)); lia)). split; [|lia].
    rewrite zlen_cons. replace (zlen bs + 1 - 1) with (zlen bs) by lia. unfold id. change (x :: bs) with ([x] ++ bs). rewrite be_val_app. change (be_val [x]) with (0 * 256 + x). apply Forall_inv_tail in Hb. pose proof (be_val_bound bs Hb). pose proof (Z.pow_pos_nonneg 256 (zlen bs) ltac:(lia) (zlen_nonneg bs)). nia. }
  assert (L : 1 <= zlen (x :: bs) <= 4) by (rewrite zlen_cons in *; pose proof (zlen_nonneg bs); lia).
  assert (B : 1 <= id < 2 ^ 32) by (assert (zlen (x :: bs) = 1 \/ zlen (x :: bs) = 2 \/ zlen (x :: bs) = 3 \/ zlen (x :: bs) = 4) as [G|[G|[G|G]]] by lia; rewrite G in Q; revert Q; [change (256 ^ (1 - 1)) with 1; change (256 ^ 1) with 256|change (256 ^ (2 - 1)) with 256; change (256 ^ 2) with 65536|change (256 ^ (3 - 1)) with 65536; change (256 ^ 3) with 16777216|change (256 ^ (4 - 1)) with 16777216; change (256 ^ 4) with 4294967296]; change (2 ^ 32) with 4294967296; lia).
  split; [exact B|]. destruct (id_len id B) as (n & Hn & En & Hq).
  assert (G0 : n = zlen (x :: bs)).
  { destruct (Z.lt_trichotomy n (zlen (x :: bs))) as [G|[G|G]]; [|exact G|].
    - pose proof (Z.pow_le_mono_r 256 n (zlen (x :: bs) - 1) ltac:(lia) ltac:(lia)). lia.
    - pose proof (Z.pow_le_mono_r 256 (zlen (x :: bs)) (n - 1) ltac:(lia) ltac:(lia)). lia. }
  rewrite G0 in En. split; [exact En|]. unfold fill_buffer_id. rewrite En. replace (4 <? zlen (x :: bs)) with false by lia. rewrite fill_id_loop_ok, app_nil_r. change (256 ^ Z.of_nat 0) with 1. rewrite Z.div_1_r. unfold zlen. rewrite Nat2Z.id. exact E.
Qed.
