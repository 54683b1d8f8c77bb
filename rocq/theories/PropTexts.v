(** C129 to C131: elements of unknown size that get one, and the texts of IDs, times and colours. *)
From Verif Require Import Base BaseProofs Vint VintSpec VintProofs EbmlId EbmlIdProofs EltHead Ebml Tree Str StrSpec Printf Texts TextsSpec TextsProofs.

(** ** C129: giving a size to an element of unknown size *)

(** An element of known size is left as it is. *)
Theorem C129_finite i n : e_fin i = true -> infinite_force_size i n = (false, i).
Proof. intros H. unfold infinite_force_size. rewrite H. reflexivity. Qed.
Print Assumptions C129_finite.
Example C129_finite_ex : let i := mkInfo (Known 4) true false true 7 0 0 0 0 0 in infinite_force_size i 1000 = (false, i).
Proof. vm_compute. reflexivity. Qed.

(** The claim fails for every element of unknown size and every size, fitting or not: the function says that it has done it, the element
    has the new size and is still of unknown size, and the head that is written is the one from before, whose size reads as unknown. *)
Theorem C129_never_finite_refuted id i n : e_fin i = false -> 0 <= e_szlen i <= 8 ->
  exists i' bs, infinite_force_size i n = (true, i') /\ e_dsize i' = n /\ e_fin i' = false /\
    render_head id (e_dsize i') (e_szlen i') (e_fin i') = Some (fill_buffer_id 12 id ++ bs) /\
    render_head id (e_dsize i) (e_szlen i) (e_fin i) = Some (fill_buffer_id 12 id ++ bs) /\
    zlen bs = Z.max 1 (e_szlen i) /\
    forall rest size, zlen bs <= size -> read_coded_size (bs ++ rest) size = Some (mkSz (vint_reserved (zlen bs)) (zlen bs) (vint_reserved (zlen bs))).
Proof.
  intros Hf Hs. unfold infinite_force_size. rewrite Hf. cbv zeta. cbn [force_data_size e_dsize e_szlen e_fin]. rewrite Hf. rewrite !coded_size_length_unknown by exact Hs. rewrite Z.eqb_refl.
  set (k := Z.max 1 (e_szlen i)). assert (Hk : 1 <= k <= 8) by (unfold k; lia).
  assert (C : forall len, coded_value_length len k false = coded_value_length (vint_reserved k) k true).
  { intros len. clearbody k. assert (k = 1 \/ k = 2 \/ k = 3 \/ k = 4 \/ k = 5 \/ k = 6 \/ k = 7 \/ k = 8) as [->|[->|[->|[->|[->|[->|[->| ->]]]]]]] by lia; vm_compute; reflexivity. }
  destruct (unknown_encode 0 k [] Hk) as (bs & E & L & _ & _). eexists. exists bs. split; [reflexivity|]. cbn [set_infinite force_data_size e_dsize e_szlen e_fin negb].
  split; [reflexivity|]. split; [reflexivity|]. unfold render_head. rewrite !coded_size_length_unknown by exact Hs. fold k. rewrite C in E. rewrite !C, E.
  split; [reflexivity|]. split; [reflexivity|]. split; [exact L|]. intros rest size Hz. destruct (unknown_encode 0 k rest Hk) as (bs' & E' & _ & _ & R). rewrite C, E in E'. injection E' as <-. rewrite L in *. apply R. exact Hz.
Qed.
Print Assumptions C129_never_finite_refuted.
(** A Segment of unknown size with 8 bytes for it: the size 1000 is never written. *)
Example C129_never_finite_ex :
  let i := mkInfo (Known 4) true false false 0 0 8 0 0 0 in
  infinite_force_size i 1000 = (true, mkInfo (Known 4) true false false 1000 0 8 0 0 0) /\ render_head 408125543 1000 8 false = Some [24; 83; 128; 103; 1; 255; 255; 255; 255; 255; 255; 255].
Proof. vm_compute. repeat split. Qed.

(** What works: ending the unknown size and giving the size, with room kept for it.  The head keeps its length, so that nothing behind it
    moves, and its size reads as the one given. *)
Theorem C129_close id i n : e_fin i = false -> 1 <= e_szlen i <= 8 -> 0 <= n < 2 ^ 35 - 1 -> n < 2 ^ (7 * e_szlen i) - 1 ->
  let i' := force_data_size (set_infinite i false) n in
  exists old new, render_head id (e_dsize i) (e_szlen i) (e_fin i) = Some (fill_buffer_id 12 id ++ old) /\
    render_head id (e_dsize i') (e_szlen i') (e_fin i') = Some (fill_buffer_id 12 id ++ new) /\
    zlen new = zlen old /\ e_fin i' = true /\
    forall rest size, zlen new <= size -> exists u, read_coded_size (new ++ rest) size = Some (mkSz n (zlen new) u) /\ n <> u.
Proof.
  intros Hf Hs Hn Hr. cbv zeta. cbn [set_infinite force_data_size e_dsize e_szlen e_fin negb]. rewrite Hf. unfold render_head. rewrite coded_size_length_unknown by lia.
  replace (Z.max 1 (e_szlen i)) with (e_szlen i) by lia. destruct (unknown_encode (e_dsize i) (e_szlen i) [] Hs) as (old & E & L & _ & _). rewrite E.
  assert (K : coded_size_length n (e_szlen i) true = e_szlen i).
  { rewrite coded_size_length_forced by lia. rewrite coded_size_length_natural by lia. set (l := e_szlen i) in *. clearbody l. assert (l = 1 \/ l = 2 \/ l = 3 \/ l = 4 \/ 5 <= l) as [->|[->|[->|[->|G]]]] by lia.
    1: change (2 ^ (7 * 1)) with 128 in Hr. 2: change (2 ^ (7 * 2)) with 16384 in Hr. 3: change (2 ^ (7 * 3)) with 2097152 in Hr. 4: change (2 ^ (7 * 4)) with 268435456 in Hr.
    all: destruct (n <? 127) eqn:?, (n <? 16383) eqn:?, (n <? 2097151) eqn:?, (n <? 268435455) eqn:?; lia. }
  destruct (size_roundtrip n (e_szlen i) [] Hn ltac:(lia)) as (new & E' & L' & _). rewrite K in E', L'. rewrite K, E'. exists old, new. split; [reflexivity|]. split; [reflexivity|]. split; [lia|]. split; [reflexivity|].
  intros rest size Hz. destruct (size_roundtrip n (e_szlen i) rest Hn ltac:(lia)) as (new' & E'' & L'' & R). rewrite K in E'', R, L''. rewrite E' in E''. injection E'' as <-. rewrite L' in *. destruct (R size Hz) as [R1 R2]. exists (vint_reserved (e_szlen i)). split; assumption.
Qed.
Print Assumptions C129_close.
Example C129_close_ex : let i := mkInfo (Known 4) true false false 0 0 8 0 0 0 in
  e_fin i = false /\ 1 <= e_szlen i <= 8 /\ 0 <= 1000 < 2 ^ 35 - 1 /\ 1000 < 2 ^ (7 * e_szlen i) - 1 /\
  let i' := force_data_size (set_infinite i false) 1000 in render_head 408125543 (e_dsize i') (e_szlen i') (e_fin i') = Some [24; 83; 128; 103; 1; 0; 0; 0; 0; 0; 3; 232].
Proof. vm_compute. repeat split; discriminate. Qed.

(** ** C130: the texts of IDs *)

(** An ID of one to four bytes, the first of them not 0, becomes the two hexadecimal digits of each byte in brackets, whatever the room is
    as long as it is enough. *)
Theorem C130_text len x bs : bytes_ok (x :: bs) -> x <> 0 -> zlen (x :: bs) <= 4 -> 4 * zlen (x :: bs) < len < 2 ^ 64 ->
  id_to_string len (be_val (x :: bs)) = Ok (4 * zlen (x :: bs), Some (shown_bytes (x :: bs))).
Proof.
  intros Hb Hx H4 Hl. destruct (id_of_bytes x bs Hb Hx H4) as (B & L & E). rewrite id_text_ok by (rewrite ?L; lia). rewrite L, E. reflexivity.
Qed.
Print Assumptions C130_text.
Example C130_text_ex : id_to_string 17 (be_val [26; 69; 223; 163]) = Ok (16, Some [91; 49; 65; 93; 91; 52; 53; 93; 91; 68; 70; 93; 91; 65; 51; 93]).
Proof. vm_compute. reflexivity. Qed.

(** Different IDs have different texts, and the number returned is the length of the text. *)
Theorem C130_distinct len1 len2 id1 id2 k1 k2 t : 1 <= id1 < 2 ^ 32 -> 1 <= id2 < 2 ^ 32 -> len1 < 2 ^ 64 -> len2 < 2 ^ 64 ->
  id_to_string len1 id1 = Ok (k1, Some t) -> id_to_string len2 id2 = Ok (k2, Some t) -> id1 = id2 /\ k1 = zlen t.
Proof.
  assert (F : forall len id k, 1 <= id < 2 ^ 32 -> len < 2 ^ 64 -> id_to_string len id = Ok (k, Some t) -> t = shown_bytes (fill_buffer_id 4 id) /\ k = zlen t).
  { intros len id k H Hl E. assert (G : 4 * get_id_length id < len) by (unfold id_to_string in E; cbv zeta in E; destruct (len <? get_id_length id * 4 + 1) eqn:?; [discriminate|lia]).
    rewrite id_text_ok in E by lia. injection E as <- <-. split; [reflexivity|]. destruct (id_bytes_ok id H) as [_ B]. rewrite <- B.
    assert (S : forall l, zlen (shown_bytes l) = 4 * zlen l) by (induction l as [|y l IH]; [reflexivity|]; unfold shown_bytes in *; cbn [map concat]; rewrite zlen_app, IH, zlen_cons; change (zlen ([91] ++ digits 16 2 y ++ [93])) with 4; lia). rewrite S. reflexivity. }
  intros H1 H2 L1 L2 E1 E2. destruct (F _ _ _ H1 L1 E1) as [T1 K1]. destruct (F _ _ _ H2 L2 E2) as [T2 _]. split; [|exact K1]. apply id_text_inj; [exact H1|exact H2|congruence].
Qed.
Print Assumptions C130_distinct.
Example C130_distinct_ex : id_to_string 64 236 = Ok (4, Some [91; 69; 67; 93]) /\ id_to_string 9 16877 = Ok (8, Some [91; 52; 49; 93; 91; 69; 68; 93]).
Proof. vm_compute. split; reflexivity. Qed.

(** Without the room for it nothing is written, not even the end of a text: what the buffer held before is what the caller prints. *)
Theorem C130_small_refuted len id : len <= 4 * get_id_length id -> id_to_string len id = Ok (0, None).
Proof. intros H. unfold id_to_string. cbv zeta. replace (len <? get_id_length id * 4 + 1) with true by lia. reflexivity. Qed.
Print Assumptions C130_small_refuted.
Example C130_small_ex : id_to_string 16 440786851 = Ok (0, None).
Proof. vm_compute. reflexivity. Qed.
(** The ID 0 has no text, and its length is given as 4. *)
Theorem C130_zero_refuted : exists len, id_to_string len 0 = Ok (4, Some []).
Proof. exists 32. vm_compute. reflexivity. Qed.
Print Assumptions C130_zero_refuted.

(** ** C131: the texts of times and colours *)

(** A time in milliseconds, but the smallest number: its sign and its hours, minutes, seconds and milliseconds, cut to the room. *)
Theorem C131_time len tick : 1 <= len < 2 ^ 64 -> - 2 ^ 31 < tick < 2 ^ 31 ->
  exists s, clock (Z.abs tick) s /\ tick_to_string len tick = Ok (fit len ((if tick <? 0 then [45] else []) ++ s)).
Proof. apply tick_ok. Qed.
Print Assumptions C131_time.
(** 1:02:03.004, -59.999, and 1:02:03.004 in a buffer of 6. *)
Example C131_time_ex :
  tick_to_string 64 3723004 = Ok [49; 58; 48; 50; 58; 48; 51; 46; 48; 48; 52] /\ tick_to_string 64 (-59999) = Ok [45; 53; 57; 46; 57; 57; 57] /\
  tick_to_string 6 3723004 = Ok [49; 58; 48; 50; 58].
Proof. vm_compute. repeat split. Qed.

(** A clock tells one time: no two times have the same text. *)
Lemma plainly_inj a b s t u v : 0 <= a -> 0 <= b -> plainly a s -> plainly b t -> (u = [] \/ exists c u', u = c :: u' /\ (c = 46 \/ c = 58)) -> (v = [] \/ exists c v', v = c :: v' /\ (c = 46 \/ c = 58)) -> s ++ u = t ++ v -> a = b /\ u = v.
Proof.
  intros Ha Hb (k & -> & Hk & _) (j & -> & Hj & _) Hu Hv E.
  assert (C : forall q n, Forall (fun c => 48 <= c <= 57) (digits 10 q n)).
  { intros q n. unfold digits. apply Forall_map. refine (Forall_impl _ _ (fixed_range 10 q ltac:(lia) n)). intros d Hd. cbv beta in Hd. unfold char_of. destruct (d <? 10) eqn:?; lia. }
  assert (G : forall s t, Forall (fun c => 48 <= c <= 57) s -> Forall (fun c => 48 <= c <= 57) t -> s ++ u = t ++ v -> s = t /\ u = v).
  { clear E. induction s as [|x s IH]; intros [|y t] Fs Ft E; cbn [app] in E.
    - split; [reflexivity|exact E].
    - destruct Hu as [->|(c & u' & -> & Hc)]; [discriminate|]. injection E as -> _. pose proof (Forall_inv Ft) as Q. cbv beta in Q. lia.
    - destruct Hv as [->|(c & v' & -> & Hc)]; [discriminate|]. injection E as <- _. pose proof (Forall_inv Fs) as Q. cbv beta in Q. lia.
    - injection E as <- E. destruct (IH t (Forall_inv_tail Fs) (Forall_inv_tail Ft) E) as [-> ->]. split; reflexivity. }
  destruct (G _ _ (C _ _) (C _ _) E) as [E1 E2]. split; [|exact E2].
  assert (k = j) as -> by (apply (f_equal (@length Z)) in E1; unfold digits in E1; rewrite !map_length, !fixed_len in E1; lia).
  assert (D : forall q a b, 0 <= a < 10 ^ Z.of_nat q -> 0 <= b < 10 ^ Z.of_nat q -> digits 10 q a = digits 10 q b -> a = b).
  { induction q as [|q IHq]; intros a0 b0 A B D; [change (10 ^ Z.of_nat 0) with 1 in *; lia|]. unfold digits in D. cbn [fixed] in D. rewrite !map_app in D. apply app_inj_tail in D. destruct D as [D1 D2].
    rewrite Nat2Z.inj_succ, Z.pow_succ_r in A, B by lia. assert (X : a0 / 10 = b0 / 10) by (apply IHq; [lia|lia|exact D1]). unfold char_of in D2. destruct (a0 mod 10 <? 10) eqn:?, (b0 mod 10 <? 10) eqn:?; lia. }
  apply (D (S j)); [lia|lia|exact E1].
Qed.
Lemma digits_inj q : forall a b, 0 <= a < 10 ^ Z.of_nat q -> 0 <= b < 10 ^ Z.of_nat q -> digits 10 q a = digits 10 q b -> a = b.
Proof.
  induction q as [|q IHq]; intros a0 b0 A B D; [change (10 ^ Z.of_nat 0) with 1 in *; lia|]. unfold digits in D. cbn [fixed] in D. rewrite !map_app in D. apply app_inj_tail in D. destruct D as [D1 D2].
  rewrite Nat2Z.inj_succ, Z.pow_succ_r in A, B by lia. assert (X : a0 / 10 = b0 / 10) by (apply IHq; [lia|lia|exact D1]). unfold char_of in D2. destruct (a0 mod 10 <? 10) eqn:?, (b0 mod 10 <? 10) eqn:?; lia.
Qed.
Lemma split_digits q a b u v : digits 10 q a ++ u = digits 10 q b ++ v -> digits 10 q a = digits 10 q b /\ u = v.
Proof.
  intros E. assert (L : length (digits 10 q a) = length (digits 10 q b)) by (unfold digits; rewrite !map_length, !fixed_len; reflexivity).
  revert L E. generalize (digits 10 q a) (digits 10 q b). induction l as [|x l IH]; intros [|y l'] L E; try discriminate; [split; [reflexivity|exact E]|]. cbn [app] in E. injection E as <- E. destruct (IH l' ltac:(cbn [length] in L; lia) E) as [-> ->]. split; reflexivity.
Qed.
Theorem C131_time_distinct a b s : clock a s -> clock b s -> a = b.
Proof.
  intros Ca Cb.
  assert (L : forall a b s t c u d v, plainly a s -> plainly b t -> s ++ [c] ++ u = t ++ [d] ++ v -> 0 <= a -> 0 <= b -> c = 46 \/ c = 58 -> d = 46 \/ d = 58 -> a = b /\ c = d /\ u = v).
  { intros a0 b0 s0 t0 c u d v P Q E A B C D. assert (X : a0 = b0 /\ [c] ++ u = [d] ++ v); [|destruct X as [X Y]; injection Y as Y1 Y2; split; [exact X|split; assumption]]. apply (plainly_inj a0 b0 s0 t0); [exact A|exact B|exact P|exact Q|right; eexists _, _; split; [reflexivity|exact C]|right; eexists _, _; split; [reflexivity|exact D]|exact E]. }
  destruct Ca as [s1 k1 d1 P1 S1 K1|m1 s1 k1 d1 P1 M1 S1 K1|h1 m1 s1 k1 d1 P1 H1 M1 S1 K1];
  inversion Cb as [s2 k2 d2 P2 S2 K2 EQ E|m2 s2 k2 d2 P2 M2 S2 K2 EQ E|h2 m2 s2 k2 d2 P2 H2 M2 S2 K2 EQ E]; clear EQ Cb;
  pose proof (L _ _ _ _ _ _ _ _ P2 P1 E ltac:(lia) ltac:(lia) ltac:(lia) ltac:(lia)) as E'; clear E; rename E' into E; destruct E as (E0 & Ec & E); try discriminate Ec.
  - change (digits 10 3 k2 = digits 10 3 k1) in E. apply digits_inj in E; [lia| |]; change (10 ^ Z.of_nat 3) with 1000; lia.
  - change (digits 10 2 s2 ++ [46] ++ digits 10 3 k2 = digits 10 2 s1 ++ [46] ++ digits 10 3 k1) in E. apply split_digits in E. destruct E as [Es E]. apply app_inv_head in E. apply digits_inj in Es; [|change (10 ^ Z.of_nat 2) with 100; lia|change (10 ^ Z.of_nat 2) with 100; lia]. apply digits_inj in E; [lia| |]; change (10 ^ Z.of_nat 3) with 1000; lia.
  - change (digits 10 2 m2 ++ [58] ++ digits 10 2 s2 ++ [46] ++ digits 10 3 k2 = digits 10 2 s1 ++ [46] ++ digits 10 3 k1) in E. apply split_digits in E. destruct E as [Es E]. apply (f_equal (hd 0)) in E. discriminate E.
  - change (digits 10 2 s2 ++ [46] ++ digits 10 3 k2 = digits 10 2 m1 ++ [58] ++ digits 10 2 s1 ++ [46] ++ digits 10 3 k1) in E. apply split_digits in E. destruct E as [Es E]. apply (f_equal (hd 0)) in E. discriminate E.
  - change (digits 10 2 m2 ++ [58] ++ digits 10 2 s2 ++ [46] ++ digits 10 3 k2 = digits 10 2 m1 ++ [58] ++ digits 10 2 s1 ++ [46] ++ digits 10 3 k1) in E. apply split_digits in E. destruct E as [Em E]. apply app_inv_head in E. apply split_digits in E. destruct E as [Es E]. apply app_inv_head in E.
    apply digits_inj in Em; [|change (10 ^ Z.of_nat 2) with 100; lia|change (10 ^ Z.of_nat 2) with 100; lia]. apply digits_inj in Es; [|change (10 ^ Z.of_nat 2) with 100; lia|change (10 ^ Z.of_nat 2) with 100; lia]. apply digits_inj in E; [lia| |]; change (10 ^ Z.of_nat 3) with 1000; lia.
Qed.
Print Assumptions C131_time_distinct.
Example C131_time_distinct_ex : clock 61001 [49; 58; 48; 49; 46; 48; 48; 49].
Proof. change 61001 with ((1 * 60 + 1) * 1000 + 1). apply (c_min 1 1 1 [49]); [exists 0%nat; vm_compute; split; [reflexivity|]; split; [reflexivity|left; reflexivity]|lia|lia|lia]. Qed.

(** The smallest time cannot be negated. *)
Theorem C131_smallest_refuted len : tick_to_string len (- 2 ^ 31) = Bad.
Proof. reflexivity. Qed.
Print Assumptions C131_smallest_refuted.

(** Colours with less than 128 of red: #RRGGBB, with the fourth component behind it unless it is 0. *)
Theorem C131_colour_partial len r g b a : 10 <= len < 2 ^ 64 -> 0 <= r < 128 -> 0 <= g < 256 -> 0 <= b < 256 -> 0 <= a < 256 ->
  rgb_to_string len (r + 256 * g + 65536 * b + 16777216 * a) = Ok (shown_colour r g b a).
Proof. apply rgb_ok. Qed.
Print Assumptions C131_colour_partial.
(** #7F0AFF and #01020304 *)
Example C131_colour_ex : rgb_to_string 16 (127 + 256 * 10 + 65536 * 255) = Ok [35; 55; 70; 48; 65; 70; 70] /\ rgb_to_string 16 (1 + 256 * 2 + 65536 * 3 + 16777216 * 4) = Ok [35; 48; 49; 48; 50; 48; 51; 48; 52].
Proof. vm_compute. split; reflexivity. Qed.
(** From 128 of red on the number printed is negative and the digits are not those of the colour: pure red is written as #060000, and
    another one has characters that are no digits. *)
Theorem C131_colour_refuted : exists len r g b a, 10 <= len < 2 ^ 64 /\ 0 <= r < 256 /\ 0 <= g < 256 /\ 0 <= b < 256 /\ 0 <= a < 256 /\
  rgb_to_string len (r + 256 * g + 65536 * b + 16777216 * a) = Ok [35; 48; 54; 48; 48; 48; 48] /\ shown_colour r g b a = [35; 70; 70; 48; 48; 48; 48].
Proof. exists 16, 255, 0, 0, 0. repeat apply conj; try lia; vm_compute; reflexivity. Qed.
Print Assumptions C131_colour_refuted.
