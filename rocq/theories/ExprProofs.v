(** Proofs about base 64. *)
From Verif Require Import Base BaseProofs Tree Arr ArrProofs2 Str StrSpec StrProofs Printf PrintfSpec Scan ScanSpec ScanProofs Expr ExprSpec.

Lemma list3_ind (P : list Z -> Prop) : P [] -> (forall a, P [a]) -> (forall a b, P [a; b]) -> (forall a b c r, P r -> P (a :: b :: c :: r)) -> forall l, P l.
Proof.
  intros H0 H1 H2 H3. assert (H : forall l, P l /\ (forall a, P (a :: l)) /\ (forall a b, P (a :: b :: l))).
  { induction l as [|x l (I1 & I2 & I3)]; [auto|]. split; [apply I2|]. split; [intros; apply I3|]. intros. apply H3. exact I1. }
  intros l. apply H.
Qed.

(** Encoding. *)
Lemma char_sextet k : 0 <= k < 64 -> base64_char k = sextet k.
Proof.
  intros H. assert (A : forallb (fun n => base64_char (Z.of_nat n) =? sextet (Z.of_nat n)) (seq 0 64) = true) by (vm_compute; reflexivity).
  rewrite forallb_forall in A. specialize (A (Z.to_nat k)). rewrite Z2Nat.id in A by lia. apply Z.eqb_eq. apply A. apply in_seq. lia.
Qed.
Lemma land_3 a : Z.land a 3 = a mod 4. Proof. change 3 with (Z.ones 2). rewrite Z.land_ones by lia. reflexivity. Qed.
Lemma land_15 a : Z.land a 15 = a mod 16. Proof. change 15 with (Z.ones 4). rewrite Z.land_ones by lia. reflexivity. Qed.
Lemma land_63 a : Z.land a 63 = a mod 64. Proof. change 63 with (Z.ones 6). rewrite Z.land_ones by lia. reflexivity. Qed.
Lemma shl a k : 0 <= k -> Z.shiftl a k = a * 2 ^ k. Proof. apply Z.shiftl_mul_pow2. Qed.
Lemma shr a k : 0 <= k -> Z.shiftr a k = a / 2 ^ k. Proof. apply Z.shiftr_div_pow2. Qed.
Ltac heads := repeat (apply (f_equal2 (@cons Z)); [first [reflexivity|apply f_equal; lia]|]); reflexivity.
Lemma packet_ok a b c : is_byte a -> is_byte b -> is_byte c -> packet a b c = base64 [a; b; c].
Proof.
  unfold is_byte, packet. intros Ha Hb Hc. cbn [base64 app]. rewrite land_3, land_15, land_63, !shl, !shr by lia. rewrite (lor_add_pow2 _ (b / 2 ^ 4) 4), (lor_add_pow2 _ (c / 2 ^ 6) 2) by lia.
  rewrite !char_sextet by lia. heads.
Qed.
Lemma packet2_ok a b : is_byte a -> is_byte b -> packet2 a b = base64 [a; b].
Proof.
  unfold is_byte, packet2. intros Ha Hb. cbn [base64]. rewrite land_3, land_15, !shl, !shr by lia. rewrite (lor_add_pow2 _ (b / 2 ^ 4) 4) by lia. rewrite !char_sextet by lia. heads.
Qed.
Lemma packet1_ok a : is_byte a -> packet1 a = base64 [a].
Proof. unfold is_byte, packet1. intros Ha. cbn [base64]. rewrite land_3, !shl, !shr by lia. rewrite !char_sextet by lia. heads. Qed.
Lemma base64_more a b c r : base64 (a :: b :: c :: r) = base64 [a; b; c] ++ base64 r.
Proof. cbn [base64]. rewrite app_nil_r. reflexivity. Qed.
Lemma base64_len bs : zlen (base64 bs) = 4 * ((zlen bs + 2) / 3).
Proof.
  induction bs using list3_ind; try reflexivity. rewrite base64_more, zlen_app, IHbs, !zlen_cons. change (zlen (base64 [a; b; c])) with 4. pose proof (zlen_nonneg bs). lia.
Qed.
Lemma split4 (l : list Z) n : 0 <= n -> n <= zlen l -> exists a b, l = a ++ b /\ zlen a = n.
Proof. intros H1 H2. exists (firstn (Z.to_nat n) l), (skipn (Z.to_nat n) l). split; [symmetry; apply firstn_skipn|]. unfold zlen in *; rewrite firstn_length; lia. Qed.
Lemma to64_3 out pos len a b c r : to_base64 out pos len (a :: b :: c :: r) =
  if 4 <? len then do o <- opt_res (mem_put out pos (packet a b c)); to_base64 o (pos + 4) (len - 4) r else Ok (false, out).
Proof. reflexivity. Qed.
Lemma encode_ok bs : bytes_ok bs -> forall pre hole post len, zlen hole = zlen (base64 bs) + 1 -> zlen hole <= len ->
  to_base64 (pre ++ hole ++ post) (zlen pre) len bs = Ok (true, pre ++ base64 bs ++ 0 :: post).
Proof.
  assert (Last : forall p pre hole post, zlen hole = 5 -> zlen p = 4 -> (do o <- opt_res (mem_put (pre ++ hole ++ post) (zlen pre) p); do o <- opt_res (mem_put o (zlen pre + 4) [0]); Ok (true, o)) = Ok (true, pre ++ p ++ 0 :: post)).
  { intros p pre hole post Hh Hp. destruct (split4 hole 4) as (h1 & h2 & -> & H1); [lia|lia|]. rewrite zlen_app in Hh. rewrite <- app_assoc. rewrite mem_put_ok by lia. cbn [opt_res bind].
    rewrite app_assoc. replace (zlen pre + 4) with (zlen (pre ++ p)) by (rewrite zlen_app; lia). rewrite mem_put_ok by (change (zlen [0]) with 1; lia). cbn [opt_res bind]. rewrite <- app_assoc. reflexivity. }
  induction bs as [|a|a b|a b c r IH] using list3_ind; intros Hb pre hole post len Hh Hl.
  - cbn [to_base64 base64 app]. rewrite mem_put_ok by (rewrite Hh; reflexivity). reflexivity.
  - apply Forall_cons_iff in Hb. destruct Hb as [Ha _]. cbn [to_base64]. change (zlen (base64 [a])) with 4 in Hh. replace (len <? 5) with false by lia. rewrite (packet1_ok a Ha). apply Last; [lia|reflexivity].
  - apply Forall_cons_iff in Hb. destruct Hb as [Ha Hb]. apply Forall_cons_iff in Hb. destruct Hb as [Hb _]. cbn [to_base64]. change (zlen (base64 [a; b])) with 4 in Hh. replace (len <? 5) with false by lia. rewrite (packet2_ok a b Ha Hb). apply Last; [lia|reflexivity].
  - apply Forall_cons_iff in Hb. destruct Hb as [Ha Hb]. apply Forall_cons_iff in Hb. destruct Hb as [Hb Hc]. apply Forall_cons_iff in Hc. destruct Hc as [Hc Hr]. rewrite base64_more in *. rewrite zlen_app in Hh. change (zlen (base64 [a; b; c])) with 4 in Hh.
    pose proof (zlen_nonneg (base64 r)). rewrite to64_3. replace (4 <? len) with true by lia. rewrite (packet_ok a b c Ha Hb Hc). destruct (split4 hole 4) as (h1 & h2 & -> & H1); [lia|lia|]. rewrite zlen_app in Hh.
    rewrite <- app_assoc. rewrite mem_put_ok by (rewrite H1; reflexivity). cbn [opt_res bind]. rewrite app_assoc. replace (zlen pre + 4) with (zlen (pre ++ base64 [a; b; c])) by (rewrite zlen_app; reflexivity).
    rewrite IH; [rewrite <- !app_assoc; reflexivity|exact Hr|lia|rewrite zlen_app in Hl; lia].
Qed.
Lemma encode_short bs : bytes_ok bs -> bs <> [] -> forall pre hole post, zlen hole <= zlen (base64 bs) ->
  exists hole', to_base64 (pre ++ hole ++ post) (zlen pre) (zlen hole) bs = Ok (false, pre ++ hole' ++ post) /\ zlen hole' = zlen hole.
Proof.
  induction bs as [|a|a b|a b c r IH] using list3_ind; intros Hb Hn pre hole post Hh.
  - congruence.
  - cbn [to_base64]. change (zlen (base64 [a])) with 4 in Hh. replace (zlen hole <? 5) with true by lia. eauto.
  - cbn [to_base64]. change (zlen (base64 [a; b])) with 4 in Hh. replace (zlen hole <? 5) with true by lia. eauto.
  - apply Forall_cons_iff in Hb. destruct Hb as [Ha Hb]. apply Forall_cons_iff in Hb. destruct Hb as [Hb Hc]. apply Forall_cons_iff in Hc. destruct Hc as [Hc Hr]. rewrite base64_more in *. rewrite zlen_app in Hh. change (zlen (base64 [a; b; c])) with 4 in Hh.
    rewrite to64_3. destruct (4 <? zlen hole) eqn:E; [|eauto]. rewrite (packet_ok a b c Ha Hb Hc). destruct (split4 hole 4) as (h1 & h2 & -> & H1); [lia|lia|]. rewrite zlen_app in *.
    rewrite <- app_assoc. rewrite mem_put_ok by (rewrite H1; reflexivity). cbn [opt_res bind]. rewrite app_assoc. replace (zlen pre + 4) with (zlen (pre ++ base64 [a; b; c])) by (rewrite zlen_app; reflexivity).
    replace (zlen h1 + zlen h2 - 4) with (zlen h2) by lia. destruct r as [|x r]; [change (zlen (base64 [])) with 0 in Hh; lia|].
    destruct (IH Hr ltac:(discriminate) (pre ++ base64 [a; b; c]) h2 post ltac:(lia)) as (h' & H' & L'). exists (base64 [a; b; c] ++ h'). split; [rewrite H', <- !app_assoc; reflexivity|]. rewrite zlen_app. change (zlen (base64 [a; b; c])) with 4. lia.
Qed.

(** Decoding. *)
Definition put1 (s : list Z * list Z) (b : Z) : list Z * list Z := match snd s with [] => s | _ :: h => (fst s ++ [b], h) end.
Lemma puts_all bs : forall pre hole, fold_left put1 bs (pre, hole) = (pre ++ firstn (length hole) bs, skipn (length bs) hole).
Proof.
  induction bs as [|b bs IH]; intros pre hole; cbn [fold_left]; [rewrite firstn_nil, app_nil_r; reflexivity|]. destruct hole as [|h hole]; unfold put1 at 2; cbn [fst snd].
  - rewrite IH. cbn [length firstn skipn]. rewrite skipn_nil. reflexivity.
  - rewrite IH. cbn [length firstn skipn]. rewrite <- app_assoc. reflexivity.
Qed.
Definition next (v k : Z) : Z := u64 (u64 (Z.shiftl v 6) + k).
Lemma next_ok v k : 0 <= v < 2 ^ 64 -> 0 <= k < 64 -> next v k = (v * 64 + k) mod 2 ^ 64.
Proof. intros Hv Hk. unfold next, u64. rewrite shl by lia. change (2 ^ 6) with 64. rewrite Zplus_mod_idemp_l. reflexivity. Qed.
Lemma sextet_ok k : 0 <= k < 64 -> (sextet k =? 0) = false /\ (sextet k =? 61) = false /\ (sextet k <? 43) = false /\ (43 + 80 <=? sextet k) = false /\ nth (Z.to_nat (sextet k - 43)) base64_tab 128 = k.
Proof.
  intros H. assert (A : forallb (fun n => let c := sextet (Z.of_nat n) in negb (c =? 0) && negb (c =? 61) && negb (c <? 43) && negb (43 + 80 <=? c) && (nth (Z.to_nat (c - 43)) base64_tab 128 =? Z.of_nat n)) (seq 0 64) = true) by (vm_compute; reflexivity).
  rewrite forallb_forall in A. specialize (A (Z.to_nat k) ltac:(apply in_seq; lia)). rewrite Z2Nat.id in A by lia. cbv zeta in A. rewrite !andb_true_iff, !negb_true_iff in A. rewrite Z.eqb_eq in A. tauto.
Qed.
Lemma loop_step k r n v pre hole post : 0 <= k < 64 ->
  base64_loop (sextet k :: r) n v (pre ++ hole ++ post) (zlen pre) (zlen hole) =
  let s := if n mod 4 =? 0 then (pre, hole) else put1 (pre, hole) (u8 (Z.shiftr (next v k) (6 - n mod 4 * 2))) in
  base64_loop r (n + 1) (next v k) (fst s ++ snd s ++ post) (zlen (fst s)) (zlen (snd s)).
Proof.
  intros Hk. destruct (sextet_ok k Hk) as (E1 & E2 & E3 & E4 & E5). cbn [base64_loop]. rewrite E1, E2, E3, E4, E5. replace (k =? 128) with false by lia. cbn [orb]. cbv zeta. rewrite land_3. fold (next v k).
  destruct (n mod 4 =? 0) eqn:E; cbn [negb andb fst snd]; [reflexivity|]. destruct hole as [|h hole]; cbn [put1 fst snd].
  - reflexivity.
  - rewrite zlen_cons. pose proof (zlen_nonneg hole). replace (0 <? zlen hole + 1) with true by lia. change ((h :: hole) ++ post) with ([h] ++ hole ++ post). rewrite mem_put_ok by reflexivity. cbn [opt_res bind].
    rewrite <- app_assoc, zlen_app. change (zlen [u8 (Z.shiftr (next v k) (6 - n mod 4 * 2))]) with 1. replace (zlen hole + 1 - 1) with (zlen hole) by lia. reflexivity.
Qed.
Lemma next_range v k : 0 <= v < 2 ^ 64 -> 0 <= k < 64 -> 0 <= next v k < 2 ^ 64.
Proof. intros. rewrite next_ok by assumption. apply Z.mod_pos_bound. lia. Qed.
Lemma byte_1 v s0 s1 : 0 <= v < 2 ^ 64 -> 0 <= s0 < 64 -> 0 <= s1 < 64 -> u8 (Z.shiftr (next (next v s0) s1) 4) = (s0 * 64 + s1) / 16 mod 256.
Proof.
  intros Hv H0 H1. pose proof (next_range v s0 Hv H0) as R. rewrite (next_ok (next v s0)) by assumption. rewrite (next_ok v) by assumption. unfold u8. rewrite shr by lia. change (2 ^ 4) with 16. change (2 ^ 64) with 18446744073709551616 in *. lia.
Qed.
Lemma byte_2 v s1 s2 : 0 <= v < 2 ^ 64 -> 0 <= s1 < 64 -> 0 <= s2 < 64 -> u8 (Z.shiftr (next (next v s1) s2) 2) = (s1 * 64 + s2) / 4 mod 256.
Proof.
  intros Hv H0 H1. pose proof (next_range v s1 Hv H0) as R. rewrite (next_ok (next v s1)) by assumption. rewrite (next_ok v) by assumption. unfold u8. rewrite shr by lia. change (2 ^ 2) with 4. change (2 ^ 64) with 18446744073709551616 in *. lia.
Qed.
Lemma byte_3 v s2 s3 : 0 <= v < 2 ^ 64 -> 0 <= s2 < 64 -> 0 <= s3 < 64 -> u8 (Z.shiftr (next (next v s2) s3) 0) = (s2 * 64 + s3) mod 256.
Proof.
  intros Hv H0 H1. pose proof (next_range v s2 Hv H0) as R. rewrite (next_ok (next v s2)) by assumption. rewrite (next_ok v) by assumption. unfold u8. rewrite shr by lia. change (2 ^ 0) with 1. change (2 ^ 64) with 18446744073709551616 in *. lia.
Qed.
Lemma loop_stop rest n v out pos size : base64_ends rest -> base64_loop rest n v out pos size = Ok (rest, out, pos).
Proof.
  intros (c & r & -> & Hc & H61). cbn [base64_loop]. destruct (c =? 0); [reflexivity|]. replace (c =? 61) with false by lia.
  destruct ((c <? 43) || (43 + 80 <=? c)) eqn:E; [reflexivity|]. cbn [orb].
  assert (A : forallb (fun n => existsb (Z.eqb (Z.of_nat n + 43)) alphabet || (nth n base64_tab 128 =? 128)) (seq 0 80) = true) by (vm_compute; reflexivity).
  rewrite forallb_forall in A. specialize (A (Z.to_nat (c - 43)) ltac:(apply in_seq; lia)). rewrite Z2Nat.id in A by lia. apply orb_true_iff in A. destruct A as [A| ->]; [|reflexivity].
  apply existsb_exists in A. destruct A as (x & Hx & Ex). apply Z.eqb_eq in Ex. elim Hc. replace c with x by lia. exact Hx.
Qed.
Lemma skip_ok61 m rest : base64_ends rest -> skip_char 61 (repeat 61 m ++ rest) = Ok rest.
Proof. intros (c & r & -> & _ & H). induction m as [|m IH]; cbn [repeat app skip_char]; [replace (c =? 61) with false by lia; reflexivity|exact IH]. Qed.
Lemma loop_pad m rest n v out pos size : base64_ends rest -> base64_loop (61 :: repeat 61 m ++ rest) n v out pos size = Ok (rest, out, pos).
Proof. intros H. cbn [base64_loop]. change (61 =? 0) with false. change (61 =? 61) with true. cbv iota. change (61 :: repeat 61 m ++ rest) with (repeat 61 (S m) ++ rest). rewrite skip_ok61 by exact H. reflexivity. Qed.
Lemma mod4 n : n mod 4 = 0 -> (n + 1) mod 4 = 1 /\ (n + 1 + 1) mod 4 = 2 /\ (n + 1 + 1 + 1) mod 4 = 3 /\ (n + 1 + 1 + 1 + 1) mod 4 = 0.
Proof. lia. Qed.
Lemma decode_loop bs rest post : bytes_ok bs -> base64_ends rest -> forall n v pre hole, n mod 4 = 0 -> 0 <= v < 2 ^ 64 ->
  base64_loop (base64 bs ++ rest) n v (pre ++ hole ++ post) (zlen pre) (zlen hole) =
  let s := fold_left put1 bs (pre, hole) in Ok (rest, fst s ++ snd s ++ post, zlen (fst s)).
Proof.
  intros Hb He. induction bs as [|a|a b|a b c r IH] using list3_ind; intros n v pre hole Hn Hv; destruct (mod4 n Hn) as (N1 & N2 & N3 & N4).
  - cbn [base64 app fold_left fst snd]. apply loop_stop. exact He.
  - apply Forall_cons_iff in Hb. destruct Hb as [Ha _]. unfold is_byte in Ha. cbn [base64 app]. set (s0 := a * 2 ^ 16 / 2 ^ 18). set (s1 := a * 2 ^ 16 / 2 ^ 12 mod 64). assert (S0 : 0 <= s0 < 64) by (unfold s0; lia). assert (S1 : 0 <= s1 < 64) by (unfold s1; lia).
    rewrite loop_step by exact S0. rewrite Hn. cbn [Z.eqb fst snd]. cbv zeta. rewrite loop_step by exact S1. rewrite N1. change (1 =? 0) with false. cbv iota zeta. change (6 - 1 * 2) with 4. rewrite byte_1 by assumption.
    replace ((s0 * 64 + s1) / 16 mod 256) with a by (unfold s0, s1; lia). rewrite (loop_pad 1 rest) by exact He. reflexivity.
  - apply Forall_cons_iff in Hb. destruct Hb as [Ha Hb]. apply Forall_cons_iff in Hb. destruct Hb as [Hb _]. unfold is_byte in *. cbn [base64 app]. set (N := a * 2 ^ 16 + b * 2 ^ 8). set (s0 := N / 2 ^ 18). set (s1 := N / 2 ^ 12 mod 64). set (s2 := N / 2 ^ 6 mod 64).
    assert (S0 : 0 <= s0 < 64) by (unfold s0, N; lia). assert (S1 : 0 <= s1 < 64) by (unfold s1; lia). assert (S2 : 0 <= s2 < 64) by (unfold s2; lia).
    rewrite loop_step by exact S0. rewrite Hn. cbn [Z.eqb fst snd]. cbv zeta. rewrite loop_step by exact S1. rewrite N1. change (1 =? 0) with false. cbv iota zeta. change (6 - 1 * 2) with 4. rewrite byte_1 by assumption.
    replace ((s0 * 64 + s1) / 16 mod 256) with a by (unfold s0, s1, N; lia). rewrite loop_step by exact S2. rewrite N2. change (2 =? 0) with false. cbv iota zeta. change (6 - 2 * 2) with 2.
    rewrite byte_2 by (try assumption; apply next_range; assumption). replace ((s1 * 64 + s2) / 4 mod 256) with b by (unfold s1, s2, N; lia). rewrite (loop_pad 0 rest) by exact He. rewrite <- surjective_pairing. reflexivity.
  - apply Forall_cons_iff in Hb. destruct Hb as [Ha Hb]. apply Forall_cons_iff in Hb. destruct Hb as [Hb Hc]. apply Forall_cons_iff in Hc. destruct Hc as [Hc Hr]. unfold is_byte in *. cbn [base64 app]. set (N := a * 2 ^ 16 + b * 2 ^ 8 + c).
    set (s0 := N / 2 ^ 18). set (s1 := N / 2 ^ 12 mod 64). set (s2 := N / 2 ^ 6 mod 64). set (s3 := N mod 64).
    assert (S0 : 0 <= s0 < 64) by (unfold s0, N; lia). assert (S1 : 0 <= s1 < 64) by (unfold s1; lia). assert (S2 : 0 <= s2 < 64) by (unfold s2; lia). assert (S3 : 0 <= s3 < 64) by (unfold s3; lia).
    rewrite loop_step by exact S0. rewrite Hn. cbn [Z.eqb fst snd]. cbv zeta. rewrite loop_step by exact S1. rewrite N1. change (1 =? 0) with false. cbv iota zeta. change (6 - 1 * 2) with 4. rewrite byte_1 by assumption.
    replace ((s0 * 64 + s1) / 16 mod 256) with a by (unfold s0, s1, N; lia). rewrite loop_step by exact S2. rewrite N2. change (2 =? 0) with false. cbv iota zeta. change (6 - 2 * 2) with 2.
    assert (R1 := next_range v s0 Hv S0). assert (R2 := next_range _ s1 R1 S1). assert (R3 := next_range _ s2 R2 S2). assert (R4 := next_range _ s3 R3 S3).
    rewrite byte_2 by assumption. replace ((s1 * 64 + s2) / 4 mod 256) with b by (unfold s1, s2, N; lia). rewrite <- surjective_pairing. rewrite loop_step by exact S3. rewrite N3. change (3 =? 0) with false. cbv iota zeta. change (6 - 3 * 2) with 0.
    rewrite byte_3 by assumption. replace ((s2 * 64 + s3) mod 256) with c by (unfold s2, s3, N; lia). rewrite <- surjective_pairing. rewrite IH by assumption. cbn [fold_left]. cbv zeta. rewrite <- surjective_pairing. reflexivity.
Qed.
Lemma skip_blank ws l : Forall space_char ws -> match l with c :: _ => ~ space_char c | [] => False end -> expr_skip_space (ws ++ l) = Ok l.
Proof.
  intros Hw Hl. induction Hw as [|c ws Hc _ IH]; cbn [app expr_skip_space].
  - destruct l as [|c l]; [contradiction|]. cbn [expr_skip_space]. rewrite space_is in Hl. apply Bool.not_true_is_false in Hl. rewrite Hl. reflexivity.
  - apply space_is in Hc. rewrite Hc. exact IH.
Qed.
Lemma skip_any s t : Forall (fun b => b <> 0) s -> exists s', expr_skip_space (s ++ 0 :: t) = Ok (s' ++ 0 :: t) /\ Forall (fun b => b <> 0) s'.
Proof.
  induction 1 as [|c s Hc Hs IH]; cbn [app expr_skip_space]; [exists []; auto|]. destruct (is_space c); [exact IH|]. exists (c :: s). split; [reflexivity|constructor; assumption].
Qed.
Lemma skip_char_any ch s t : ch <> 0 -> Forall (fun b => b <> 0) s -> exists s', skip_char ch (s ++ 0 :: t) = Ok (s' ++ 0 :: t) /\ Forall (fun b => b <> 0) s'.
Proof.
  intros Hn. induction 1 as [|c s Hc Hs IH]; cbn [app skip_char]; [replace (0 =? ch) with false by lia; exists []; auto|]. destruct (c =? ch); [exact IH|]. exists (c :: s). split; [reflexivity|constructor; assumption].
Qed.
Lemma loop_safe s t : Forall (fun b => b <> 0) s -> forall n v pre hole post, exists s' o k, base64_loop (s ++ 0 :: t) n v (pre ++ hole ++ post) (zlen pre) (zlen hole) = Ok (s' ++ 0 :: t, pre ++ o ++ post, zlen pre + k) /\
  Forall (fun b => b <> 0) s' /\ zlen o = zlen hole /\ 0 <= k <= zlen hole.
Proof.
  induction 1 as [|c s Hc Hs IH]; intros n v pre hole post; pose proof (zlen_nonneg hole).
  - cbn [app base64_loop]. change (0 =? 0) with true. cbv iota. exists [], hole, 0. rewrite Z.add_0_r. cbn [app]. repeat split; try lia; constructor.
  - cbn [app base64_loop]. replace (c =? 0) with false by lia. destruct (c =? 61) eqn:E.
    + destruct (skip_char_any 61 (c :: s) t) as (s' & E' & F); [lia|constructor; assumption|]. cbn [app] in E'. rewrite E'. cbn [bind]. exists s', hole, 0. rewrite Z.add_0_r. repeat split; try lia. exact F.
    + destruct ((c <? 43) || (43 + 80 <=? c) || (nth (Z.to_nat (c - 43)) base64_tab 128 =? 128)). { exists (c :: s), hole, 0. rewrite Z.add_0_r. repeat split; try lia. constructor; assumption. }
      cbv zeta. destruct (negb (Z.land n 3 =? 0) && (0 <? zlen hole)) eqn:G; [|apply IH]. destruct hole as [|h hole]; [change (zlen (@nil Z)) with 0 in G; rewrite andb_false_r in G; discriminate|].
      set (b := u8 _). change ((h :: hole) ++ post) with ([h] ++ hole ++ post). rewrite mem_put_ok by reflexivity. cbn [opt_res bind]. rewrite app_assoc. replace (zlen pre + 1) with (zlen (pre ++ [b])) by (rewrite zlen_app; reflexivity).
      rewrite zlen_cons. replace (zlen hole + 1 - 1) with (zlen hole) by lia. destruct (IH (n + 1) (u64 (u64 (Z.shiftl v 6) + nth (Z.to_nat (c - 43)) base64_tab 128)) (pre ++ [b]) hole post) as (s' & o & k & E1 & F & L & K).
      exists s', ([b] ++ o), (k + 1). split; [rewrite E1, zlen_app; change (zlen [b]) with 1; rewrite <- !app_assoc; do 2 f_equal; lia|]. split; [exact F|]. rewrite zlen_app. change (zlen [b]) with 1. lia.
Qed.
