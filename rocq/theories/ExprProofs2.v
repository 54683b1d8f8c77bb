(** Proofs about numbers and fractions in text. *)
From Verif Require Import Base BaseProofs Tree Arr ArrProofs2 Str StrSpec StrProofs StrProofs3 Printf PrintfSpec PrintfProofs Scan ScanSpec ScanProofs ScanProofs2 Expr ExprSpec ExprProofs.

Lemma chk64_ok v : - 2 ^ 63 <= v < 2 ^ 63 -> chk64 v = Ok v.
Proof. intros H. unfold chk64. replace ((- 2 ^ 63 <=? v) && (v <? 2 ^ 63)) with true by lia. reflexivity. Qed.
Lemma chk64_bad v : v < - 2 ^ 63 \/ 2 ^ 63 <= v -> chk64 v = Bad.
Proof. intros H. unfold chk64. replace ((- 2 ^ 63 <=? v) && (v <? 2 ^ 63)) with false by lia. reflexivity. Qed.
Lemma num_stop base rest v n : known base -> no_digit base rest -> num_loop base rest v n = Ok (v, n, rest).
Proof. intros K (c & r & -> & H). cbn [num_loop]. rewrite (digit_val_none base c K H). reflexivity. Qed.
Lemma num_ok base rest : known base -> no_digit base rest -> forall cs ds v n, digits_of base cs ds -> 0 <= v -> fold_left (fun a d => a * base + d) ds v < 2 ^ 63 ->
  num_loop base (cs ++ rest) v n = Ok (fold_left (fun a d => a * base + d) ds v, n + zlen cs, rest).
Proof.
  intros K Hr. assert (Hb : 1 < base) by (destruct K as [->|[->| ->]]; lia). induction cs as [|c cs IH]; intros ds v n D Hv F; inversion D as [|? d ? ds' Hd D']; subst.
  - cbn [app fold_left]. rewrite num_stop by assumption. change (zlen (@nil Z)) with 0. rewrite Z.add_0_r. reflexivity.
  - destruct (digit_val_of base c d K Hd) as (E1 & E2 & _). cbn [app num_loop fold_left] in *. rewrite E1. replace (d <? 0) with false by lia.
    assert (V : 0 <= v * base + d) by nia. pose proof (fold_ge base ds' Hb (digits_nonneg base K _ _ D') _ V). rewrite chk64_ok by lia. cbn [bind]. rewrite (IH ds') by assumption. rewrite zlen_cons. do 2 f_equal. f_equal. lia.
Qed.
Lemma value_nonneg base cs ds : known base -> digits_of base cs ds -> 0 <= value base ds.
Proof. intros K D. unfold value. assert (Hb : 1 < base) by (destruct K as [->|[->| ->]]; lia). apply (fold_ge base ds Hb (digits_nonneg base K _ _ D) 0). lia. Qed.
Lemma digit_char_cases base c d : known base -> digit_of base c d -> (c =? 45) = false /\ (c =? 43) = false.
Proof. intros K H. destruct H; lia. Qed.
Lemma sign_ok base sg neg cs ds rest : known base -> signed_text sg neg -> digits_of base cs ds -> cs <> [] -> sign_of (sg ++ cs ++ rest) = Ok (neg, cs ++ rest).
Proof.
  intros K S D N. destruct D as [|c d cs ds Hd D]; [congruence|]. destruct (digit_char_cases base c d K Hd) as [E1 E2]. unfold sign_of.
  destruct S as [[-> ->]|[[->| ->] ->]]; cbn [app cur bind]; [reflexivity|rewrite E1, E2; reflexivity|reflexivity].
Qed.
Lemma int_ok sg neg cs ds rest : signed_text sg neg -> digits_of 10 cs ds -> cs <> [] -> value 10 ds < 2 ^ 63 -> no_digit 10 rest ->
  is_int (sg ++ cs ++ rest) = Ok (Some (signed neg (value 10 ds), rest)).
Proof.
  intros S D N V R. assert (K : known 10) by (right; left; reflexivity). unfold is_int. rewrite (sign_ok 10 sg neg cs ds rest K S D N). cbn [bind fst snd].
  rewrite (num_ok 10 rest K R cs ds 0 0 D ltac:(lia) V). cbn [bind]. fold (value 10 ds). pose proof (value_nonneg 10 cs ds K D). rewrite Z.add_0_l. destruct cs as [|c cs]; [congruence|]. rewrite zlen_cons. pose proof (zlen_nonneg cs).
  replace (zlen cs + 1 =? 0) with false by lia. destruct neg; cbn [signed]; [rewrite chk64_ok by lia|]; reflexivity.
Qed.
Lemma int_none l sg neg : signed_text sg neg -> no_digit 10 l -> (neg = false -> sg = [] -> match l with c :: _ => c <> 45 /\ c <> 43 | [] => True end) -> is_int (sg ++ l) = Ok None.
Proof.
  intros S R H. assert (K : known 10) by (right; left; reflexivity). unfold is_int, sign_of. assert (E : (do c <- cur (sg ++ l); Ok (c =? 45, if (c =? 45) || (c =? 43) then tl (sg ++ l) else sg ++ l)) = Ok (neg, l)).
  { destruct S as [[-> ->]|[[->| ->] ->]]; cbn [app cur bind tl]; [reflexivity| |reflexivity]. destruct R as (c & r & -> & _). specialize (H eq_refl eq_refl). cbn [cur bind]. replace (c =? 45) with false by lia. replace (c =? 43) with false by lia. reflexivity. }
  rewrite E. cbn [bind fst snd]. rewrite num_stop by assumption. reflexivity.
Qed.
Lemma fixed_ok rest : forall cs ds v, digits_of 10 cs ds -> 0 <= v -> fold_left (fun a d => a * 10 + d) ds v < 2 ^ 63 -> fixed_loop (length cs) (cs ++ rest) v = Ok (Some (fold_left (fun a d => a * 10 + d) ds v, rest)).
Proof.
  assert (K : known 10) by (right; left; reflexivity). induction cs as [|c cs IH]; intros ds v D Hv F; inversion D as [|? d ? ds' Hd D']; subst; [reflexivity|]. destruct (digit_val_of 10 c d K Hd) as (E1 & E2 & _). unfold digit_val in E1. change (10 =? 16) with false in E1. change (10 =? 10) with true in E1. cbv iota in E1.
  cbn [length app fixed_loop cur bind fold_left tl] in *. destruct (is_digit c); [|lia]. assert (V : 0 <= v * 10 + d) by lia. pose proof (fold_ge 10 ds' ltac:(lia) (digits_nonneg 10 K _ _ D') _ V). rewrite E1, chk64_ok by lia. cbn [bind]. apply IH; assumption.
Qed.
Lemma fixed_short rest : forall cs ds k v, digits_of 10 cs ds -> 0 <= v -> fold_left (fun a d => a * 10 + d) ds v < 2 ^ 63 -> (length cs < k)%nat -> no_digit 10 rest -> fixed_loop k (cs ++ rest) v = Ok None.
Proof.
  assert (K : known 10) by (right; left; reflexivity). induction cs as [|c cs IH]; intros ds k v D Hv F Hk R; inversion D as [|? d ? ds' Hd D']; subst; (destruct k as [|k]; [cbn [length] in Hk; lia|]).
  - destruct R as (c & r & -> & H). cbn [app fixed_loop cur bind]. pose proof (digit_val_none 10 c K H) as E. unfold digit_val in E. change (10 =? 16) with false in E. change (10 =? 10) with true in E. cbv iota in E. destruct (is_digit c) eqn:Ed; [|reflexivity]. unfold is_digit in Ed. lia.
  - destruct (digit_val_of 10 c d K Hd) as (E1 & E2 & _). unfold digit_val in E1. change (10 =? 16) with false in E1. change (10 =? 10) with true in E1. cbv iota in E1.
    cbn [length app fixed_loop cur bind fold_left tl] in *. destruct (is_digit c); [|lia]. assert (V : 0 <= v * 10 + d) by lia. pose proof (fold_ge 10 ds' ltac:(lia) (digits_nonneg 10 K _ _ D') _ V). rewrite E1, chk64_ok by lia. cbn [bind]. apply (IH ds'); try assumption. lia.
Qed.
Lemma int_ex_ok sg neg cs ds rest : signed_text sg neg -> digits_of 10 cs ds -> cs <> [] -> value 10 ds < 2 ^ 63 -> is_int_ex (length cs) (sg ++ cs ++ rest) = Ok (Some (signed neg (value 10 ds), rest)).
Proof.
  intros S D N V. assert (K : known 10) by (right; left; reflexivity). unfold is_int_ex. rewrite (sign_ok 10 sg neg cs ds rest K S D N). cbn [bind fst snd]. rewrite (fixed_ok rest cs ds 0 D ltac:(lia) V). cbn [bind]. fold (value 10 ds).
  pose proof (value_nonneg 10 cs ds K D). destruct neg; cbn [signed]; [rewrite chk64_ok by lia|]; reflexivity.
Qed.
Lemma int_ex_short sg neg cs ds rest k : signed_text sg neg -> digits_of 10 cs ds -> cs <> [] -> value 10 ds < 2 ^ 63 -> (length cs < k)%nat -> no_digit 10 rest -> is_int_ex k (sg ++ cs ++ rest) = Ok None.
Proof.
  intros S D N V L R. assert (K : known 10) by (right; left; reflexivity). unfold is_int_ex. rewrite (sign_ok 10 sg neg cs ds rest K S D N). cbn [bind fst snd]. rewrite (fixed_short rest cs ds k 0 D) by (assumption || lia). reflexivity.
Qed.
Lemma hex_ok sg neg cs ds rest : signed_text sg neg -> digits_of 16 cs ds -> cs <> [] -> value 16 ds < 2 ^ 63 -> no_digit 16 rest -> is_hex (sg ++ [48; 120] ++ cs ++ rest) = Ok (Some (signed neg (value 16 ds), rest)).
Proof.
  intros S D N V R. assert (K : known 16) by (right; right; reflexivity). unfold is_hex, sign_of. pose proof (value_nonneg 16 cs ds K D).
  assert (E : (do c <- cur (sg ++ [48; 120] ++ cs ++ rest); Ok (c =? 45, if (c =? 45) || (c =? 43) then tl (sg ++ [48; 120] ++ cs ++ rest) else sg ++ [48; 120] ++ cs ++ rest)) = Ok (neg, 48 :: 120 :: cs ++ rest)).
  { destruct S as [[-> ->]|[[->| ->] ->]]; reflexivity. }
  rewrite E. cbn [bind fst snd cur tl]. change (48 =? 48) with true. change (120 =? 120) with true. cbv iota. unfold read_hex. rewrite (num_ok 16 rest K R cs ds 0 0 D ltac:(lia) V). cbn [bind]. fold (value 16 ds). destruct cs as [|c cs]; [congruence|]. rewrite zlen_cons. pose proof (zlen_nonneg cs).
  replace (0 + (zlen cs + 1) =? 0) with false by lia. destruct neg; cbn [signed]; [rewrite chk64_ok by lia|]; reflexivity.
Qed.
Lemma be32 r g b a : is_byte r -> is_byte g -> is_byte b -> is_byte a -> forall be, int32be be (((r * 256 + g) * 256 + b) * 256 + a) = colour be r g b a.
Proof. unfold is_byte. intros Hr Hg Hb Ha [|]; [reflexivity|]. unfold int32be, colour. change (256 ^ 0) with 1. change (256 ^ 1) with 256. change (256 ^ 2) with 65536. change (256 ^ 3) with 16777216. lia. Qed.
Lemma rgb_ok be cs ds rest r g b : digits_of 16 cs ds -> zlen cs = 6 -> is_byte r -> is_byte g -> is_byte b -> value 16 ds = (r * 256 + g) * 256 + b -> no_digit 16 rest -> is_rgb be (35 :: cs ++ rest) = Ok (Some (colour be r g b 0, rest)).
Proof.
  intros D L Hr Hg Hb V R. assert (K : known 16) by (right; right; reflexivity). unfold is_rgb. cbn [cur bind tl]. change (35 =? 35) with true. cbv iota. unfold read_hex. unfold is_byte in *. unfold value in V.
  rewrite (num_ok 16 rest K R cs ds 0 0 D ltac:(lia)) by (rewrite V; lia). rewrite V, L. cbn [bind]. change (0 + 6 =? 0) with false. change (0 + 6 <=? 6) with true. cbv iota. rewrite chk64_ok by lia. cbn [bind].
  rewrite <- (be32 r g b 0) by (unfold is_byte; lia). rewrite Z.add_0_r. reflexivity.
Qed.
Lemma rgba_ok be cs ds rest r g b a : digits_of 16 cs ds -> zlen cs = 8 -> is_byte r -> is_byte g -> is_byte b -> is_byte a -> value 16 ds = ((r * 256 + g) * 256 + b) * 256 + a -> no_digit 16 rest -> is_rgb be (35 :: cs ++ rest) = Ok (Some (colour be r g b a, rest)).
Proof.
  intros D L Hr Hg Hb Ha V R. assert (K : known 16) by (right; right; reflexivity). unfold is_rgb. cbn [cur bind tl]. change (35 =? 35) with true. cbv iota. unfold read_hex. unfold is_byte in *. unfold value in V.
  rewrite (num_ok 16 rest K R cs ds 0 0 D ltac:(lia)) by (rewrite V; lia). rewrite V, L. cbn [bind]. change (0 + 8 =? 0) with false. change (0 + 8 <=? 6) with false. cbv iota. cbn [bind].
  rewrite <- (be32 r g b a) by (unfold is_byte; lia). reflexivity.
Qed.

(** Words. *)
Lemma tcschr_in delim c t : Forall (fun b => b <> 0) delim -> c <> 0 -> In c delim -> exists r, tcschr (delim ++ 0 :: t) c = Ok (Some r).
Proof.
  induction 1 as [|d delim Hd _ IH]; intros Hc [].
  - subst d. cbn [app tcschr]. rewrite Z.eqb_refl. eauto.
  - destruct (IH Hc H) as (r & E). cbn [app tcschr]. destruct (Z.eqb_spec d c); [eauto|]. replace (d =? 0) with false by lia. rewrite E. eauto.
Qed.
Lemma tcschr_out delim c t : Forall (fun b => b <> 0) delim -> c <> 0 -> ~ In c delim -> tcschr (delim ++ 0 :: t) c = Ok None.
Proof.
  induction 1 as [|d delim Hd _ IH]; intros Hc Hn; cbn [app tcschr].
  - replace (0 =? c) with false by lia. reflexivity.
  - destruct (Z.eqb_spec d c) as [->|]; [elim Hn; left; reflexivity|]. replace (d =? 0) with false by lia. apply IH; [exact Hc|]. intros Hi. apply Hn. right. exact Hi.
Qed.

Lemma name_ok delim dt rest : Forall (fun b => b <> 0) delim -> word_ends delim rest -> forall w pre hole len found, Forall (word_char delim) w -> 1 <= len <= zlen hole ->
  exists hole', zlen hole' = zlen hole - zlen (fit len w) /\ skipn (Z.to_nat (len - zlen (fit len w))) hole' = skipn (Z.to_nat len) hole /\
  name_loop (w ++ rest) (pre ++ hole) (zlen pre) len (delim ++ 0 :: dt) found = Ok (found || (0 <? zlen (fit len w)), rest, pre ++ fit len w ++ hole', zlen pre + zlen (fit len w), len - zlen (fit len w)).
Proof.
  intros Hd (e & er & -> & He). induction w as [|c w IH]; intros pre hole len found Hw Hl.
  - exists hole. assert (F : fit len (@nil Z) = []) by (unfold fit; apply firstn_nil). rewrite F. change (zlen (@nil Z)) with 0. rewrite !Z.sub_0_r, Z.add_0_r. split; [reflexivity|]. split; [reflexivity|]. cbn [app name_loop]. change (0 <? 0) with false. rewrite Bool.orb_false_r.
    destruct (Z.eqb_spec e 0) as [->|E0]; [reflexivity|]. destruct (is_space e) eqn:Es; [reflexivity|]. cbn [orb]. destruct He as [He|[He|He]]; [contradiction|apply space_is in He; congruence|]. destruct (tcschr_in delim e dt Hd E0 He) as (r & ->). reflexivity.
  - apply Forall_cons_iff in Hw. destruct Hw as [(C1 & C2 & C3) Hw]. cbn [app name_loop]. replace (c =? 0) with false by lia. rewrite space_is in C2. apply Bool.not_true_is_false in C2. rewrite C2. cbn [orb]. rewrite (tcschr_out delim c dt Hd ltac:(lia) C3). cbn [bind].
    destruct (Z.ltb_spec 1 len) as [L|L].
    + destruct hole as [|h hole]; [change (zlen (@nil Z)) with 0 in Hl; lia|]. rewrite zlen_cons in Hl. change (pre ++ h :: hole) with (pre ++ [h] ++ hole). rewrite (mem_put_ok pre [h] hole [c]) by reflexivity. cbn [opt_res bind].
      destruct (IH (pre ++ [c]) hole (len - 1) true Hw ltac:(lia)) as (hole' & Z1 & Z2 & E). rewrite zlen_app in E. change (zlen [c]) with 1 in E. rewrite <- !app_assoc in E. cbn [app] in E |- *. rewrite E.
      assert (F : fit len (c :: w) = c :: fit (len - 1) w). { unfold fit. replace (Z.to_nat (len - 1)) with (S (Z.to_nat (len - 1 - 1))) by lia. reflexivity. }
      rewrite F, !zlen_cons. exists hole'. pose proof (zlen_nonneg (fit (len - 1) w)). split; [lia|]. split; [replace (len - (zlen (fit (len - 1) w) + 1)) with (len - 1 - zlen (fit (len - 1) w)) by lia; rewrite Z2; replace (Z.to_nat len) with (S (Z.to_nat (len - 1))) by lia; reflexivity|].
      replace (0 <? zlen (fit (len - 1) w) + 1) with true by lia. rewrite Bool.orb_true_r. cbn [orb app]. replace (zlen pre + 1 + zlen (fit (len - 1) w)) with (zlen pre + (zlen (fit (len - 1) w) + 1)) by lia. replace (len - 1 - zlen (fit (len - 1) w)) with (len - (zlen (fit (len - 1) w) + 1)) by lia. reflexivity.
    + destruct (IH pre hole len found Hw Hl) as (hole' & Z1 & Z2 & E). assert (F : forall x, fit len x = []). { intros x. unfold fit. replace (Z.to_nat (len - 1)) with 0%nat by lia. reflexivity. }
      rewrite F in *. exists hole'. split; [exact Z1|]. split; [exact Z2|exact E].
Qed.
Lemma is_name_ok ws w rest out len delim dt : Forall space_char ws -> Forall (fun b => b <> 0) delim -> word_ends delim rest -> Forall (word_char delim) w -> w <> [] -> 1 <= len <= zlen out ->
  exists o, is_name (ws ++ w ++ rest) out len (delim ++ 0 :: dt) = Ok (1 <? len, rest, o) /\ holds o (fit len w) /\ zlen o = zlen out /\ skipn (Z.to_nat len) o = skipn (Z.to_nat len) out.
Proof.
  intros Hs Hd Hr Hw Hn Hl. destruct (name_ok delim dt rest Hd Hr w [] out len false Hw Hl) as (hole' & Z1 & Z2 & E). unfold is_name. destruct w as [|c w]; [congruence|].
  rewrite skip_blank; [|exact Hs|cbn [app]; apply Forall_cons_iff in Hw; destruct Hw as [(C1 & C2 & C3) _]; exact C2]. cbn [bind]. cbn [app] in E. cbn [app]. change (zlen (@nil Z)) with 0 in E. rewrite E. cbn [bind]. rewrite Z.add_0_l.
  set (f := fit len (c :: w)) in *. pose proof (zlen_fit len (c :: w) ltac:(lia)) as F. fold f in F. pose proof (zlen_nonneg f). rewrite zlen_cons in F. pose proof (zlen_nonneg w).
  replace (len - zlen f =? 0) with false by lia. destruct hole' as [|h hole']; [change (zlen (@nil Z)) with 0 in Z1; lia|]. change (f ++ h :: hole') with (f ++ [h] ++ hole'). rewrite (mem_put_ok f [h] hole' [0]) by reflexivity. cbn [opt_res bind].
  eexists. split; [do 2 f_equal; f_equal; lia|]. rewrite zlen_cons in Z1. split; [|split].
  - exists hole'. split; [reflexivity|]. apply forall_firstn. eapply Forall_impl; [|exact Hw]. intros b (B & _). lia.
  - rewrite !zlen_app. change (zlen [0]) with 1. lia.
  - rewrite <- Z2. rewrite skipn_app. rewrite skipn_all2 by (unfold zlen in *; lia). cbn [app]. replace (Z.to_nat len - length f)%nat with (S (Z.to_nat (len - zlen f) - 1)) by (unfold zlen in *; lia). replace (Z.to_nat (len - zlen f)) with (S (Z.to_nat (len - zlen f) - 1)) at 2 by (unfold zlen in *; lia). reflexivity.
Qed.
Lemma skip_after_ok ch w rest : ch <> 0 -> Forall (fun b => b <> 0 /\ b <> ch) w -> skip_after ch (w ++ ch :: rest) = Ok (true, rest).
Proof.
  intros Hc. induction 1 as [|c w (H1 & H2) _ IH]; cbn [app skip_after].
  - replace (ch =? 0) with false by lia. rewrite Z.eqb_refl. reflexivity.
  - replace (c =? 0) with false by lia. replace (ch =? 0) with false by lia. replace (c =? ch) with false by lia. exact IH.
Qed.
Lemma skip_after_none ch w rest : ch <> 0 -> Forall (fun b => b <> 0 /\ b <> ch) w -> skip_after ch (w ++ 0 :: rest) = Ok (false, 0 :: rest).
Proof.
  intros Hc. induction 1 as [|c w (H1 & H2) _ IH]; cbn [app skip_after]; [reflexivity|]. replace (c =? 0) with false by lia. replace (ch =? 0) with false by lia. replace (c =? ch) with false by lia. exact IH.
Qed.
Lemma fourcc_read be local w rest : zlen local = 5 -> Forall (fun b => 0 < b < 256 /\ b <> 39) w -> 1 <= zlen w <= 4 -> Forall (fun b => b <> 0) (rest) -> forall t,
  is_fourcc be local ([64; 39] ++ w ++ 39 :: rest ++ 0 :: t) = (do f <- string_to_fourcc be local (w ++ repeat 0 (Z.to_nat (16 - zlen w))) false; Ok (Some (f, rest ++ 0 :: t))).
Proof.
  intros Hl Hw Hn Hr t. unfold is_fourcc. cbn [app cur bind tl]. change (64 =? 64) with true. change (39 =? 39) with true. cbv iota.
  rewrite skip_after_ok; [|discriminate|eapply Forall_impl; [|exact Hw]; cbv beta; intros; lia]. cbn [bind fst snd].
  replace (zlen (64 :: 39 :: w ++ 39 :: rest ++ 0 :: t) - zlen (rest ++ 0 :: t)) with (zlen w + 3) by (rewrite !zlen_cons, zlen_app, zlen_cons; lia).
  replace (zlen w + 3 <=? 7) with true by lia. cbn [andb].
  assert (Hh : holds (w ++ 39 :: rest ++ 0 :: t) (w ++ 39 :: rest)). { exists t. rewrite <- app_assoc. split; [reflexivity|]. apply Forall_app. split; [eapply Forall_impl; [|exact Hw]; cbv beta; intros; lia|]. constructor; [discriminate|exact Hr]. }
  rewrite (tcsncpy_ok (repeat 0 16) 0 16 _ _ (zlen w + 3 - 3) ltac:(lia) ltac:(lia) ltac:(vm_compute; discriminate) ltac:(lia) Hh).
  replace (Z.to_nat (zlen w + 3 - 3)) with (length w) by (unfold zlen; lia). rewrite firstn_app, firstn_all, Nat.sub_diag. cbn [firstn]. rewrite app_nil_r. rewrite fit_all by lia. cbn [bind firstn Z.to_nat app].
  replace (0 + zlen w + 1) with (Z.of_nat (S (length w))) by (unfold zlen; lia). rewrite Nat2Z.id. do 2 f_equal. f_equal.
  destruct w as [|c1 [|c2 [|c3 [|c4 [|c5 w]]]]]; try reflexivity; repeat rewrite zlen_cons in Hn; pose proof (zlen_nonneg w); lia.
Qed.
