(** The LZO decoder against the format. *)
From Verif Require Import Base BaseProofs VintProofs Tree Lzo LzoSpec LzoProofs.

(** ** Bit fields *)
Lemma f_c0 b : is_byte b -> (Z.land b 192 =? 0) = (b <? 64).
Proof. intros H. apply eqb_prop. revert b H. apply byte_forall. vm_compute. reflexivity. Qed.
Lemma f_20 b : is_byte b -> b < 64 -> (Z.land b 32 =? 0) = (b <? 32).
Proof. intros H Hb. pose proof (byte_forall (fun b => (64 <=? b) || Bool.eqb (Z.land b 32 =? 0) (b <? 32)) ltac:(vm_compute; reflexivity) b H) as E. cbv beta in E. rewrite (proj2 (Z.leb_gt _ _) Hb) in E. apply eqb_prop. exact E. Qed.
Lemma f_10 b : is_byte b -> b < 32 -> (Z.land b 16 =? 0) = (b <? 16).
Proof. intros H Hb. pose proof (byte_forall (fun b => (32 <=? b) || Bool.eqb (Z.land b 16 =? 0) (b <? 16)) ltac:(vm_compute; reflexivity) b H) as E. cbv beta in E. rewrite (proj2 (Z.leb_gt _ _) Hb) in E. apply eqb_prop. exact E. Qed.
Lemma f_8 b : is_byte b -> Z.shiftl (Z.land b 8) 11 = b / 8 mod 2 * 16384.
Proof. intros H. apply Z.eqb_eq. revert b H. apply byte_forall. vm_compute. reflexivity. Qed.
Lemma f_3 b : Z.land b 3 = b mod 4.
Proof. apply (Z.land_ones b 2). lia. Qed.
Lemma f_7 b : Z.land b 7 = b mod 8.
Proof. apply (Z.land_ones b 3). lia. Qed.
Lemma f_31 b : Z.land b 31 = b mod 32.
Proof. apply (Z.land_ones b 5). lia. Qed.
Lemma f_r5 b : Z.shiftr b 5 = b / 32.
Proof. apply (Z.shiftr_div_pow2 b 5). lia. Qed.
Lemma f_r2 b : Z.shiftr b 2 = b / 4.
Proof. apply (Z.shiftr_div_pow2 b 2). lia. Qed.
Lemma f_l3 b : Z.shiftl b 3 = b * 8.
Proof. apply (Z.shiftl_mul_pow2 b 3). lia. Qed.
Lemma f_l2 b : Z.shiftl b 2 = b * 4.
Proof. apply (Z.shiftl_mul_pow2 b 2). lia. Qed.
Lemma f_l8 b : Z.shiftl b 8 = b * 256.
Proof. apply (Z.shiftl_mul_pow2 b 8). lia. Qed.

(** ** The instructions in terms of numbers *)
Definition tail3 (cap : Z) (out : list Z) (len : Z) (rest : list Z) : res outcome :=
  match rest with
  | a :: b :: rest => copy_match cap rest out len (zlen out - ((a + b * 256) / 4 + 1)) ((a + b * 256) mod 4)
  | _ => Ok (Stop L_IN out)
  end.
Definition tail4 (cap : Z) (out : list Z) (h len : Z) (rest : list Z) : res outcome :=
  match rest with
  | a :: b :: rest =>
      if h * 16384 + (a + b * 256) / 4 =? 0 then finish len rest out
      else copy_match cap rest out len (zlen out - (h * 16384 + (a + b * 256) / 4 + 16384)) ((a + b * 256) mod 4)
  | _ => Ok (Stop L_IN out)
  end.
Section Step.
Context (tail : list Z) (cap : Z) (inst : Z) (rest out : list Z) (st : Z) (Hi : is_byte inst).
Lemma step_m2 : 64 <= inst -> step tail cap (inst :: rest) out st =
  match rest with [] => Ok (Stop L_IN out) | h :: rest => copy_match cap rest out (inst / 32 + 1) (zlen out - (h * 8 + inst / 4 mod 8 + 1)) (inst mod 4) end.
Proof.
  intros H. unfold step. rewrite f_c0 by exact Hi. rewrite (proj2 (Z.ltb_ge _ _) H). cbn [negb]. destruct rest; [reflexivity|].
  rewrite f_r5, f_l3, f_r2, f_7, f_3. reflexivity.
Qed.
Lemma step_m3 : 32 <= inst < 64 -> step tail cap (inst :: rest) out st =
  if inst =? 32 then extend tail rest out (fun x rest => tail3 cap out (33 + x) rest) else tail3 cap out (inst - 30) rest.
Proof.
  intros H. unfold step. rewrite f_c0 by exact Hi. rewrite (proj2 (Z.ltb_lt inst 64)) by lia. cbn [negb]. rewrite f_20 by (try exact Hi; lia).
  rewrite (proj2 (Z.ltb_ge inst 32)) by lia. cbn [negb]. rewrite f_31.
  assert (E : forall l len, word16 l out (fun w rest => copy_match cap rest out len (zlen out - (Z.shiftr w 2 + 1)) (Z.land w 3)) = tail3 cap out len l).
  { intros l len. unfold word16, tail3. destruct l as [|a [|b l]]; try reflexivity. rewrite f_l8, f_r2, f_3. reflexivity. }
  replace (inst mod 32) with (inst - 32) by lia. destruct (Z.eqb_spec inst 32) as [->|Hn].
  - change (32 - 32 + 2 =? 2) with true. cbn iota. unfold extend. change (32 - 32 + 2) with 2.
    destruct (zero_run 0 rest) as [[off [|b l]]|]; try reflexivity. destruct (_ <? _); [reflexivity|]. rewrite E. f_equal. lia.
  - rewrite (proj2 (Z.eqb_neq _ _)) by lia. rewrite E. f_equal. lia.
Qed.
Lemma step_m4 : 16 <= inst < 32 -> step tail cap (inst :: rest) out st =
  if inst mod 8 =? 0 then extend tail rest out (fun x rest => tail4 cap out (inst / 8 - 2) (9 + x) rest) else tail4 cap out (inst / 8 - 2) (inst mod 8 + 2) rest.
Proof.
  intros H. unfold step. rewrite f_c0 by exact Hi. rewrite (proj2 (Z.ltb_lt inst 64)) by lia. cbn [negb]. rewrite f_20 by (try exact Hi; lia).
  rewrite (proj2 (Z.ltb_lt inst 32)) by lia. cbn [negb]. rewrite f_10 by (try exact Hi; lia). rewrite (proj2 (Z.ltb_ge inst 16)) by lia. cbn [negb]. rewrite f_7.
  assert (E : forall l len, word16 l out (fun w rest => let lb := zlen out - (Z.shiftl (Z.land inst 8) 11 + Z.shiftr w 2) in
      if lb =? zlen out then finish len rest out else copy_match cap rest out len (lb - 16384) (Z.land w 3)) = tail4 cap out (inst / 8 - 2) len l).
  { intros l len. unfold word16, tail4. destruct l as [|a [|b l]]; try reflexivity. rewrite f_l8, f_r2, f_3, f_8 by exact Hi. cbv zeta.
    replace (inst / 8 mod 2) with (inst / 8 - 2) by lia. set (d := (inst / 8 - 2) * 16384 + (a + b * 256) / 4).
    replace (zlen out - d =? zlen out) with (d =? 0) by (destruct (Z.eqb_spec d 0), (Z.eqb_spec (zlen out - d) (zlen out)); lia).
    destruct (d =? 0); [reflexivity|]. replace (zlen out - d - 16384) with (zlen out - (d + 16384)) by lia. reflexivity. }
  cbv zeta in E |- *. replace (inst mod 8 + 2 =? 2) with (inst mod 8 =? 0) by (destruct (Z.eqb_spec (inst mod 8) 0), (Z.eqb_spec (inst mod 8 + 2) 2); lia).
  destruct (Z.eqb_spec (inst mod 8) 0) as [E0|Hn].
  - unfold extend. rewrite E0. destruct (zero_run 0 rest) as [[off [|b l]]|]; try reflexivity. destruct (_ <? _); [reflexivity|]. rewrite E. f_equal. lia.
  - rewrite E. reflexivity.
Qed.
Lemma step_lits : 0 <= inst < 16 -> st = 0 -> step tail cap (inst :: rest) out st =
  if inst =? 0 then extend tail rest out (fun x rest => copy_lits cap rest out (18 + x) 4) else copy_lits cap rest out (inst + 3) 4.
Proof.
  intros H ->. unfold step. rewrite f_c0 by exact Hi. rewrite (proj2 (Z.ltb_lt inst 64)) by lia. cbn [negb]. rewrite f_20 by (try exact Hi; lia).
  rewrite (proj2 (Z.ltb_lt inst 32)) by lia. cbn [negb]. rewrite f_10 by (try exact Hi; lia). rewrite (proj2 (Z.ltb_lt inst 16)) by lia. cbn [negb]. change (0 =? 0) with true. cbn iota.
  replace (inst + 3 =? 3) with (inst =? 0) by (destruct (Z.eqb_spec inst 0), (Z.eqb_spec (inst + 3) 3); lia).
  destruct (Z.eqb_spec inst 0) as [->|Hn]; [|reflexivity]. unfold extend. destruct (zero_run 0 rest) as [[off [|b l]]|]; try reflexivity. destruct (_ <? _); [reflexivity|]. f_equal. lia.
Qed.
Lemma step_m1 : 0 <= inst < 16 -> st <> 0 -> step tail cap (inst :: rest) out st =
  match rest with [] => Ok (Stop L_IN out) | h :: rest =>
    if st =? 4 then copy_match cap rest out 3 (zlen out - (inst / 4 + h * 4 + 2049)) (inst mod 4) else copy_match cap rest out 2 (zlen out - (inst / 4 + h * 4 + 1)) (inst mod 4) end.
Proof.
  intros H Hs. unfold step. rewrite f_c0 by exact Hi. rewrite (proj2 (Z.ltb_lt inst 64)) by lia. cbn [negb]. rewrite f_20 by (try exact Hi; lia).
  rewrite (proj2 (Z.ltb_lt inst 32)) by lia. cbn [negb]. rewrite f_10 by (try exact Hi; lia). rewrite (proj2 (Z.ltb_lt inst 16)) by lia. cbn [negb]. rewrite (proj2 (Z.eqb_neq _ _) Hs).
  destruct rest as [|h l]; [reflexivity|]. rewrite f_r2, f_l2, f_3. destruct (st =? 4); reflexivity.
Qed.
End Step.

(** ** Every instruction of the format is executed *)
Definition does (cap : Z) (rest out out' : list Z) (st' : Z) (r : res outcome) : Prop :=
  (zlen out' <= cap -> r = Ok (Go rest out' st')) /\ (cap < zlen out' -> r = Ok (Stop L_OUT out)).
Lemma match_does cap rest out len dist ls out' d n : copied out len dist ls out' -> d = dist -> n = zlen ls ->
  does cap rest out out' (zlen ls) (copy_match cap (ls ++ rest) out len (zlen out - d) n).
Proof. intros C -> ->. split; [apply copy_match_ok|apply copy_match_over]; exact C. Qed.
Lemma lits_does cap rest out ls n st : n = zlen ls -> does cap rest out (out ++ ls) st (copy_lits cap (ls ++ rest) out n st).
Proof. intros ->. split; [apply copy_lits_ok|apply copy_lits_over]. Qed.
Lemma tail3_does cap rest out len dist ls out' : copied out len dist ls out' -> 1 <= dist <= 16384 -> zlen ls <= 3 ->
  does cap rest out out' (zlen ls) (tail3 cap out len ([((dist - 1) mod 64) * 4 + zlen ls; (dist - 1) / 64] ++ ls ++ rest)).
Proof. intros C Hd Hl. pose proof (zlen_nonneg ls). cbn [app tail3]. apply match_does with (dist := dist); [exact C|lia|lia]. Qed.
Lemma tail4_does cap rest out len dist ls out' : copied out len dist ls out' -> 16385 <= dist <= 49151 -> zlen ls <= 3 ->
  does cap rest out out' (zlen ls) (tail4 cap out ((dist - 16384) / 16384) len ([(dist mod 64) * 4 + zlen ls; dist mod 16384 / 64] ++ ls ++ rest)).
Proof.
  intros C Hd Hl. pose proof (zlen_nonneg ls). cbn [app tail4].
  replace ((dist mod 64 * 4 + zlen ls + dist mod 16384 / 64 * 256) / 4) with (dist mod 16384) by lia.
  rewrite (proj2 (Z.eqb_neq _ _)) by lia. apply match_does with (dist := dist); [exact C|lia|lia].
Qed.
Lemma instr_step tail cap rest out st code st' out' : instr st out code st' out' -> bytes_ok code -> zlen code <= MAX255 ->
  does cap rest out out' st' (step tail cap (code ++ rest) out st).
Proof.
  intros I Hb Hz. destruct I as [st out len dist ls out' Hl Hd Hs C|st out len dist ls out' code Hl Hd Hs C|st out len dist ls out' code Hl Hd Hs C|out ls code Hl|st out dist ls out' Hst Hd Hs C|out dist ls out' Hd Hs C].
  - pose proof (zlen_nonneg ls). cbn [app]. rewrite step_m2 by (unfold is_byte; lia). replace (((len - 1) * 32 + (dist - 1) mod 8 * 4 + zlen ls) / 32 + 1) with len by lia.
    apply match_does with (dist := dist); [exact C|lia|lia].
  - rewrite <- !app_assoc. destruct Hl as [[Hl ->]|(ext & (z & b & Hz0 & Hb0 & -> & ->) & ->)].
    + change ([32 + (len - 3 + 1)] ++ ?l) with ((32 + (len - 3 + 1)) :: l). rewrite step_m3 by (unfold is_byte; lia). rewrite (proj2 (Z.eqb_neq _ _)) by lia.
      replace (32 + (len - 3 + 1) - 30) with len by lia. apply tail3_does; assumption.
    + change ((32 :: repeat 0 (Z.to_nat z) ++ [b]) ++ ?l) with (32 :: (repeat 0 (Z.to_nat z) ++ [b]) ++ l). rewrite step_m3 by (unfold is_byte; lia). change (32 =? 32) with true. cbn iota.
      rewrite <- app_assoc. change ([b] ++ ?l) with (b :: l) at 1. rewrite !zlen_app, zlen_cons, zlen_app, zlen_repeat in Hz. pose proof (zlen_nonneg ls). change (zlen [b]) with 1 in Hz. change (zlen [_; _]) with 2 in Hz.
      rewrite extend_ok by lia. replace (33 + (z * 255 + b)) with (33 + 255 * z + b) by lia. apply tail3_does; assumption.
  - rewrite <- !app_assoc. destruct Hl as [[Hl ->]|(ext & (z & b & Hz0 & Hb0 & -> & ->) & ->)].
    + set (h := (dist - 16384) / 16384). assert (Hh : 0 <= h <= 1) by (subst h; lia).
      change ([16 + 8 * h + (len - 3 + 1)] ++ ?l) with ((16 + 8 * h + (len - 3 + 1)) :: l). rewrite step_m4 by (unfold is_byte; lia).
      replace ((16 + 8 * h + (len - 3 + 1)) mod 8) with (len - 2) by lia. rewrite (proj2 (Z.eqb_neq _ _)) by lia.
      replace ((16 + 8 * h + (len - 3 + 1)) / 8 - 2) with h by lia. replace (len - 2 + 2) with len by lia. subst h. apply tail4_does; assumption.
    + set (h := (dist - 16384) / 16384). assert (Hh : 0 <= h <= 1) by (subst h; lia).
      change ((16 + 8 * h :: repeat 0 (Z.to_nat z) ++ [b]) ++ ?l) with ((16 + 8 * h) :: (repeat 0 (Z.to_nat z) ++ [b]) ++ l). rewrite step_m4 by (unfold is_byte; lia).
      replace ((16 + 8 * h) mod 8) with 0 by lia. change (0 =? 0) with true. cbn iota. rewrite <- app_assoc. change ([b] ++ ?l) with (b :: l) at 1.
      rewrite !zlen_app, zlen_cons, zlen_app, zlen_repeat in Hz. pose proof (zlen_nonneg ls). change (zlen [b]) with 1 in Hz. change (zlen [_; _]) with 2 in Hz.
      rewrite extend_ok by lia. replace ((16 + 8 * h) / 8 - 2) with h by lia. replace (9 + (z * 255 + b)) with (9 + 255 * z + b) by lia. subst h. apply tail4_does; assumption.
  - rewrite <- !app_assoc. destruct Hl as [[Hl ->]|(ext & (z & b & Hz0 & Hb0 & Hl & ->) & ->)].
    + change ([0 + (zlen ls - 4 + 1)] ++ ?l) with ((0 + (zlen ls - 4 + 1)) :: l). rewrite step_lits by (unfold is_byte; lia). rewrite (proj2 (Z.eqb_neq _ _)) by lia. apply lits_does. lia.
    + change ((0 :: repeat 0 (Z.to_nat z) ++ [b]) ++ ?l) with (0 :: (repeat 0 (Z.to_nat z) ++ [b]) ++ l). rewrite step_lits by (unfold is_byte; lia). change (0 =? 0) with true. cbn iota.
      rewrite <- app_assoc. change ([b] ++ ?l) with (b :: l) at 1. rewrite !zlen_app, zlen_cons, zlen_app, zlen_repeat in Hz. pose proof (zlen_nonneg ls). change (zlen [b]) with 1 in Hz.
      rewrite extend_ok by lia. apply lits_does. lia.
  - pose proof (zlen_nonneg ls). cbn [app]. rewrite step_m1 by (unfold is_byte; lia). rewrite (proj2 (Z.eqb_neq _ _)) by lia. apply match_does with (dist := dist); [exact C|lia|lia].
  - pose proof (zlen_nonneg ls). cbn [app]. rewrite step_m1 by (unfold is_byte; lia). change (4 =? 4) with true. cbn iota. apply match_does with (dist := dist); [exact C|lia|lia].
Qed.
Lemma end_step tail cap out st s rest : 0 <= s <= 3 -> step tail cap ([17; s; 0] ++ rest) out st = Ok (Stop (match rest with [] => L_SUCCESS | _ => L_NOT_CONSUMED end) out).
Proof.
  intros H. cbn [app]. rewrite step_m4 by (unfold is_byte; lia). change (17 mod 8 =? 0) with false. change (17 mod 8 + 2) with 3. change (17 / 8 - 2) with 0. cbn iota. unfold tail4.
  replace ((s + 0 * 256) / 4) with 0 by lia. reflexivity.
Qed.
