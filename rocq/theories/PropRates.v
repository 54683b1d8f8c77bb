(** C145: rates in text. *)
From Verif Require Import Base BaseProofs Tree BlockTime Arr Str StrSpec StrProofs Printf PrintfSpec Expr ExprSpec PropStr PropPrintf PropExpr Rates RatesSpec RatesProofs.

(** Every rate of bytes in a second is shown, cut to the buffer and terminated; nothing behind the buffer changes. *)
Theorem C145_shown : forall out len rate, 1 <= len <= zlen out -> len < 2 ^ 64 -> - 2 ^ 31 <= rate < 2 ^ 31 ->
  exists o, byte_rate_to_string out len rate = Ok o /\ holds o (fit len (rate_text (8 * rate))) /\ zlen o = zlen out /\ skipn (Z.to_nat len) o = skipn (Z.to_nat len) out.
Proof.
  intros out len rate Hl Hm Hr. unfold byte_rate_to_string. destruct (kilo rate Hr) as [E Q]. rewrite E. cbn [bind]. clear E.
  replace (rate * 8) with (8 * rate) in * by lia. unfold rate_text.
  destruct (Z.leb_spec 1000 (Z.quot (8 * rate) 1000)) as [K|K].
  - assert (P : 0 <= 8 * rate) by (destruct (Z.leb_spec 0 (8 * rate)) as [P|P]; [exact P|]; pose proof (Z.quot_opp_l (8 * rate) 1000 ltac:(lia)); pose proof (Z.quot_pos (- (8 * rate)) 1000 ltac:(lia) ltac:(lia)); lia).
    rewrite Z.quot_div_nonneg in * by lia. replace (1000000 <=? 8 * rate) with true by lia.
    rewrite C71_half_up; [|lia|lia|lia|lia| |reflexivity]; [|change (10 ^ Z.of_nat 2) with 100; lia]. cbn [bind]. change (10 ^ Z.of_nat 2) with 100.
    replace ((2 * (8 * rate / 1000 * 100) + 1000) / (2 * 1000)) with ((8 * rate + 5000) / 10000) by lia.
    apply (over_append out len _ [32; 77; 98; 105; 116; 47; 115]); [lia|apply fixed_clean; [lia|lia]|repeat constructor; discriminate].
  - assert (V : Z.sgn (8 * rate) * (Z.abs (8 * rate) / 1000) = Z.quot (8 * rate) 1000).
    { destruct (Z.leb_spec 0 (8 * rate)) as [P|P].
      - rewrite Z.quot_div_nonneg by lia. rewrite Z.abs_eq by lia. destruct (Z.eqb_spec (8 * rate) 0) as [->|N]; [reflexivity|]. rewrite Z.sgn_pos by lia. lia.
      - rewrite Z.sgn_neg, Z.abs_neq by lia. pose proof (Z.quot_opp_l (8 * rate) 1000 ltac:(lia)) as O. rewrite Z.quot_div_nonneg in O by lia. lia. }
    replace (1000000 <=? 8 * rate) with false.
    2: { symmetry. apply Z.leb_gt. destruct (Z.leb_spec 0 (8 * rate)); [rewrite Z.quot_div_nonneg in K by lia|]; lia. }
    rewrite V. destruct (C59_int len (Z.quot (8 * rate) 1000)) as [E _]; [lia|lia|]. rewrite E. cbn [bind].
    apply (over_append out len _ [32; 107; 98; 105; 116; 47; 115]); [lia|apply decimal_clean; lia|repeat constructor; discriminate].
Qed.
(** Below a million bits they are not rounded to the nearest: 999992 bits are shown as 999 kbit/s, while 1000000 bits are 1.00 Mbit/s. *)
Theorem C145_nearest_refuted :
  (exists o, byte_rate_to_string (repeat 7 20) 20 124999 = Ok o /\ holds o [57; 57; 57; 32; 107; 98; 105; 116; 47; 115]) /\
  (exists o, byte_rate_to_string (repeat 7 20) 20 125000 = Ok o /\ holds o [49; 46; 48; 48; 32; 77; 98; 105; 116; 47; 115]).
Proof. split; (eexists; split; [vm_compute; reflexivity|]; eexists; split; [reflexivity|repeat constructor; discriminate]). Qed.
(** 1.01 Mbit/s, in a buffer of 20 and cut in one of 7; and a negative rate. *)
Example C145_ex : rate_text (8 * 125625) = [49; 46; 48; 49; 32; 77; 98; 105; 116; 47; 115] /\
  byte_rate_to_string (repeat 7 12) 12 125625 = Ok ([49; 46; 48; 49; 32; 77; 98; 105; 116; 47; 115] ++ [0]) /\
  byte_rate_to_string (repeat 7 12) 7 125625 = Ok ([49; 46; 48; 49; 32; 77; 0] ++ repeat 7 5) /\
  byte_rate_to_string (repeat 7 12) 12 (-250) = Ok [45; 50; 32; 107; 98; 105; 116; 47; 115; 0; 7; 7].
Proof. split; [|split; [|split]]; vm_compute; reflexivity. Qed.
Print Assumptions C145_shown.
Print Assumptions C145_nearest_refuted.
