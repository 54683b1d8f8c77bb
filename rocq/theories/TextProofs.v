(** Proofs about character conversion: single characters. *)
From Verif Require Import Base BaseProofs VintProofs Tree CodePages Text TextSpec.

Lemma mask k x : 0 <= k -> Z.land x (2 ^ k - 1) = x mod 2 ^ k.
Proof. intros. rewrite <- Z.land_ones by lia. f_equal. rewrite Z.ones_equiv. lia. Qed.
Lemma mask63 x : Z.land x 63 = x mod 64.
Proof. exact (mask 6 x ltac:(lia)). Qed.
Lemma mask31 x : Z.land x 31 = x mod 32.
Proof. exact (mask 5 x ltac:(lia)). Qed.
Lemma mask15 x : Z.land x 15 = x mod 16.
Proof. exact (mask 4 x ltac:(lia)). Qed.
Lemma mask7 x : Z.land x 7 = x mod 8.
Proof. exact (mask 3 x ltac:(lia)). Qed.
Lemma mask1023 x : Z.land x 1023 = x mod 1024.
Proof. exact (mask 10 x ltac:(lia)). Qed.
Lemma shr k x : 0 <= k -> Z.shiftr x k = x / 2 ^ k.
Proof. intros. apply Z.shiftr_div_pow2. lia. Qed.
Lemma shl k x : 0 <= k -> Z.shiftl x k = x * 2 ^ k.
Proof. intros. apply Z.shiftl_mul_pow2. lia. Qed.

Lemma lead_tests a : is_byte a ->
  (Z.land a 128 =? 0) = (a <? 128) /\ (Z.land a 192 =? 128) = ((128 <=? a) && (a <? 192)) /\ (Z.land a 224 =? 192) = ((192 <=? a) && (a <? 224)) /\
  (Z.land a 240 =? 224) = ((224 <=? a) && (a <? 240)) /\ (Z.land a 248 =? 240) = ((240 <=? a) && (a <? 248)).
Proof.
  intros Ha. assert (H : Bool.eqb (Z.land a 128 =? 0) (a <? 128) && Bool.eqb (Z.land a 192 =? 128) ((128 <=? a) && (a <? 192)) && Bool.eqb (Z.land a 224 =? 192) ((192 <=? a) && (a <? 224))
    && Bool.eqb (Z.land a 240 =? 224) ((224 <=? a) && (a <? 240)) && Bool.eqb (Z.land a 248 =? 240) ((240 <=? a) && (a <? 248)) = true).
  { revert a Ha. apply byte_forall. vm_compute. reflexivity. }
  repeat (apply andb_prop in H; destruct H as [H ?]). repeat match goal with X : Bool.eqb _ _ = true |- _ => apply Bool.eqb_prop in X end. auto.
Qed.
Lemma lor_add x : is_byte x ->
  (x < 64 -> Z.lor 128 x = 128 + x) /\ (x < 32 -> Z.lor 192 x = 192 + x) /\ (x < 16 -> Z.lor 224 x = 224 + x) /\ (x < 8 -> Z.lor 240 x = 240 + x).
Proof.
  intros Hx. assert (H : ((64 <=? x) || (Z.lor 128 x =? 128 + x)) && ((32 <=? x) || (Z.lor 192 x =? 192 + x)) && ((16 <=? x) || (Z.lor 224 x =? 224 + x)) && ((8 <=? x) || (Z.lor 240 x =? 240 + x)) = true).
  { revert x Hx. apply byte_forall. vm_compute. reflexivity. }
  lia.
Qed.

(** ** UTF-8 *)
Lemma utf8_bytes c : 0 <= c < 2 ^ 21 -> bytes_ok (utf8_of c) /\ 1 <= zlen (utf8_of c) <= 4.
Proof.
  intros Hc. unfold utf8_of. cbv zeta. change (64 ^ 0) with 1. change (64 ^ 1) with 64. change (64 ^ 2) with 4096. change (64 ^ 3) with 262144. rewrite !Z.div_1_r.
  destruct (c <? 128) eqn:E1; [|destruct (c <? 2048) eqn:E2; [|destruct (c <? 65536) eqn:E3]]; (split; [|cbn; lia]); repeat (constructor; [unfold is_byte; lia|]); constructor.
Qed.
Lemma utf8_nonzero c : 0 < c < 2 ^ 21 -> Forall (fun b => b <> 0) (utf8_of c).
Proof.
  intros Hc. unfold utf8_of. cbv zeta. change (64 ^ 0) with 1. change (64 ^ 1) with 64. change (64 ^ 2) with 4096. change (64 ^ 3) with 262144. rewrite !Z.div_1_r.
  destruct (c <? 128) eqn:E1; [|destruct (c <? 2048) eqn:E2; [|destruct (c <? 65536) eqn:E3]]; repeat (constructor; [lia|]); constructor.
Qed.
Ltac lead a H := destruct (lead_tests a H) as (?L1 & ?L2 & ?L3 & ?L4 & ?L5).
Lemma trail_ok x l k o : 0 <= x < 64 -> trail ((128 + x) :: l) k o = k x l.
Proof.
  intros Hx. unfold trail. destruct (lead_tests (128 + x)) as (_ & E & _); [unfold is_byte; lia|]. rewrite E, mask63. replace ((128 <=? 128 + x) && (128 + x <? 192)) with true by lia.
  f_equal. lia.
Qed.
Lemma read_utf8_ok c rest : 0 <= c < 2 ^ 21 -> read_utf8 (utf8_of c ++ rest) = Ok (c, rest).
Proof.
  intros Hc. unfold utf8_of. cbv zeta. change (64 ^ 0) with 1. change (64 ^ 1) with 64. change (64 ^ 2) with 4096. change (64 ^ 3) with 262144. rewrite !Z.div_1_r.
  destruct (c <? 128) eqn:E1; [|destruct (c <? 2048) eqn:E2; [|destruct (c <? 65536) eqn:E3]]; cbn [app]; unfold read_utf8.
  - destruct (lead_tests c) as (E & _); [unfold is_byte; lia|]. rewrite E, E1. reflexivity.
  - destruct (lead_tests (192 + c / 64)) as (A1 & A2 & A3 & A4 & A5); [unfold is_byte; lia|]. rewrite A1, A3. replace (192 + c / 64 <? 128) with false by lia.
    replace ((192 <=? 192 + c / 64) && (192 + c / 64 <? 224)) with true by lia. rewrite trail_ok by lia. rewrite mask31, shl by lia. do 2 f_equal. lia.
  - destruct (lead_tests (224 + c / 4096)) as (A1 & A2 & A3 & A4 & A5); [unfold is_byte; lia|]. rewrite A1, A3, A4. replace (224 + c / 4096 <? 128) with false by lia.
    replace ((192 <=? 224 + c / 4096) && (224 + c / 4096 <? 224)) with false by lia. replace ((224 <=? 224 + c / 4096) && (224 + c / 4096 <? 240)) with true by lia.
    rewrite !trail_ok by lia. rewrite mask15, !shl by lia. do 2 f_equal. lia.
  - destruct (lead_tests (240 + c / 262144)) as (A1 & A2 & A3 & A4 & A5); [unfold is_byte; lia|]. rewrite A1, A3, A4, A5. replace (240 + c / 262144 <? 128) with false by lia.
    replace ((192 <=? 240 + c / 262144) && (240 + c / 262144 <? 224)) with false by lia. replace ((224 <=? 240 + c / 262144) && (240 + c / 262144 <? 240)) with false by lia.
    replace ((240 <=? 240 + c / 262144) && (240 + c / 262144 <? 248)) with true by lia.
    rewrite !trail_ok by lia. rewrite mask7, !shl by lia. do 2 f_equal. lia.
Qed.
Lemma write_utf8_ok c len : 0 <= c < 2 ^ 21 -> write_utf8 len c = if zlen (utf8_of c) <? len then (utf8_of c, len - zlen (utf8_of c)) else ([], len).
Proof.
  intros Hc. unfold write_utf8, utf8_of. cbv zeta. change (64 ^ 0) with 1. change (64 ^ 1) with 64. change (64 ^ 2) with 4096. change (64 ^ 3) with 262144.
  rewrite !shr, !mask63, mask31, mask15, mask7 by lia. change (2 ^ 0) with 1. change (2 ^ 6) with 64. change (2 ^ 12) with 4096. change (2 ^ 18) with 262144. rewrite !Z.div_1_r.
  assert (T : forall x, 0 <= x < 64 -> Z.lor 128 x = 128 + x) by (intros x Hx; apply (lor_add x); [unfold is_byte; lia|lia]).
  rewrite !T by lia.
  destruct (c <? 128) eqn:E1; cbn [andb].
  - change (zlen [c]) with 1. replace (c <? 2048) with true by lia. replace (c <? 65536) with true by lia. cbn [andb]. unfold u8. rewrite Z.mod_small by lia. destruct (1 <? len) eqn:L1; [reflexivity|].
    replace (2 <? len) with false by lia. replace (3 <? len) with false by lia. replace (4 <? len) with false by lia. reflexivity.
  - destruct (c <? 2048) eqn:E2; cbn [andb].
    + change (zlen [_; _]) with 2. replace (c <? 65536) with true by lia. cbn [andb]. rewrite (proj1 (proj2 (lor_add ((c / 64) mod 32) ltac:(unfold is_byte; lia)))) by lia.
      replace ((c / 64) mod 32) with (c / 64) by lia. destruct (2 <? len) eqn:L1; [reflexivity|]. replace (3 <? len) with false by lia. replace (4 <? len) with false by lia. reflexivity.
    + destruct (c <? 65536) eqn:E3; cbn [andb].
      * change (zlen [_; _; _]) with 3. rewrite (proj1 (proj2 (proj2 (lor_add ((c / 4096) mod 16) ltac:(unfold is_byte; lia))))) by lia.
        replace ((c / 4096) mod 16) with (c / 4096) by lia. destruct (3 <? len) eqn:L1; [reflexivity|]. replace (4 <? len) with false by lia. reflexivity.
      * change (zlen [_; _; _; _]) with 4. rewrite (proj2 (proj2 (proj2 (lor_add ((c / 262144) mod 8) ltac:(unfold is_byte; lia))))) by lia.
        replace ((c / 262144) mod 8) with (c / 262144) by lia. destruct (4 <? len) eqn:L1; reflexivity.
Qed.

(** Any terminated string: one character is read, at least one byte and never the terminator. *)
Definition tail_of (l l' : list Z) : Prop := exists p, l = p ++ l' /\ p <> [] /\ Forall (fun b => b <> 0) p.
Lemma trail_safe a l k o : bytes_ok l -> c_string l -> (forall x l', bytes_ok l' -> c_string l' -> 0 <= x < 64 -> (exists b, l = b :: l' /\ b <> 0) -> exists c r, k x l' = Ok (c, r) /\ 0 <= c < 2 ^ 21 /\ tail_of (a :: l) r) ->
  (exists c r, o = Ok (c, r) /\ 0 <= c < 2 ^ 21 /\ tail_of (a :: l) r) -> exists c r, trail l k o = Ok (c, r) /\ 0 <= c < 2 ^ 21 /\ tail_of (a :: l) r.
Proof.
  intros Hb (s & t & -> & Hs) Hk Ho. unfold trail. destruct s as [|b s]; cbn [app] in *; [exact Ho|]. apply Forall_cons_iff in Hs. destruct Hs as [H0 Hs].
  apply Forall_cons_iff in Hb. destruct Hb as [Hbb Hb]. destruct (Z.land b 192 =? 128); [|exact Ho]. apply Hk; [exact Hb|exists s, t; auto|rewrite mask63; lia|exists b; auto].
Qed.
Lemma read_utf8_safe a l : bytes_ok (a :: l) -> c_string (a :: l) -> a <> 0 -> exists c r, read_utf8 (a :: l) = Ok (c, r) /\ 0 <= c < 2 ^ 21 /\ tail_of (a :: l) r.
Proof.
  intros Hb Hs Ha. apply Forall_cons_iff in Hb. destruct Hb as [Hab Hb]. assert (Hs1 : c_string l).
  { destruct Hs as (s & t & E & Hs). destruct s as [|x s]; cbn in E; injection E as -> E; [contradiction|]. apply Forall_cons_iff in Hs. exists s, t. split; [exact E|apply Hs]. }
  assert (Ho : exists c r, Ok (a, l) = Ok (c, r) /\ 0 <= c < 2 ^ 21 /\ tail_of (a :: l) r).
  { exists a, l. split; [reflexivity|]. split; [unfold is_byte in Hab; lia|]. exists [a]. split; [reflexivity|]. split; [discriminate|]. repeat constructor. exact Ha. }
  unfold read_utf8. destruct (Z.land a 128 =? 0); [exact Ho|]. unfold is_byte in Hab.
  destruct (Z.land a 224 =? 192).
  { apply trail_safe; [exact Hb|exact Hs1| |exact Ho]. intros x l1 Hb1 Hc1 Hx (b & -> & H0). exists (Z.shiftl (Z.land a 31) 6 + x), l1. split; [reflexivity|]. rewrite mask31, shl by lia. split; [lia|].
    exists [a; b]. split; [reflexivity|]. split; [discriminate|]. repeat constructor; assumption. }
  destruct (Z.land a 240 =? 224).
  { apply trail_safe; [exact Hb|exact Hs1| |exact Ho]. intros x l1 Hb1 Hc1 Hx (b & E & H0). rewrite mask15. pose proof (Z.mod_pos_bound a 16 ltac:(lia)) as Hm. rewrite !shl by lia.
    assert (G : exists c r, trail l1 (fun c l2 => Ok (a mod 16 * 2 ^ 12 + x * 2 ^ 6 + c, l2)) (Ok (a, l)) = Ok (c, r) /\ 0 <= c < 2 ^ 21 /\ tail_of (a :: l) r); [|exact G].
    subst l. unfold trail. destruct Hc1 as (s & t & -> & Hss). destruct s as [|y s]; cbn [app]; [exact Ho|]. apply Forall_cons_iff in Hss. destruct Hss as [Hy Hss].
    destruct (Z.land y 192 =? 128); [|exact Ho]. rewrite mask63. eexists _, _. split; [reflexivity|]. split; [lia|]. exists [a; b; y]. split; [reflexivity|]. split; [discriminate|]. repeat constructor; assumption. }
  destruct (Z.land a 248 =? 240); [|exact Ho].
  apply trail_safe; [exact Hb|exact Hs1| |exact Ho]. intros x l1 Hb1 Hc1 Hx (b & E & H0). rewrite mask7. pose proof (Z.mod_pos_bound a 8 ltac:(lia)) as Hm. rewrite !shl by lia.
  subst l. unfold trail. destruct Hc1 as (s & t & -> & Hss). destruct s as [|y s]; cbn [app]; [exact Ho|]. apply Forall_cons_iff in Hss. destruct Hss as [Hy Hss].
  destruct (Z.land y 192 =? 128); [|exact Ho]. destruct s as [|z s]; cbn [app]; [exact Ho|]. apply Forall_cons_iff in Hss. destruct Hss as [Hz Hss].
  destruct (Z.land z 192 =? 128); [|exact Ho]. rewrite !mask63. pose proof (Z.mod_pos_bound y 64 ltac:(lia)). pose proof (Z.mod_pos_bound z 64 ltac:(lia)). rewrite ?shl by lia. eexists _, _. split; [reflexivity|]. split; [lia|].
  exists [a; b; y; z]. split; [reflexivity|]. split; [discriminate|]. repeat constructor; assumption.
Qed.
