(** Proofs about formatted printing: whole formats. *)
From Verif Require Import Base BaseProofs VintProofs IntEltProofs Tree Arr Str StrSpec StrProofs StrProofs2 StrProofs3 Printf PrintfSpec PrintfProofs PrintfProofs2.

(** The arguments of a piece. *)
Definition args_of (p : piece) : list arg :=
  match p with
  | Lit _ | Percent => []
  | Num _ w _ _ v => width_arg w ++ [AInt v]
  | Hex _ w _ _ v => width_arg w ++ [AInt v]
  | Txt _ w s => width_arg w ++ [AStr (Some (s ++ [0]))]
  | Chr _ w c => width_arg w ++ [AInt c]
  | Ptr _ w v => width_arg w ++ [AInt v]
  end.
Lemma width_ok_le a b w : a <= b -> width_ok a w -> width_ok b w.
Proof. destruct w as [|ds|n]; cbn [width_ok]; intuition lia. Qed.
Lemma width_ok_hi hi w : width_ok hi w -> 0 <= hi -> width_val w <= hi /\ (w = WNone \/ (width_val w = width_of w)).
Proof. destruct w as [|ds|n]; cbn [width_ok width_val width_of]; intros H ?; [split; [lia|left; reflexivity]|split; [lia|right; reflexivity]..]. Qed.
Lemma num_field_none zf sign ds : num_field zf (-1) sign ds = num_field zf 0 sign ds.
Proof.
  unfold num_field, blank. pose proof (zlen_nonneg ds). pose proof (zlen_nonneg (if sign then [45] else [])).
  replace (Z.to_nat (-1 - zlen (if sign then [45] else []) - zlen ds)) with O by lia. replace (Z.to_nat (0 - zlen (if sign then [45] else []) - zlen ds)) with O by lia. reflexivity.
Qed.
Lemma field_w zf sign ds w hi : width_ok hi w -> 0 <= hi -> num_field zf (width_val w) sign ds = num_field zf (width_of w) sign ds.
Proof. intros H Hh. destruct (width_ok_hi _ _ H Hh) as [_ [->|E]]; [apply num_field_none|rewrite E; reflexivity]. Qed.
Lemma blank_w w hi n : width_ok hi w -> 0 <= hi -> 0 <= n -> blank (width_val w - n) = blank (width_of w - n).
Proof. intros H Hh Hn. destruct (width_ok_hi _ _ H Hh) as [_ [->|E]]; [|rewrite E; reflexivity]. unfold blank. cbn [width_val width_of]. replace (Z.to_nat (-1 - n)) with O by lia. replace (Z.to_nat (0 - n)) with O by lia. reflexivity. Qed.
Lemma emit_firstn s k cs : p_len s - 1 <= k -> emit s (firstn (Z.to_nat k) cs) = emit s cs.
Proof. intros H. unfold emit. rewrite firstn_firstn. rewrite Nat.min_l by lia. reflexivity. Qed.
Lemma emit_long s a b : p_len s - 1 <= zlen a -> 1 <= p_len s -> emit s (a ++ b) = emit s a.
Proof. intros H H1. unfold emit. rewrite firstn_app. replace (Z.to_nat (p_len s - 1) - length a)%nat with O by (unfold zlen in *; lia). cbn [firstn]. rewrite app_nil_r. reflexivity. Qed.
Lemma emit_len s cs : 1 <= p_len s -> p_len (emit s cs) = Z.max 1 (p_len s - zlen cs).
Proof. intros H. unfold emit. cbn [p_len]. unfold zlen. rewrite firstn_length. lia. Qed.
Lemma blank_nil n : n <= 0 -> blank n = [].
Proof. intros H. unfold blank. replace (Z.to_nat n) with O by lia. reflexivity. Qed.
Lemma zlen_blank n : zlen (blank n) = Z.max 0 n.
Proof. unfold blank, zlen. rewrite repeat_length. lia. Qed.

Lemma print_num be cap s zero w long c v args : room cap s -> piece_ok (Num zero w long c v) ->
  print_dir be cap (Dir false zero (width_val w) long false) c (AInt v :: args) s = Ok (emit s (text_of (Num zero w long c v)), args).
Proof.
  intros R (Hw & Hc & Hv). unfold print_dir. replace ((c =? 100) || (c =? 105) || (c =? 120) || (c =? 88)) with true by lia. unfold print_int. cbn [d_long d_uns d_width d_zero].
  replace ((c =? 120) || (c =? 88)) with false by lia. replace (c =? 88) with false by lia. cbn [orb negb].
  assert (Ev : (if long then s64 v else s32 v) = v). { destruct long; [unfold s64; apply s_wrap_small; change (2 ^ (64 - 1)) with (2 ^ 63); lia|unfold s32; apply s_wrap_small; change (2 ^ (32 - 1)) with (2 ^ 31); lia]. }
  rewrite Ev. rewrite andb_true_r. destruct (width_ok_hi _ _ Hw ltac:(lia)) as [Hw1 _].
  assert (Eb : - 10 ^ 12 < v < 10 ^ 12) by (destruct long; lia).
  set (sign := v <? 0). assert (En : (if sign then s64 (- v) else v) = Z.abs v). { unfold sign. destruct (Z.ltb_spec v 0); [|lia]. replace (Z.abs v) with (- v) by lia. unfold s64. apply s_wrap_small; change (2 ^ (64 - 1)) with (2 ^ 63); destruct long; lia. }
  rewrite En. change 100000000000 with (10 ^ Z.of_nat 11). set (w' := if sign then width_val w - 1 else width_val w).
  assert (Pw : 10 ^ (w' - 1) < 2 ^ 32). { assert (10 ^ (w' - 1) <= 10 ^ 9) by (apply Z.pow_le_mono_r; unfold w'; destruct sign; lia). lia. }
  rewrite (int_gen cap 10 false sign zero 11 w' (Z.abs v) s) by (try assumption; try lia; try (vm_compute; reflexivity); try (split; [lia|]; change (10 ^ Z.of_nat 12) with (10 ^ 12); lia); try (unfold w'; destruct sign; lia)).
  cbn [bind]. do 3 f_equal. cbn [text_of]. fold sign. rewrite <- (field_w _ _ _ _ _ Hw) by lia. f_equal. unfold w'. destruct sign; lia.
Qed.
Lemma print_hex be cap s zero w long (up : bool) v args : room cap s -> piece_ok (Hex zero w long up v) ->
  print_dir be cap (Dir false zero (width_val w) long false) (if up then 88 else 120) (AInt v :: args) s = Ok (emit s (text_of (Hex zero w long up v)), args).
Proof.
  intros R (Hw & Hv). unfold print_dir. replace ((_ =? 100) || (_ =? 105) || (_ =? 120) || (_ =? 88)) with true by (destruct up; reflexivity). unfold print_int. cbn [d_long d_uns d_width d_zero].
  replace (((if up then 88 else 120) =? 120) || ((if up then 88 else 120) =? 88)) with true by (destruct up; reflexivity). replace ((if up then 88 else 120) =? 88) with up by (destruct up; reflexivity). cbn [orb negb].
  assert (Ev : (if long then s64 v else s32 v) = v). { destruct long; [unfold s64; apply s_wrap_small; change (2 ^ (64 - 1)) with (2 ^ 63); lia|unfold s32; apply s_wrap_small; change (2 ^ (32 - 1)) with (2 ^ 31); lia]. }
  rewrite Ev. rewrite andb_false_r. destruct (width_ok_hi _ _ Hw ltac:(lia)) as [Hw1 _].
  change 268435456 with (16 ^ Z.of_nat 7).
  assert (Pw : 16 ^ (width_val w - 1) < 2 ^ 32). { assert (16 ^ (width_val w - 1) <= 16 ^ 7) by (apply Z.pow_le_mono_r; lia). lia. }
  assert (Vb : 0 <= v < 16 ^ Z.of_nat 8) by (change (16 ^ Z.of_nat 8) with (2 ^ 32); clear -Hv; destruct long; lia).
  assert (Kb : 16 ^ Z.of_nat 8 < 2 ^ 62) by (vm_compute; reflexivity).
  rewrite (int_gen cap 16 up false zero 7 (width_val w) v s ltac:(lia) Vb ltac:(lia) Kb ltac:(clear -Hw1; lia) Pw R).
  cbn [bind]. do 3 f_equal. cbn [text_of]. rewrite <- (field_w _ _ _ _ _ Hw) by lia. f_equal. lia.
Qed.
Lemma print_txt be cap s lf w t args : room cap s -> 1 < p_len s -> piece_ok (Txt lf w t) -> room_for (Txt lf w t) (p_len s) ->
  print_dir be cap (Dir lf false (width_val w) false false) 115 (AStr (Some (t ++ [0])) :: args) s = Ok (emit s (text_of (Txt lf w t)), args).
Proof.
  intros R L (Hw & Ht) Hr. cbn -[print_str emit text_of]. unfold print_str. cbn [d_left d_width].
  assert (Hh : holds (t ++ [0]) t) by (exists []; split; [reflexivity|]; eapply Forall_impl; [|exact Ht]; cbv beta; intros; lia).
  rewrite (tcslen_ok _ _ Hh). cbn [bind]. set (n := Z.min (zlen t) (p_len s - 1)). pose proof (zlen_nonneg t). pose proof R as [R1 R2].
  assert (Hn : 0 <= n <= zlen t) by (unfold n; lia).
  assert (MG : mem_get (t ++ [0]) 0 n = Some (firstn (Z.to_nat n) t)). { unfold mem_get. rewrite zlen_app. change (zlen [0]) with 1. replace ((0 <? 0) || (n <? 0) || (zlen t + 1 <? 0 + n)) with false by lia. cbn [Z.to_nat skipn]. f_equal. apply (firstn_holds _ _ n Hh Hn). }
  rewrite MG. cbn [opt_res].
  assert (Lf : zlen (firstn (Z.to_nat n) t) = n) by (unfold zlen in *; rewrite firstn_length; lia).
  assert (En : emit s (firstn (Z.to_nat n) t) = emit s t). { unfold n. rewrite firstn_min. apply emit_firstn. lia. }
  destruct lf; cbn [bind text_of field].
  - rewrite puts_ok by (try exact R; lia). cbn [bind]. rewrite En. rewrite blanks_ok by (apply emit_room; exact R). cbn [bind]. do 2 f_equal. rewrite emit_app by lia.
    destruct (Z.leb_spec (p_len s - 1) (zlen t)); [rewrite !emit_long by lia; reflexivity|]. replace n with (zlen t) by lia. rewrite (blank_w _ _ _ Hw) by lia. reflexivity.
  - rewrite blanks_ok by exact R. cbn [bind]. destruct (width_ok_hi _ _ Hw ltac:(lia)) as [_ Hv]. cbn [room_for] in Hr. assert (Hwv : width_val w < p_len s) by (destruct Hv as [->| ->]; cbn [width_val]; lia).
    assert (E2 : zlen t <= p_len s - 1 -> n = zlen t) by lia.
    assert (Hk : blank (width_val w - n) = blank (width_of w - zlen t)).
    { destruct (Z.leb_spec (zlen t) (p_len s - 1)); [rewrite E2 by assumption; apply (blank_w _ _ _ Hw); lia|]. rewrite !blank_nil; [reflexivity|lia|unfold n; lia]. }
    rewrite puts_ok; [|apply emit_room; exact R|rewrite emit_len, zlen_blank by lia; lia]. cbn [bind]. rewrite emit_app by lia. do 2 f_equal. rewrite Hk.
    destruct (Z.leb_spec (zlen t) (p_len s - 1)); [rewrite E2 by assumption; rewrite (firstn_all2 t) by (unfold zlen in *; lia); reflexivity|]. rewrite !blank_nil by lia. exact En.
Qed.
Lemma print_chr be cap s lf w c args : room cap s -> 1 < p_len s -> piece_ok (Chr lf w c) -> room_for (Chr lf w c) (p_len s) ->
  print_dir be cap (Dir lf false (width_val w) false false) 99 (AInt c :: args) s = Ok (emit s (text_of (Chr lf w c)), args).
Proof.
  intros R L (Hw & Hc) Hr. cbn -[print_char emit text_of]. unfold print_char. cbn [d_left d_width]. pose proof R as [R1 R2]. replace (u8 c) with c by (symmetry; unfold u8; apply Z.mod_small; lia).
  destruct lf; cbn [bind text_of field].
  - rewrite puts1 by assumption. cbn [bind]. rewrite blanks_ok by (apply emit_room; exact R). cbn [bind]. do 2 f_equal. rewrite emit_app by lia. change (zlen [c]) with 1. rewrite (blank_w _ _ _ Hw) by lia. reflexivity.
  - rewrite blanks_ok by exact R. cbn [bind]. destruct (width_ok_hi _ _ Hw ltac:(lia)) as [_ Hv]. cbn [room_for] in Hr. assert (Hwv : width_val w < p_len s) by (destruct Hv as [->| ->]; cbn [width_val]; lia).
    rewrite puts1; [|apply emit_room; exact R|rewrite emit_len, zlen_blank by lia; lia]. cbn [bind]. rewrite emit_app by lia. change (zlen [c]) with 1. rewrite (blank_w _ _ _ Hw) by lia. reflexivity.
Qed.
Lemma land15 x : Z.land x 15 = x mod 16.
Proof. change 15 with (Z.ones 4). rewrite Z.land_ones by lia. reflexivity. Qed.
Lemma ptr_digits v : map (fun k => hex_digit (Z.land (Z.shiftr v k) 15)) [28; 24; 20; 16; 12; 8; 4; 0] = map (fun k => digit_char true (v / 16 ^ k mod 16)) [7; 6; 5; 4; 3; 2; 1; 0].
Proof.
  assert (H : forall k, 0 <= k -> hex_digit (Z.land (Z.shiftr v (4 * k)) 15) = digit_char true (v / 16 ^ k mod 16)).
  { intros k Hk. rewrite land15, Z.shiftr_div_pow2 by lia. rewrite Z.pow_mul_r by lia. change (2 ^ 4) with 16. unfold hex_digit, digit_char. destruct (_ <? 10); lia. }
  cbn [map]. pose proof (H 7 ltac:(lia)). pose proof (H 6 ltac:(lia)). pose proof (H 5 ltac:(lia)). pose proof (H 4 ltac:(lia)). pose proof (H 3 ltac:(lia)). pose proof (H 2 ltac:(lia)). pose proof (H 1 ltac:(lia)). pose proof (H 0 ltac:(lia)).
  change (4 * 7) with 28 in *. change (4 * 6) with 24 in *. change (4 * 5) with 20 in *. change (4 * 4) with 16 in *. change (4 * 3) with 12 in *. change (4 * 2) with 8 in *. change (4 * 1) with 4 in *. change (4 * 0) with 0 in *. congruence.
Qed.
Lemma print_pt be cap s lf w v args : room cap s -> piece_ok (Ptr lf w v) ->
  print_dir be cap (Dir lf false (width_val w) false false) 112 (AInt v :: args) s = Ok (emit s (text_of (Ptr lf w v)), args).
Proof.
  intros R Hw. cbn [piece_ok] in Hw. cbn -[print_ptr emit text_of]. unfold print_ptr. cbn [d_left d_width]. rewrite ptr_digits. cbn [text_of]. set (ds := map _ [7; 6; 5; 4; 3; 2; 1; 0]). assert (Ld : zlen ds = 8) by reflexivity. pose proof R as [R1 R2].
  assert (PD : forall t, room cap t -> puts cap t (firstn (Z.to_nat (p_len t - 1)) ds) = Ok (emit t ds)). { intros t [T1 T2]. rewrite puts_ok; [|split; assumption|unfold zlen; rewrite firstn_length; lia]. rewrite emit_firstn by lia. reflexivity. }
  unfold field. rewrite Ld. destruct lf; cbn [bind].
  - rewrite PD by exact R. cbn [bind]. rewrite blanks_ok by (apply emit_room; exact R). cbn [bind]. do 2 f_equal. rewrite emit_app by lia. rewrite (blank_w _ _ _ Hw) by lia. reflexivity.
  - rewrite blanks_ok by exact R. cbn [bind]. rewrite PD by (apply emit_room; exact R). cbn [bind]. do 2 f_equal. rewrite emit_app by lia. rewrite (blank_w _ _ _ Hw) by lia. reflexivity.
Qed.

Lemma step_dir be cap s lf zero w long c m args vargs t fuel : letter c -> width_ok (2 ^ 31 - 1) w -> 1 < p_len s ->
  print_dir be cap (Dir lf zero (width_val w) long false) c (vargs ++ args) s = Ok (emit s t, args) ->
  print_loop (S fuel) be cap (dir_fmt lf zero w long c ++ m) (width_arg w ++ vargs ++ args) s = print_loop fuel be cap m args (emit s t).
Proof.
  intros Hc Hw L H. cbn [print_loop]. replace (1 <? p_len s) with true by lia. replace (dir_fmt lf zero w long c ++ m) with (37 :: tl (dir_fmt lf zero w long c) ++ m) by reflexivity.
  cbn [cur bind Z.eqb Pos.eqb tl]. 
  assert (N : exists y r, tl (dir_fmt lf zero w long c) ++ m = y :: r /\ (y =? 37) = false).
  { unfold dir_fmt. cbn [app tl]. destruct lf; [do 2 eexists; split; reflexivity|]. destruct zero; [do 2 eexists; split; reflexivity|]. cbn [app]. destruct w as [|ds|n]; cbn [width_fmt app].
    - destruct long; do 2 eexists; (split; [reflexivity|]); [reflexivity|]. unfold letter in Hc. lia.
    - destruct Hw as (H1 & H2 & _). destruct ds as [|d ds]; [contradiction H2; reflexivity|]. apply Forall_cons_iff in H1. do 2 eexists. split; [reflexivity|]. lia.
    - do 2 eexists. split; reflexivity. }
  destruct N as (y & r & Ey & Y). rewrite Ey at 1. cbn [cur bind]. rewrite Y. rewrite (parse_ok lf zero w long c m (vargs ++ args) Hc Hw). cbn [bind cur]. rewrite H. cbn [bind snd fst tl]. reflexivity.
Qed.
Lemma step_piece be cap s p m args fuel : room cap s -> 1 < p_len s -> piece_ok p -> room_for p (p_len s) ->
  print_loop (S fuel) be cap (fmt_of p ++ m) (args_of p ++ args) s = print_loop fuel be cap m args (emit s (text_of p)).
Proof.
  intros R L Hp Hr. destruct p as [c| |zero w long c v|zero w long up v|lf w t|lf w c|lf w v].
  - destruct Hp as [H1 H2]. cbn [fmt_of args_of text_of app print_loop]. replace (1 <? p_len s) with true by lia. cbn [cur bind]. replace (c =? 0) with false by lia. replace (c =? 37) with false by lia. rewrite puts1 by assumption. reflexivity.
  - cbn [fmt_of args_of text_of app print_loop]. replace (1 <? p_len s) with true by lia. cbn [cur bind Z.eqb Pos.eqb tl]. rewrite puts1 by assumption. reflexivity.
  - cbn [fmt_of args_of]. rewrite <- app_assoc. apply (step_dir be cap s false zero w long c m args [AInt v]); [unfold letter; destruct Hp as (_ & [H|H] & _); lia|apply (width_ok_le 10); [lia|apply Hp]|exact L|apply print_num; assumption].
  - cbn [fmt_of args_of]. rewrite <- app_assoc. apply (step_dir be cap s false zero w long _ m args [AInt v]); [unfold letter; destruct up; lia|apply (width_ok_le 8); [lia|apply Hp]|exact L|apply print_hex; assumption].
  - cbn [fmt_of args_of]. rewrite <- app_assoc. apply (step_dir be cap s lf false w false _ m args [AStr (Some (t ++ [0]))]); [unfold letter; lia|apply Hp|exact L|apply print_txt; assumption].
  - cbn [fmt_of args_of]. rewrite <- app_assoc. apply (step_dir be cap s lf false w false _ m args [AInt c]); [unfold letter; lia|apply Hp|exact L|apply print_chr; assumption].
  - cbn [fmt_of args_of]. rewrite <- app_assoc. apply (step_dir be cap s lf false w false _ m args [AInt v]); [unfold letter; lia|apply Hp|exact L|apply print_pt; assumption].
Qed.
Lemma loop_pieces be cap t : forall ps fuel s, (length ps < fuel)%nat -> room cap s -> Forall piece_ok ps -> rooms (p_len s) ps ->
  print_loop fuel be cap (concat (map fmt_of ps) ++ 0 :: t) (concat (map args_of ps)) s = Ok (emit s (concat (map text_of ps))).
Proof.
  induction ps as [|p ps IH]; intros fuel s Hf R H Hr; (destruct fuel as [|fuel]; [cbn [length] in Hf; lia|]); cbn [map concat].
  - cbn [app print_loop]. rewrite emit_nil. destruct (1 <? p_len s); reflexivity.
  - apply Forall_cons_iff in H. destruct H as [Hp H]. cbn [rooms] in Hr. destruct Hr as [Hr1 Hr2]. pose proof R as [R1 R2]. cbn [length] in Hf. destruct (Z.ltb_spec 1 (p_len s)) as [L|L].
    + rewrite <- !app_assoc. rewrite (step_piece be cap s p _ _ fuel R L Hp (Hr1 L)).
      destruct (Z.ltb_spec (zlen (text_of p)) (p_len s)) as [Q|Q].
      * rewrite IH; [rewrite emit_app by lia; reflexivity|lia|apply emit_room; exact R|exact H|]. rewrite emit_len by lia. replace (Z.max 1 (p_len s - zlen (text_of p))) with (p_len s - zlen (text_of p)) by lia. exact Hr2.
      * assert (C : p_len (emit s (text_of p)) = 1) by (rewrite emit_len by lia; lia). destruct fuel as [|fuel]; [lia|]. cbn [print_loop]. rewrite C. cbn [Z.ltb Z.compare Pos.compare Pos.compare_cont]. rewrite emit_long by lia. reflexivity.
    + cbn [print_loop]. replace (1 <? p_len s) with false by lia. rewrite emit_cut by lia. reflexivity.
Qed.
Lemma fmt_length ps : (length ps <= length (concat (map fmt_of ps)))%nat.
Proof. induction ps as [|p ps IH]; [cbn; lia|]. cbn [map concat length]. rewrite app_length. assert (1 <= length (fmt_of p))%nat; [|lia]. destruct p; cbn [fmt_of length]; unfold dir_fmt; cbn [app length]; lia. Qed.
Lemma vstprintf_ok be len ps t : 1 <= len < 2 ^ 64 -> Forall piece_ok ps -> rooms len ps ->
  vstprintf be len (concat (map fmt_of ps) ++ 0 :: t) (concat (map args_of ps)) = Ok (fit len (concat (map text_of ps)) ++ [0]).
Proof.
  intros Hl H Hr. unfold vstprintf. assert (R : room len (Pst [] len)) by (split; [cbn [p_len p_out]; change (zlen (@nil Z)) with 0; lia|exact Hl]).
  rewrite loop_pieces; [|pose proof (fmt_length ps); rewrite app_length; cbn [length]; lia|exact R|exact H|exact Hr]. cbn [bind]. set (s := emit (Pst [] len) _). assert (R' : room len s) by (apply emit_room; exact R). destruct R' as [A1 A2].
  replace (0 <? p_len s) with true by lia. unfold puts. change (zlen [0]) with 1. replace (zlen (p_out s) + 1 <=? len) with true by lia. reflexivity.
Qed.
