From Verif Require Import Base BaseProofs FinderSpec Tree Str StrSpec StrProofs StrProofs2 Printf PrintfSpec PrintfProofs PrintfProofs2 PrintfProofs3 Path PathSpec PathProofs PropPath PropMkArgs MkArgsProofs MkParts MkPartsSpec MkPartsProofs MkPartsProofs2.
Open Scope Z_scope.

(** Copying. *)
Lemma slice_add (file : list Z) pos a b : 0 <= pos -> 0 <= a -> 0 <= b -> slice file pos a ++ slice file (pos + a) b = slice file pos (a + b).
Proof.
  intros P A B. unfold slice. rewrite (Z2Nat.inj_add pos a), (Z2Nat.inj_add a b) by lia. generalize (Z.to_nat pos) (Z.to_nat a) (Z.to_nat b). clear. intros p a b.
  replace (skipn (p + a) file) with (skipn a (skipn p file)). { generalize (skipn p file). clear. intros l. revert l. induction a as [|a IH]; intros l; [reflexivity|]. destruct l as [|x l]; [cbn; rewrite !firstn_nil; reflexivity|]. cbn [Nat.add firstn skipn app]. rewrite IH. reflexivity. }
  revert file. induction p as [|p IH]; intros file; [reflexivity|]. destruct file as [|x file]; [destruct a; reflexivity|]. cbn [Nat.add skipn]. apply IH.
Qed.
Lemma slice_len (file : list Z) pos n : 0 <= pos -> 0 <= n -> zlen (slice file pos n) = Z.max 0 (Z.min n (zlen file - pos)).
Proof. intros P N. unfold slice, zlen. rewrite firstn_length, skipn_length. lia. Qed.
Lemma copy_exact file : forall fuel pos left out, 0 <= pos -> 0 <= left -> pos + left <= zlen file -> left / BLOCK < Z.of_nat fuel ->
  copy_loop file fuel pos left out = Ok (out ++ slice file pos left).
Proof.
  induction fuel as [|fuel IH]; intros pos left out P L F N; [unfold BLOCK in N; lia|]. cbn [copy_loop]. destruct (Z.eqb_spec left 0) as [->|NZ].
  - unfold slice. rewrite Z2Nat.inj_0. rewrite firstn_O, app_nil_r. reflexivity.
  - cbv zeta. set (n := Z.min left BLOCK). assert (Hn : 0 < n <= left) by (unfold n, BLOCK; lia).
    change (firstn (Z.to_nat n) (skipn (Z.to_nat pos) file)) with (slice file pos n). rewrite slice_len by lia. replace (Z.max 0 (Z.min n (zlen file - pos)) =? n) with true by lia.
    destruct (Z.le_gt_cases left BLOCK) as [S|B].
    + assert (n = left) by (unfold n; lia). rewrite H, Z.sub_diag. destruct fuel; reflexivity.
    + assert (n = BLOCK) by (unfold n; lia). rewrite IH; [|lia|lia|lia|unfold BLOCK in *; lia]. rewrite <- app_assoc, slice_add by lia. do 3 f_equal. lia.
Qed.
Lemma copy_never file : forall fuel pos left out, 0 <= pos -> 0 < left -> zlen file < pos + left -> copy_loop file fuel pos left out = Fuel.
Proof.
  induction fuel as [|fuel IH]; intros pos left out P L F; cbn [copy_loop]; replace (left =? 0) with false by lia; [reflexivity|]. cbv zeta.
  set (n := Z.min left BLOCK). assert (Hn : 0 < n <= left) by (unfold n, BLOCK; lia).
  change (firstn (Z.to_nat n) (skipn (Z.to_nat pos) file)) with (slice file pos n). rewrite slice_len by lia.
  destruct (Z.eqb_spec (Z.max 0 (Z.min n (zlen file - pos))) n); apply IH; lia.
Qed.

(** What printing reads. *)
Definition loop_ok (m : list Z) (args : list arg) (len : Z) : Prop := exists fuel cap s r, p_len s = len /\ print_loop fuel false cap m args s = Ok r.
Lemma ok_lit c m args len : loop_ok (c :: m) args len -> 1 < len < 2 ^ 64 -> c <> 0 -> c <> 37 -> loop_ok m args (len - 1).
Proof.
  intros (fuel & cap & s & r & L & E) Hl C0 C1. destruct fuel as [|fuel]; [discriminate|]. cbn [print_loop] in E. rewrite L in E. replace (1 <? len) with true in E by lia. cbn [cur bind tl] in E.
  replace (c =? 0) with false in E by lia. replace (c =? 37) with false in E by lia. apply bind_ok in E as (s' & E1 & E). unfold puts in E1. destruct (_ <=? _); [|discriminate]. injection E1 as <-.
  exists fuel, cap, (Pst (p_out s ++ [c]) (u64 (p_len s - 1))), r. split; [|exact E]. cbn [p_len]. unfold u64. rewrite L. apply Z.mod_small. lia.
Qed.
Lemma ok_lits : forall cs m args len, loop_ok (cs ++ m) args len -> zlen cs < len < 2 ^ 64 -> Forall (fun c => c <> 0 /\ c <> 37) cs -> loop_ok m args (len - zlen cs).
Proof.
  induction cs as [|c cs IH]; intros m args len H L F; [rewrite Z.sub_0_r; exact H|]. rewrite zlen_cons in *. assert (0 <= zlen cs) by (unfold zlen; lia). destruct (Forall_inv F) as (A & B). apply Forall_inv_tail in F.
  replace (len - (zlen cs + 1)) with (len - 1 - zlen cs) by lia. apply IH; [|lia|exact F]. apply (ok_lit c); [exact H|lia|exact A|exact B].
Qed.
Lemma ok_z m args len : loop_ok (37 :: 122 :: m) args len -> 1 < len -> m <> [] -> loop_ok m args len.
Proof.
  intros (fuel & cap & s & r & L & E) Hl Hm. destruct fuel as [|fuel]; [discriminate|]. cbn [print_loop] in E. rewrite L in E. replace (1 <? len) with true in E by lia.
  cbn in E. exists fuel, cap, s, r. auto.
Qed.
Lemma ok_null m args len : loop_ok (37 :: 115 :: m) (AStr None :: args) len -> 1 < len -> loop_ok m args len.
Proof.
  intros (fuel & cap & s & r & L & E) Hl. destruct fuel as [|fuel]; [discriminate|]. cbn [print_loop] in E. rewrite L in E. replace (1 <? len) with true in E by lia.
  cbn in E. exists fuel, cap, s, r. auto.
Qed.
Lemma bad_str m v args len : loop_ok (37 :: 115 :: m) (AInt v :: args) len -> 1 < len -> False.
Proof.
  intros (fuel & cap & s & r & L & E) Hl. destruct fuel as [|fuel]; [discriminate|]. cbn [print_loop] in E. rewrite L in E. replace (1 <? len) with true in E by lia.
  cbn in E. discriminate.
Qed.
Lemma digits_len : forall fuel cap q up ww vl sign zf s s', digits fuel cap q up ww vl sign zf s = Ok s' -> 2 * Z.of_nat fuel < p_len s < 2 ^ 64 -> p_len s - 2 * Z.of_nat fuel <= p_len s' <= p_len s.
Proof.
  induction fuel as [|fuel IH]; intros cap q up ww vl sign zf s s' E H; [discriminate|]. cbn [digits] in E. destruct (0 <? ww); [|injection E as <-; lia]. cbv zeta in E.
  apply bind_ok in E as (s1 & E1 & E). apply bind_ok in E as ([zf2 s2] & E2 & E). cbn [fst snd] in E.
  assert (PU : forall x y z, puts cap x [y] = Ok z -> 1 < p_len x < 2 ^ 64 -> p_len z = p_len x - 1).
  { intros x y z Q R. unfold puts in Q. destruct (_ <=? _) in Q; [|discriminate]. injection Q as <-. cbn [p_len]. change (zlen [y]) with 1. unfold u64. apply Z.mod_small. lia. }
  assert (L1 : p_len s - 1 <= p_len s1 <= p_len s) by (destruct (_ && _) in E1; [apply PU in E1; lia|injection E1 as <-; lia]).
  assert (L2 : p_len s1 - 1 <= p_len s2 <= p_len s1).
  { destruct (1 <? p_len s1); [|injection E2 as _ <-; lia]. destruct (_ && _) in E2; apply bind_ok in E2 as (s3 & E3 & E2); apply PU in E3; try lia; injection E2 as _ <-; lia. }
  apply IH in E; lia.
Qed.
Lemma ok_ld m v args len : loop_ok (37 :: 108 :: 100 :: m) (AInt v :: args) len -> 40 < len < 2 ^ 64 -> exists len', len - 40 <= len' <= len /\ loop_ok m args len'.
Proof.
  intros (fuel & cap & s & r & L & E) Hl. destruct fuel as [|fuel]; [discriminate|]. cbn [print_loop] in E. rewrite L in E. replace (1 <? len) with true in E by lia.
  cbn -[print_int] in E. apply bind_ok in E as ([s2 ar] & E1 & E). apply bind_ok in E1 as (s1 & E1 & E2). injection E2 as <- <-. cbn [fst snd] in E.
  unfold print_int in E1. cbv zeta in E1. apply bind_ok in E1 as (ww & _ & E1). apply digits_len in E1; [|lia]. exists (p_len s1). split; [lia|]. exists fuel, cap, s1, r. auto.
Qed.
Lemma loop_of be len m args r : vstprintf be len m args = Ok r -> be = false -> loop_ok m args len.
Proof. intros E ->. unfold vstprintf in E. apply bind_ok in E as (s & E & _). exists (S (length m)), len, (Pst [] len), s. auto. Qed.
Ltac clits l := let H := fresh in assert (H : Forall (fun c : Z => c <> 0 /\ c <> 37) l) by (repeat (apply Forall_cons; [lia|]); apply Forall_nil); exact H.
Lemma message_bad addr path j s : 0 <= j -> forall r, message addr path j s <> Ok r.
Proof.
  intros J r E. unfold message in E. apply loop_of in E; [|reflexivity]. unfold message_mask in E. 
  apply (ok_lits T_WRITE) in E; [|change (zlen T_WRITE) with 14; lia|clits T_WRITE]. change (zlen T_WRITE) with 14 in E.
  change (M_ZU ++ ?x) with (37 :: 122 :: 117 :: x) in E. apply ok_z in E; [|lia|discriminate]. apply (ok_lit 117) in E; [|lia|lia|lia].
  apply (ok_lits T_FROM) in E; [|change (zlen T_FROM) with 6; lia|clits T_FROM]. change (zlen T_FROM) with 6 in E.
  change (M_STR ++ ?x) with (37 :: 115 :: x) in E. unfold word in E. destruct (j =? 0); [|apply bad_str in E; [exact E|lia]].
  apply ok_null in E; [|lia]. change ([32] ++ ?x) with (32 :: x) in E. apply (ok_lit 32) in E; [|lia|lia|lia].
  change (M_LD ++ ?x) with (37 :: 108 :: 100 :: x) in E. apply ok_ld in E as (l1 & B1 & E); [|lia].
  apply (ok_lits T_SIZE) in E; [|change (zlen T_SIZE) with 6; lia|clits T_SIZE]. change (zlen T_SIZE) with 6 in E. apply ok_ld in E as (l2 & B2 & E); [|lia].
  apply (ok_lits T_IN) in E; [|change (zlen T_IN) with 4; lia|clits T_IN]. change (zlen T_IN) with 4 in E. apply bad_str in E; [exact E|lia].
Qed.

(** The names. *)
Lemma step_z fuel cap m args s : 1 < p_len s -> m <> [] -> print_loop (S fuel) false cap (37 :: 122 :: m) args s = print_loop fuel false cap m args s.
Proof. intros L M. cbn [print_loop]. replace (1 <? p_len s) with true by lia. cbn. reflexivity. Qed.
Lemma step_null fuel cap m args s : 1 < p_len s -> print_loop (S fuel) false cap (37 :: 115 :: m) (AStr None :: args) s = print_loop fuel false cap m args s.
Proof. intros L. cbn [print_loop]. replace (1 <? p_len s) with true by lia. cbn. reflexivity. Qed.
Lemma step_lit fuel cap c m args s : room cap s -> 1 < p_len s -> 0 < c < 256 -> c <> 37 -> print_loop (S fuel) false cap (c :: m) args s = print_loop fuel false cap m args (emit s [c]).
Proof. intros R L C N. exact (step_piece false cap s (Lit c) m args fuel R L (conj C N) I). Qed.
Lemma step_str fuel cap t m args s : room cap s -> 1 < p_len s -> Forall (fun b => 0 < b < 256) t -> print_loop (S fuel) false cap (37 :: 115 :: m) (AStr (Some (t ++ [0])) :: args) s = print_loop fuel false cap m args (emit s t).
Proof.
  intros R L C. pose proof (step_piece false cap s (Txt false WNone t) m args fuel R L (conj I C)) as H. cbn [room_for width_of] in H. specialize (H ltac:(lia)).
  cbn [text_of field width_of] in H. rewrite blank_nil in H by (unfold zlen; lia). exact H.
Qed.
Lemma emit_p s cs : zlen cs < p_len s -> p_len (emit s cs) = p_len s - zlen cs.
Proof. intros H. assert (0 <= zlen cs) by (unfold zlen; lia). rewrite emit_len by lia. lia. Qed.
Lemma finish cap cs : 1 <= cap < 2 ^ 64 -> zlen cs < cap -> puts cap (emit (Pst [] cap) cs) [0] = Ok (Pst (cs ++ [0]) (u64 (cap - zlen cs - 1))).
Proof.
  intros C L. unfold puts, emit. cbn [p_out p_len app]. rewrite firstn_all2 by (unfold zlen in L; lia). replace (zlen cs + zlen [0] <=? cap) with true by (change (zlen [0]) with 1; lia). reflexivity.
Qed.
Definition T_U : list Z := [46; 117; 46].
Lemma name_ext0 len name ext : 1 <= len < 2 ^ 64 -> zlen name + 4 < len -> Forall (fun b => 0 < b < 256) name ->
  vstprintf false len (M_STR ++ [46] ++ M_ZU ++ [46] ++ M_STR ++ [0]) [AStr (Some (name ++ [0])); word 0; AStr (Some (ext ++ [0]))] = Ok (name ++ T_U ++ [0]).
Proof.
  intros C L N. assert (0 <= zlen name) by (unfold zlen; lia). unfold vstprintf. change (S (length (M_STR ++ [46] ++ M_ZU ++ [46] ++ M_STR ++ [0]))) with 11%nat.
  change (M_STR ++ [46] ++ M_ZU ++ [46] ++ M_STR ++ [0]) with [37; 115; 46; 37; 122; 117; 46; 37; 115; 0]. change (word 0) with (AStr None).
  set (s0 := Pst [] len). assert (R0 : room len s0) by (split; [cbn [p_len p_out s0]; change (zlen (@nil Z)) with 0; lia|cbn [p_len s0]; lia]).
  assert (P0 : p_len s0 = len) by reflexivity.
  rewrite step_str by (assumption || lia). set (s1 := emit s0 name). assert (R1 : room len s1) by (apply emit_room; exact R0). assert (P1 : p_len s1 = len - zlen name) by (unfold s1; rewrite emit_p; lia).
  rewrite step_lit by (assumption || lia). set (s2 := emit s1 [46]). assert (R2 : room len s2) by (apply emit_room; exact R1). assert (P2 : p_len s2 = len - zlen name - 1) by (unfold s2; rewrite emit_p; change (zlen [46]) with 1; lia).
  rewrite step_z by (discriminate || lia). rewrite step_lit by (assumption || lia). set (s3 := emit s2 [117]). assert (R3 : room len s3) by (apply emit_room; exact R2). assert (P3 : p_len s3 = len - zlen name - 2) by (unfold s3; rewrite emit_p; change (zlen [117]) with 1; lia).
  rewrite step_lit by (assumption || lia). set (s4 := emit s3 [46]). assert (P4 : p_len s4 = len - zlen name - 3) by (unfold s4; rewrite emit_p; change (zlen [46]) with 1; lia).
  rewrite step_null by lia. cbn [print_loop]. replace (1 <? p_len s4) with true by lia. cbn [cur bind Z.eqb]. replace (0 <? p_len s4) with true by lia.
  assert (E : s4 = emit s0 (name ++ T_U)). { unfold s4, s3. rewrite emit_app by lia. unfold s2. rewrite emit_app by lia. unfold s1. rewrite emit_app by lia. reflexivity. }
  rewrite E. unfold s0. rewrite finish; [|exact C|rewrite zlen_app; change (zlen T_U) with 3; lia]. cbn [bind p_out]. rewrite <- app_assoc. reflexivity.
Qed.
Lemma name_none0 len name : 4 < len < 2 ^ 64 -> vstprintf false len (M_ZU ++ [46] ++ M_STR ++ [0]) [word 0; AStr (Some (name ++ [0]))] = Ok ([117; 46] ++ [0]).
Proof.
  intros C. unfold vstprintf. change (S (length (M_ZU ++ [46] ++ M_STR ++ [0]))) with 8%nat. change (M_ZU ++ [46] ++ M_STR ++ [0]) with [37; 122; 117; 46; 37; 115; 0]. change (word 0) with (AStr None).
  set (s0 := Pst [] len). assert (R0 : room len s0) by (split; [cbn [p_len p_out s0]; change (zlen (@nil Z)) with 0; lia|cbn [p_len s0]; lia]).
  assert (P0 : p_len s0 = len) by reflexivity.
  rewrite step_z by (discriminate || lia). rewrite step_lit by (assumption || lia). set (s1 := emit s0 [117]). assert (R1 : room len s1) by (apply emit_room; exact R0). assert (P1 : p_len s1 = len - 1) by (unfold s1; rewrite emit_p; change (zlen [117]) with 1; lia).
  rewrite step_lit by (assumption || lia). set (s2 := emit s1 [46]). assert (P2 : p_len s2 = len - 2) by (unfold s2; rewrite emit_p; change (zlen [46]) with 1; lia).
  rewrite step_null by lia. cbn [print_loop]. replace (1 <? p_len s2) with true by lia. cbn [cur bind Z.eqb]. replace (0 <? p_len s2) with true by lia.
  assert (E : s2 = emit s0 [117; 46]). { unfold s2, s1. rewrite emit_app by (rewrite P0; lia). reflexivity. }
  rewrite E. unfold s0. rewrite finish; [reflexivity|lia|change (zlen [117; 46]) with 2; lia].
Qed.
Lemma name_ext1 len name j ext : 1 <= len < 2 ^ 64 -> zlen name + 4 < len -> Forall (fun b => 0 < b < 256) name -> 0 < j ->
  vstprintf false len (M_STR ++ [46] ++ M_ZU ++ [46] ++ M_STR ++ [0]) [AStr (Some (name ++ [0])); word j; AStr (Some (ext ++ [0]))] = Bad.
Proof.
  intros C L N J. assert (0 <= zlen name) by (unfold zlen; lia). unfold vstprintf. change (S (length (M_STR ++ [46] ++ M_ZU ++ [46] ++ M_STR ++ [0]))) with 11%nat.
  change (M_STR ++ [46] ++ M_ZU ++ [46] ++ M_STR ++ [0]) with [37; 115; 46; 37; 122; 117; 46; 37; 115; 0]. unfold word. replace (j =? 0) with false by lia.
  set (s0 := Pst [] len). assert (R0 : room len s0) by (split; [cbn [p_len p_out s0]; change (zlen (@nil Z)) with 0; lia|cbn [p_len s0]; lia]).
  assert (P0 : p_len s0 = len) by reflexivity.
  rewrite step_str by (assumption || lia). set (s1 := emit s0 name). assert (R1 : room len s1) by (apply emit_room; exact R0). assert (P1 : p_len s1 = len - zlen name) by (unfold s1; rewrite emit_p; lia).
  rewrite step_lit by (assumption || lia). set (s2 := emit s1 [46]). assert (R2 : room len s2) by (apply emit_room; exact R1). assert (P2 : p_len s2 = len - zlen name - 1) by (unfold s2; rewrite emit_p; change (zlen [46]) with 1; lia).
  rewrite step_z by (discriminate || lia). rewrite step_lit by (assumption || lia). set (s3 := emit s2 [117]). assert (R3 : room len s3) by (apply emit_room; exact R2). assert (P3 : p_len s3 = len - zlen name - 2) by (unfold s3; rewrite emit_p; change (zlen [117]) with 1; lia).
  rewrite step_lit by (assumption || lia). set (s4 := emit s3 [46]). assert (P4 : p_len s4 = len - zlen name - 3) by (unfold s4; rewrite emit_p; change (zlen [46]) with 1; lia).
  cbn [print_loop]. replace (1 <? p_len s4) with true by lia. reflexivity.
Qed.
Lemma name_none1 len name j : 4 < len < 2 ^ 64 -> 0 < j -> vstprintf false len (M_ZU ++ [46] ++ M_STR ++ [0]) [word j; AStr (Some (name ++ [0]))] = Bad.
Proof.
  intros C J. unfold vstprintf. change (S (length (M_ZU ++ [46] ++ M_STR ++ [0]))) with 8%nat. change (M_ZU ++ [46] ++ M_STR ++ [0]) with [37; 122; 117; 46; 37; 115; 0]. unfold word. replace (j =? 0) with false by lia.
  set (s0 := Pst [] len). assert (R0 : room len s0) by (split; [cbn [p_len p_out s0]; change (zlen (@nil Z)) with 0; lia|cbn [p_len s0]; lia]).
  assert (P0 : p_len s0 = len) by reflexivity.
  rewrite step_z by (discriminate || lia). rewrite step_lit by (assumption || lia). set (s1 := emit s0 [117]). assert (R1 : room len s1) by (apply emit_room; exact R0). assert (P1 : p_len s1 = len - 1) by (unfold s1; rewrite emit_p; change (zlen [117]) with 1; lia).
  rewrite step_lit by (assumption || lia). set (s2 := emit s1 [46]). assert (P2 : p_len s2 = len - 2) by (unfold s2; rewrite emit_p; change (zlen [46]) with 1; lia).
  cbn [print_loop]. replace (1 <? p_len s2) with true by lia. reflexivity.
Qed.

Lemma split_fits full maxpath p : 6 <= maxpath -> no_url p -> zlen p + 9 <= full -> zlen p < 1024 ->
  exists dir file name ext, dir_file p dir file /\ name_ext file name ext /\ split_path maxpath false p = Ok (dir, name, ext) /\
   cut 1024 name = name /\ cut 4096 ext = ext /\ match cut 1024 dir with [] => [] | _ => add_delim full (cut full (cut 1024 dir)) end = place dir /\
   zlen (place dir) + zlen name <= zlen p /\ incl name p.
Proof.
  intros M U L L2.
  assert (NH : ~ http_url p) by (intros (b & sch & rest & H & _); apply U; exists b, sch, rest; exact H).
  destruct (C43_split maxpath p M (or_intror NH)) as (dir & file & f & name & ext & D & NF & NE & E & _).
  assert (f = file) as -> by (destruct NF as [[H _]|[_ H]]; [contradiction|exact H]).
  exists dir, file, name, ext. split; [exact D|]. split; [exact NE|]. split; [exact E|].
  assert (LP : zlen dir + zlen file <= zlen p /\ (dir <> [] -> zlen dir + zlen file + 1 <= zlen p) /\ incl file p).
  { inversion D; subst; try (exfalso; apply U; eauto; fail).
    - rewrite zlen_app, zlen_cons. split; [lia|]. split; [lia|]. intros x Hx. apply in_or_app. right. right. exact Hx.
    - change (zlen []) with 0. split; [lia|]. split; [congruence|]. apply incl_refl. }
  pose proof (zlen_nonneg dir) as Pd. pose proof (zlen_nonneg file) as Pf.
  assert (LE : zlen name <= zlen file /\ zlen ext <= zlen file /\ incl name file).
  { pose proof (zlen_nonneg name). pose proof (zlen_nonneg ext). inversion NE; subst.
    - rewrite zlen_app, zlen_cons. split; [lia|]. split; [lia|]. apply incl_appl, incl_refl.
    - rewrite zlen_app. change (zlen [46]) with 1. split; [lia|]. split; [lia|]. apply incl_appl, incl_refl.
    - change (zlen []) with 0. split; [lia|]. split; [lia|]. apply incl_refl. }
  split; [apply cut_fit; lia|]. split; [apply cut_fit; lia|]. split; [|split; [|destruct LP as (_ & _ & LP); destruct LE as (_ & _ & LE); intros x Hx; auto]].
  - rewrite (cut_fit 1024) by lia. rewrite (cut_fit full) by lia. destruct dir as [|x dir']; [reflexivity|].
    unfold place. set (dr := x :: dir') in *. assert (Nd : dr <> []) by discriminate. clearbody dr. destruct LP as [_ [LP _]]. specialize (LP Nd).
    unfold add_delim, ends_in_slash. replace (zlen dr =? 0) with false by (destruct dr; [congruence|rewrite zlen_cons; pose proof (zlen_nonneg dr); symmetry; apply Z.eqb_neq; lia]).
    cbn [orb]. destruct (Z.eqb_spec (last dr 0) 47); cbn [negb]; [destruct dr; reflexivity|]. unfold cat. replace (zlen dr <? full) with true by lia.
    rewrite cut_fit by (rewrite zlen_app; change (zlen [47]) with 1; lia). destruct dr; [congruence|]. reflexivity.
  - destruct dir as [|x dir'] eqn:Edir; [cbn [place]; change (zlen []) with 0 in *; lia|]. rewrite <- Edir in *. destruct LP as [_ [LP _]].
    assert (Nd : dir <> []) by (rewrite Edir; discriminate). specialize (LP Nd). clear Edir. unfold place. destruct dir; [congruence|].
    destruct (_ =? 47); [lia|]. rewrite zlen_app. change (zlen [47]) with 1. lia.
Qed.
Definition first_name (name ext : list Z) : list Z := match ext with [] => [117; 46] | _ => name ++ [46; 117; 46] end.
Lemma out_names full maxpath p : 6 <= maxpath -> no_url p -> zlen p + 9 <= full < 2 ^ 64 -> zlen p < 1024 -> Forall (fun b => 0 < b < 256) p ->
  exists dir file name ext, dir_file p dir file /\ name_ext file name ext /\ out_name maxpath full p 0 = Ok (place dir ++ first_name name ext) /\ forall j, 0 < j -> out_name maxpath full p j = Bad.
Proof.
  intros M U L L2 B. destruct (split_fits full maxpath p M U (proj1 L) L2) as (dir & file & name & ext & D & NE & E & Cn & Ce & Cd & Lp & In).
  exists dir, file, name, ext. split; [exact D|]. split; [exact NE|].
  assert (Bn : Forall (fun b => 0 < b < 256) name) by (apply Forall_forall; intros x Hx; rewrite Forall_forall in B; apply B, In, Hx).
  pose proof (zlen_nonneg name). pose proof (zlen_nonneg (place dir)).
  unfold out_name. rewrite E. cbn [bind]. cbv zeta. rewrite Cn, Ce, Cd. replace (zlen (place dir) <? full) with true by lia.
  split; [|intros j J]; (destruct ext as [|x ext]; [|]).
  - rewrite name_none0 by lia. cbn [bind]. reflexivity.
  - rewrite name_ext0 by (assumption || lia). cbn [bind]. rewrite app_assoc, removelast_last. reflexivity.
  - rewrite name_none1 by lia. reflexivity.
  - rewrite name_ext1 by (assumption || lia). reflexivity.
Qed.

Lemma never_done file maxpath full quiet addr path : forall l j outs code, (l <> [] \/ outs <> []) -> snd (write_parts file maxpath full quiet addr path j l outs) <> Done code.
Proof.
  induction l as [|s l IH]; intros j outs code H; cbn [write_parts].
  - destruct outs; [destruct H; congruence|discriminate].
  - assert (NE : forall A (e : res A), ending_of e <> Done code) by (intros A []; discriminate).
    destruct (if quiet then _ else _); try apply NE. destruct (out_name _ _ _ _); try apply NE.
    destruct (do a <- _; _); try apply NE. apply IH. right. destruct outs; discriminate.
Qed.
