From Coq Require Import String.
From Verif Require Import Base BaseProofs Tree Str StrSpec StrProofs StrProofs2 Path MkArgs MkArgsSpec MkArgsProofs MkHead MkHeadSpec.

Definition c1023 (l : list Z) : list Z := firstn 1023 l.
Lemma cut_c l : cut MAXL l = c1023 l. Proof. reflexivity. Qed.
Lemma c1023_len l : zlen (c1023 l) <= 1023.
Proof. unfold c1023, zlen. rewrite firstn_length. lia. Qed.
Lemma c1023_fit l : zlen l < 1024 -> c1023 l = l.
Proof. intros. unfold c1023, zlen in *. apply firstn_all2. lia. Qed.
Lemma firstn_tail {A} (l r : list A) : forall n, firstn n (l ++ firstn n r) = firstn n (l ++ r).
Proof. intros n. rewrite !firstn_app, firstn_firstn. rewrite Nat.min_l by lia. reflexivity. Qed.
Lemma c_tail l r : c1023 (l ++ c1023 r) = c1023 (l ++ r). Proof. apply firstn_tail. Qed.
Lemma c_head l r : c1023 (c1023 l ++ r) = c1023 (l ++ r).
Proof.
  unfold c1023. rewrite !firstn_app, firstn_firstn, Nat.min_id, firstn_length. f_equal.
  destruct (Nat.le_gt_cases 1023 (length l)); [rewrite Nat.min_l by lia; replace (1023 - length l)%nat with 0%nat by lia; reflexivity|rewrite Nat.min_r by lia; reflexivity].
Qed.
Lemma cat_c s t : zlen s <= 1023 -> cat MAXL s t = c1023 (s ++ t).
Proof. intros. unfold cat. change MAXL with 1024. replace (zlen s <? 1024) with true by lia. reflexivity. Qed.
Lemma c_nil l : c1023 l = [] <-> l = [].
Proof. destruct l; split; intros; try reflexivity; discriminate. Qed.

Lemma same_len a b : same_text a b -> length a = length b.
Proof. intros H. induction H; cbn [length]; [reflexivity|]. f_equal. assumption. Qed.
Lemma begins_firstn p o : begins p o <-> same_text (firstn (length p) o) p.
Proof.
  split.
  - intros (a & b & -> & S). rewrite <- (same_len _ _ S), firstn_app, Nat.sub_diag, firstn_all. cbn [firstn]. rewrite app_nil_r. exact S.
  - intros S. exists (firstn (length p) o), (skipn (length p) o). split; [symmetry; apply firstn_skipn|exact S].
Qed.
Lemma text_firstn n l : text l -> text (firstn n l).
Proof. intros H. revert n. induction H; intros [|n]; constructor; [assumption|apply IHForall]. Qed.
Lemma starts_ok o : text o -> (starts_mkclean o = true <-> begins (txt "mkclean ") o).
Proof.
  intros T. rewrite begins_firstn. change (length (txt "mkclean ")) with 8%nat. unfold starts_mkclean.
  change (NAME ++ [32; 0]) with (txt "mkclean " ++ 0 :: []). destruct (nicmp_gen 8 o (txt "mkclean ") [] [] T ltac:(txtd)) as (r & -> & S).
  change (firstn 8 (txt "mkclean ")) with (txt "mkclean ") in S. rewrite <- order_eq by (try apply text_firstn; first [assumption|txtd]). red in S. rewrite <- S.
  rewrite Z.eqb_eq. split; [intros ->; reflexivity|apply Z.compare_eq].
Qed.
Lemma begins_c p l : (length p <= 1023)%nat -> (begins p (c1023 l) <-> begins p l).
Proof. intros H. rewrite !begins_firstn. unfold c1023. rewrite firstn_firstn, Nat.min_l by exact H. reflexivity. Qed.

Definition original (muxing app : list Z) : list Z :=
  let string := cut MAXL app in let o := cut MAXL muxing in
  if same string o then o else cat MAXL (match o with [] => [] | _ => cat MAXL o PLUS end) string.
Lemma original_ok muxing app prev : text muxing -> text app -> zlen muxing < 1024 -> zlen app < 1024 -> had muxing app prev -> original muxing app = c1023 prev.
Proof.
  intros Tm Ta Lm La H. unfold original. rewrite !cut_c, !c1023_fit by assumption. cbv zeta.
  destruct H as [S|S ->|S N].
  - apply same_ok in S; [|assumption..]. rewrite S. symmetry. apply c1023_fit. exact Lm.
  - rewrite same_false by assumption. rewrite cat_c by (change (zlen []) with 0; lia). reflexivity.
  - rewrite same_false by assumption. destruct muxing as [|x m]; [congruence|]. rewrite (cat_c (x :: m)) by lia. rewrite cat_c by apply c1023_len.
    rewrite c_head. rewrite <- app_assoc. reflexivity.
Qed.
Definition marks (remux opt live noopt alt : bool) : list Z :=
  let t := cut MAXL NAME_VERSION in
  let t := if remux || opt || live || noopt || alt then cat MAXL t [32] else t in
  let t := if remux then cat MAXL t [114] else t in
  let t := if opt then cat MAXL t [111] else t in
  let t := if live then cat MAXL t [108] else t in
  let t := if noopt then cat MAXL t [117] else t in
  if alt then cat MAXL t [51] else t.
Lemma marks_ok a b c d e : marks a b c d e = txt "mkclean 0.10.0" ++ letters a b c d e.
Proof. destruct a, b, c, d, e; vm_compute; reflexivity. Qed.
Lemma marks_len a b c d e : zlen (marks a b c d e) <= 20.
Proof. destruct a, b, c, d, e; vm_compute; discriminate. Qed.
Definition final (regr a b c d e : bool) (s : list Z) : list Z :=
  if regr then match s with [] => cut MAXL REGRESSION | _ => cut MAXL (REGRESSION ++ FROM ++ s) end
  else match s with [] => marks a b c d e | _ => cat MAXL (marks a b c d e) (FROM ++ s) end.
Lemma names_eq lib regr a b c d e muxing app :
  names lib regr a b c d e muxing app =
  do s <- (let o := original muxing app in if starts_mkclean o then if zlen o <? 14 then Bad else Ok (skipn 14 o) else Ok o);
  Ok (if regr then LIBS else cut MAXL lib, final regr a b c d e s).
Proof. reflexivity. Qed.
(** The program with its marks. *)
Definition me (regr a b c d e : bool) : list Z := if regr then txt "mkclean regression" else txt "mkclean 0.10.0" ++ letters a b c d e.
Lemma final_ok regr a b c d e s : final regr a b c d e (c1023 s) = c1023 (me regr a b c d e ++ from s).
Proof.
  unfold final, me, from. destruct regr.
  - destruct s as [|x s]; [reflexivity|]. set (r := x :: s). assert (N : c1023 r <> []) by (rewrite c_nil; discriminate).
    destruct (c1023 r) eqn:E; [congruence|]. rewrite <- E. rewrite cut_c. rewrite !app_assoc. rewrite c_tail. reflexivity.
  - rewrite <- marks_ok. pose proof (marks_len a b c d e). destruct s as [|x s]; [change (c1023 []) with (@nil Z); cbn iota; rewrite app_nil_r; symmetry; apply c1023_fit; lia|].
    set (r := x :: s). assert (N : c1023 r <> []) by (rewrite c_nil; discriminate). destruct (c1023 r) eqn:E; [congruence|]. rewrite <- E.
    rewrite cat_c by lia. rewrite !app_assoc. rewrite c_tail. reflexivity.
Qed.
Lemma text_app_i a b : text a -> text b -> text (a ++ b).
Proof. intros. apply Forall_app. split; assumption. Qed.
Lemma had_text m a p : text m -> text a -> had m a p -> text p.
Proof. intros Tm Ta []; [assumption..|]. apply text_app_i; [assumption|]. apply text_app_i; [txtd|assumption]. Qed.
Lemma c_text l : text l -> text (c1023 l). Proof. apply text_firstn. Qed.
