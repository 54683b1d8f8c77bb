(** Proofs about FourCC texts. *)
From Verif Require Import Base BaseProofs VintProofs Tree Arr Str StrSpec StrProofs StrProofs2.

Lemma lor_shift lo hi k : 0 <= k -> 0 <= lo < 2 ^ k -> Z.lor lo (Z.shiftl hi k) = lo + hi * 2 ^ k.
Proof.
  intros Hk Hl. rewrite <- Z.shiftl_mul_pow2 by lia. rewrite Z.add_nocarry_lxor; [symmetry; apply Z.lxor_lor|].
  all: apply Z.bits_inj'; intros n Hn; rewrite Z.land_spec, Z.bits_0, Z.shiftl_spec by lia; destruct (Z.ltb_spec n k).
  all: try (rewrite (Z.testbit_neg_r hi) by lia; apply andb_false_r).
  all: rewrite <- (Z.mod_small lo (2 ^ k)) by lia; rewrite Z.mod_pow2_bits_high by lia; reflexivity.
Qed.
Lemma fourcc_le a b c d : is_byte a -> is_byte b -> is_byte c -> is_byte d -> fourcc false a b c d = be_val [d; c; b; a].
Proof.
  unfold is_byte, fourcc. intros. rewrite (lor_shift a b 8) by lia.
  replace (Z.lor (Z.shiftl c 16) (Z.shiftl d 24)) with (Z.shiftl (Z.lor c (Z.shiftl d 8)) 16) by (rewrite Z.shiftl_lor, Z.shiftl_shiftl by lia; reflexivity).
  rewrite (lor_shift c d 8) by lia. rewrite lor_shift by lia. unfold be_val. cbn [be_val_from]. lia.
Qed.
Lemma fourcc_be a b c d : is_byte a -> is_byte b -> is_byte c -> is_byte d -> fourcc true a b c d = be_val [a; b; c; d].
Proof.
  intros. rewrite <- fourcc_le by assumption. unfold fourcc. rewrite (Z.lor_comm (Z.shiftl c 8) d), (Z.lor_comm (Z.shiftl a 24)). apply Z.lor_comm.
Qed.
Lemma union_fourcc be a b c d : bytes_ok [a; b; c; d] -> union_bytes be (fourcc be a b c d) = [a; b; c; d].
Proof.
  intros H. assert (H' : bytes_ok [d; c; b; a]) by (apply Forall_rev in H; exact H).
  destruct (Forall_inv H), (Forall_inv (Forall_inv_tail H)), (Forall_inv (Forall_inv_tail (Forall_inv_tail H))), (Forall_inv (Forall_inv_tail (Forall_inv_tail (Forall_inv_tail H)))).
  unfold union_bytes. destruct be.
  - rewrite fourcc_be by (unfold is_byte; lia). apply (be_bytes_be_val [a; b; c; d] H).
  - rewrite fourcc_le by (unfold is_byte; lia). change 4%nat with (length [d; c; b; a]). rewrite (be_bytes_be_val [d; c; b; a] H'). reflexivity.
Qed.
Lemma fourcc_union be v : 0 <= v < 2 ^ 32 -> exists a b c d, bytes_ok [a; b; c; d] /\ v = fourcc be a b c d.
Proof.
  intros Hv. pose proof (be_bytes_ok 4 v) as B. pose proof (be_bytes_length 4 v) as L. pose proof (be_val_be_bytes 4 v) as V. change (256 ^ Z.of_nat 4) with (2 ^ 32) in V. rewrite Z.mod_small in V by lia.
  destruct (be_bytes 4 v) as [|a [|b [|c [|d [|]]]]]; try discriminate. 
  destruct (Forall_inv B), (Forall_inv (Forall_inv_tail B)), (Forall_inv (Forall_inv_tail (Forall_inv_tail B))), (Forall_inv (Forall_inv_tail (Forall_inv_tail (Forall_inv_tail B)))).
  destruct be; [exists a, b, c, d|exists d, c, b, a]; (split; [repeat constructor; unfold is_byte; lia|]); rewrite ?fourcc_be, ?fourcc_le by (unfold is_byte; lia); symmetry; exact V.
Qed.

(** drop_fill removes a run of '_' at the end. *)
Lemma drop_fill_split l : exists k, l = drop_fill l ++ repeat 95 k.
Proof.
  induction l as [|b l (k & E)]; [exists O; reflexivity|]. cbn [drop_fill]. destruct (drop_fill l) as [|x r] eqn:D.
  - cbn [app] in E. destruct (b =? 95) eqn:B.
    + exists (S k). cbn [repeat app]. apply Z.eqb_eq in B. congruence.
    + exists k. cbn [app]. congruence.
  - exists k. cbn [app] in E |- *. congruence.
Qed.
Lemma drop_fill_last l x : drop_fill (l ++ [x]) = if x =? 95 then drop_fill l else l ++ [x].
Proof.
  induction l as [|b l IH]; cbn [app drop_fill]; [reflexivity|]. rewrite IH. destruct (x =? 95); [reflexivity|]. destruct l; reflexivity.
Qed.
Lemma drop_fill_len l : zlen (drop_fill l) <= zlen l.
Proof. destruct (drop_fill_split l) as (k & E). rewrite E at 2. rewrite zlen_app. pose proof (zlen_nonneg (repeat 95 k)). lia. Qed.
Lemma strip_ok n : forall out, (n <= length out)%nat -> strip out n = Ok (length (drop_fill (firstn n out))).
Proof.
  induction n as [|n IH]; intros out L; [reflexivity|]. cbn [strip].
  destruct (nth_error out n) as [x|] eqn:E; [|apply nth_error_None in E; lia]. destruct (nth_error_split _ _ E) as (a & r & -> & La).
  replace (Z.of_nat n) with (zlen a) by (unfold zlen; lia). rewrite char_at_app. cbn [bind]. rewrite IH by lia.
  assert (F : firstn (S n) (a ++ x :: r) = a ++ [x]). { replace (a ++ x :: r) with ((a ++ [x]) ++ r) by (rewrite <- app_assoc; reflexivity). rewrite firstn_app. replace (S n) with (length (a ++ [x])) by (rewrite app_length; cbn [length]; lia). rewrite firstn_all, Nat.sub_diag. apply app_nil_r. }
  rewrite F, drop_fill_last. replace (firstn n (a ++ x :: r)) with a by (rewrite firstn_app; subst n; rewrite firstn_all, Nat.sub_diag; symmetry; apply app_nil_r).
  destruct (x =? 95); [reflexivity|]. rewrite app_length. cbn [length]. f_equal. lia.
Qed.
Lemma to_string_ok be out len a b c d : 1 <= len <= zlen out -> bytes_ok [a; b; c; d] ->
  exists o t, fourcc_to_string be out len (fourcc be a b c d) = Ok (o, zlen (drop_fill (fit len [a; b; c; d]))) /\ o = drop_fill (fit len [a; b; c; d]) ++ 0 :: t /\ zlen o = zlen out /\ skipn (Z.to_nat len) o = skipn (Z.to_nat len) out.
Proof.
  intros Hl H. unfold fourcc_to_string. replace (negb (len =? 0)) with true by lia. rewrite union_fourcc by exact H. set (w := [a; b; c; d]) in *.
  assert (W : zlen w = 4) by reflexivity.
  replace (firstn (Z.to_nat (Z.min 4 (len - 1))) w) with (fit len w) by (unfold fit; rewrite <- W, firstn_min; reflexivity).
  pose proof (zlen_fit len w ltac:(lia)) as F. rewrite W in F. set (n := Z.min 4 (len - 1)) in *. set (f := fit len w) in *.
  destruct (split_at out 0 n ltac:(lia) ltac:(lia) ltac:(lia)) as (z & x & y & r & -> & Z0 & X). assert (z = []) by (destruct z; [reflexivity|rewrite zlen_cons in Z0; pose proof (zlen_nonneg z0); lia]). subst z. cbn [app] in *.
  change (x ++ y :: r) with ([] ++ x ++ y :: r) at 1. change 0 with (zlen (@nil Z)) at 1. rewrite mem_put_app by lia. cbn [opt_res bind app].
  assert (Lf : Z.to_nat n = length f) by (unfold zlen in *; lia). rewrite strip_ok by (rewrite app_length; lia). cbn [bind]. rewrite firstn_app, Lf, firstn_all, Nat.sub_diag. cbn [firstn]. rewrite app_nil_r.
  change (Z.of_nat (length (drop_fill f))) with (zlen (drop_fill f)).
  destruct (drop_fill_split f) as (k & E).
  assert (Q : exists q r', f ++ y :: r = drop_fill f ++ [q] ++ r' /\ skipn (Z.to_nat len) (drop_fill f ++ 0 :: r') = skipn (Z.to_nat len) (x ++ y :: r)).
  { assert (SK : forall p q : list Z, (length p <= Z.to_nat len)%nat -> length p = length q -> skipn (Z.to_nat len) (p ++ r) = skipn (Z.to_nat len) (q ++ r)).
    { intros p q H1 H2. rewrite !skipn_app. rewrite (skipn_all2 p), (skipn_all2 q) by lia. rewrite H2. reflexivity. }
    assert (Ln : length x = length f) by (unfold zlen in *; lia). assert (Lw : (S (length f) <= Z.to_nat len)%nat) by (unfold zlen in *; lia).
    assert (X1 : x ++ y :: r = (x ++ [y]) ++ r) by (rewrite <- app_assoc; reflexivity).
    destruct k as [|k]; cbn [repeat] in E.
    - rewrite app_nil_r in E. exists y, r. rewrite E at 1. split; [reflexivity|]. rewrite X1.
      replace (drop_fill f ++ 0 :: r) with ((drop_fill f ++ [0]) ++ r) by (rewrite <- app_assoc; reflexivity). apply SK; rewrite !app_length, <- E; cbn [length]; lia.
    - exists 95, (repeat 95 k ++ y :: r). rewrite E at 1. rewrite <- app_assoc. split; [reflexivity|]. rewrite X1.
      assert (Lk : length f = (length (drop_fill f) + S k)%nat) by (rewrite E at 1; rewrite app_length; cbn [length]; rewrite repeat_length; reflexivity).
      replace (drop_fill f ++ 0 :: repeat 95 k ++ y :: r) with ((drop_fill f ++ 0 :: repeat 95 k ++ [y]) ++ r) by (rewrite <- !app_assoc; cbn [app]; rewrite <- app_assoc; reflexivity).
      apply SK; rewrite !app_length; cbn [length]; rewrite ?app_length, repeat_length; cbn [length]; lia. }
  destruct Q as (q & r' & Q1 & Q2).
  assert (LL : zlen (drop_fill f ++ 0 :: r') = zlen (x ++ y :: r)).
  { apply (f_equal (@length Z)) in Q1. unfold zlen in *. rewrite !app_length in *. cbn [length] in *. lia. }
  rewrite Q1, mem_put_app by reflexivity. cbn [opt_res bind app]. eexists; exists r'. split; [reflexivity|]. split; [reflexivity|]. split; assumption.
Qed.

(** StringToFourCC: the first four characters, filled up with '_'. *)
Definition filled (s : list Z) : list Z := firstn 4 (s ++ [95; 95; 95]).
Lemma char0 x r : char_at (x :: r) 0 = Ok x.
Proof. apply (char_at_app [] x r). Qed.
Lemma upr_ok s t : Forall (fun b => b <> 0) s -> tcsupr (s ++ 0 :: t) = Ok (map ascii_upper s ++ 0 :: t).
Proof. induction 1 as [|b s Hb H IH]; cbn [app tcsupr map]; [reflexivity|]. replace (b =? 0) with false by lia. rewrite IH. reflexivity. Qed.
Lemma upper_nz b : b <> 0 -> ascii_upper b <> 0.
Proof. unfold ascii_upper. destruct (_ && _) eqn:?; lia. Qed.
Lemma forall_firstn {A} (P : A -> Prop) n : forall l, Forall P l -> Forall P (firstn n l).
Proof. induction n as [|n IH]; intros l H; [constructor|]. destruct H; constructor; [assumption|apply IH; assumption]. Qed.
Lemma of_string_ok be (local inp s : list Z) (upper : bool) : zlen local = 5 -> holds inp s -> s <> [] ->
  exists a b c d, filled (if upper then map ascii_upper s else s) = [a; b; c; d] /\ string_to_fourcc be local inp upper = Ok (fourcc be a b c d).
Proof.
  intros Hl H Hn. unfold string_to_fourcc. pose proof (tcscpy_ok local 0 5 inp s ltac:(lia) ltac:(lia) ltac:(lia) H) as C. destruct H as (t & -> & H).
  destruct s as [|x s]; [contradiction|]. cbn [app] in *. rewrite char0. cbn [bind]. apply Forall_cons_iff in H. destruct H as [Hx H]. replace (x =? 0) with false by lia. rewrite C. cbn [bind]. change (firstn (Z.to_nat 0) local) with (@nil Z). cbn [app].
  set (f := fit 5 (x :: s)) in *. assert (Hf : Forall (fun b => b <> 0) f). { unfold f, fit. change (Z.to_nat (5 - 1)) with 4%nat. cbn [firstn]. constructor; [exact Hx|]. apply (forall_firstn _ 3). exact H. }
  set (rest := skipn (Z.to_nat (0 + zlen f + 1)) local).
  set (g := if upper then map ascii_upper f else f).
  assert (U : (if upper then tcsupr (f ++ 0 :: rest) else Ok (f ++ 0 :: rest)) = Ok (g ++ 0 :: rest)) by (unfold g; destruct upper; [apply upr_ok; exact Hf|reflexivity]). rewrite U. cbn [bind].
  assert (G : g = firstn 4 (if upper then map ascii_upper (x :: s) else x :: s)). { unfold g, f, fit. change (Z.to_nat (5 - 1)) with 4%nat. destruct upper; [|reflexivity]. symmetry. apply firstn_map. }
  assert (Gn : Forall (fun b => b <> 0) g). { unfold g. destruct upper; [|exact Hf]. clear -Hf. induction Hf; cbn [map]; constructor; [apply upper_nz; assumption|assumption]. }
  assert (F : filled (if upper then map ascii_upper (x :: s) else x :: s) = filled g).
  { rewrite G. unfold filled. set (z := if upper then _ else _). destruct z as [|z1 [|z2 [|z3 [|z4 z]]]]; reflexivity. }
  assert (Rl : zlen rest = 5 - zlen f - 1). { pose proof (zlen_fit 5 (x :: s) ltac:(lia)) as Q. fold f in Q. pose proof (zlen_nonneg f). unfold rest. unfold zlen in *. rewrite skipn_length. lia. }
  assert (Lg : zlen g = zlen f) by (unfold g; destruct upper; [unfold zlen; rewrite map_length|]; reflexivity).
  rewrite F. clearbody rest. assert (Ng : g <> []) by (unfold g, f, fit; change (Z.to_nat (5 - 1)) with 4%nat; destruct upper; discriminate). clear -Gn Rl Lg Ng.
  assert (L4 : zlen f <= 4) by (pose proof (zlen_nonneg rest); lia).
  assert (R : length rest = (4 - length g)%nat) by (unfold zlen in *; lia).
  clearbody g. destruct g as [|z1 [|z2 [|z3 [|z4 [|z5 g5]]]]]; [contradiction| | | | |exfalso; rewrite !zlen_cons in Lg; match type of Lg with context [zlen ?g + 1] => pose proof (zlen_nonneg g) end; lia]; cbn [length Nat.sub] in R;
    repeat (match goal with K : Forall _ (_ :: _) |- _ => apply Forall_cons_iff in K; destruct K as [? K] end);
    repeat (match goal with K : length rest = _ |- _ => destruct rest as [|? rest]; cbn [length] in K; [try discriminate K|try discriminate K; try (injection K as K)] end); try discriminate;
    (do 4 eexists); (split; [reflexivity|]); cbn [app firstn fill];
    repeat (match goal with K : ?z <> 0 |- context [?z =? 0] => replace (z =? 0) with false by lia end); reflexivity.
Qed.
