(** Proofs about Guess.v. *)
From Verif Require Import Base BaseProofs Arr StreamProofs BlockProofs6 Stream Tree Guess GuessSpec.

Lemma at_byte_ok d j : bytes_ok d -> 0 <= j < zlen d -> exists b, at_byte d j = Ok b /\ 0 <= b <= 255.
Proof.
  intros Hd Hj. unfold at_byte. replace (j <? 0) with false by lia. destruct (nth_error d (Z.to_nat j)) as [b|] eqn:E.
  - exists b. split; [reflexivity|]. apply nth_error_In in E. unfold bytes_ok in Hd. rewrite Forall_forall in Hd. specialize (Hd b E). unfold is_byte in Hd. lia.
  - apply nth_error_None in E. unfold zlen in Hj. lia.
Qed.
Lemma size_loop_ok d n : bytes_ok d -> n < zlen d -> forall fuel j len, 0 <= j <= n -> n - j < Z.of_nat fuel ->
  exists len' j', size_loop fuel d n j len = Ok (len', j') /\ len <= len' /\ j < j' <= n + 1.
Proof.
  intros Hd Hn. induction fuel as [|fuel IH]; intros j len Hj Hf; [lia|]. cbn [size_loop]. destruct (at_byte_ok d j Hd ltac:(lia)) as (b & -> & Hb). cbn [bind].
  destruct ((b =? 255) && (j + 1 <=? n)) eqn:E.
  - destruct (IH (j + 1) (len + b) ltac:(lia) ltac:(lia)) as (l' & j' & R & A & B). exists l', j'. split; [exact R|]. lia.
  - eexists _, _. split; [reflexivity|]. lia.
Qed.
Lemma head_loop_ok hin rate d n : bytes_ok d -> 0 <= n <= 255 -> n < zlen d -> forall fuel i j p out,
  -1 <= p <= 3 -> 3 - p < Z.of_nat fuel -> 0 <= i -> 0 <= j -> j <= n \/ i <= zlen d ->
  exists f ps, head_loop hin rate fuel d n i j p out = Ok (f, ps) /\ (length ps <= length out + Z.to_nat (3 - p))%nat.
Proof.
  intros Hd Hn Hs. induction fuel as [|fuel IH]; intros i j p out Hp Hf Hi Hj C; [lia|]. cbn [head_loop]. cbv zeta. destruct ((p <? 3) && (j <=? n)) eqn:E.
  - destruct (size_loop_ok d n Hd Hs 256 j 0 ltac:(lia) ltac:(lia)) as (len & j' & -> & A & B). cbn [bind]. destruct (zlen d <? i + len) eqn:E1; [eexists _, _; split; [reflexivity|lia]|].
    rewrite mem_get_eq by lia. cbn [opt_res bind]. destruct (_ && negb _); [eexists _, _; split; [reflexivity|rewrite app_length; cbn [length]; lia]|].
    destruct (IH (i + len) j' (p + 1) (out ++ [firstn (Z.to_nat len) (skipn (Z.to_nat i) d)]) ltac:(lia) ltac:(lia) ltac:(lia) ltac:(lia) ltac:(lia)) as (f & ps & -> & L). eexists _, _. split; [reflexivity|]. rewrite app_length in L. cbn [length] in L. lia.
  - destruct (p <? 3) eqn:E2; [|eexists _, _; split; [reflexivity|lia]]. rewrite mem_get_eq by lia. cbn [opt_res bind]. eexists _, _. split; [reflexivity|]. rewrite app_length. cbn [length]. lia.
Qed.
Lemma guess_safe hin rate n d : bytes_ok (n :: d) -> n <= zlen d -> exists f ps, guess hin rate (n :: d) = Ok (f, ps) /\ (length ps <= 4)%nat.
Proof.
  intros Hd Hn. pose proof (Forall_inv Hd) as Q. unfold is_byte in Q. unfold guess. change (at_byte (n :: d) 0) with (Ok n). cbn [bind].
  destruct (head_loop_ok hin rate (n :: d) n Hd ltac:(lia) ltac:(rewrite zlen_cons; lia) 6 (1 + n) 1 (-1) [] ltac:(lia) ltac:(lia) ltac:(lia) ltac:(lia) ltac:(rewrite zlen_cons; lia)) as (f & ps & -> & L). eexists _, _. split; [reflexivity|]. cbn [length] in L. lia.
Qed.

Lemma xiph_short l : 0 <= l < 255 -> xiph l = [l].
Proof. intros H. unfold xiph. rewrite Z.div_small, Z.mod_small by lia. reflexivity. Qed.
Lemma size_one d n j b : at_byte d j = Ok b -> b <> 255 -> size_loop 256 d n j 0 = Ok (b, j + 1).
Proof.
  intros E N. transitivity (do b <- at_byte d j; if (b =? 255) && (j + 1 <=? n) then size_loop 255 d n (j + 1) (0 + b) else Ok (0 + b, j + 1)); [reflexivity|].
  rewrite E. cbn [bind]. replace (b =? 255) with false by lia. reflexivity.
Qed.
Lemma head_turn hin rate fuel d n i j p out len j' x : p < 3 -> j <= n -> size_loop 256 d n j 0 = Ok (len, j') -> i + len <= zlen d -> mem_get d i len = Some x ->
  head_loop hin rate (S fuel) d n i j p out = if (p + 1 =? 0) && negb (hin x) then Ok (ERR_INVALID_DATA, out ++ [x]) else head_loop hin rate fuel d n (i + len) j' (p + 1) (out ++ [x]).
Proof. intros Hp Hj E L M. cbn [head_loop]. cbv zeta. replace (p <? 3) with true by lia. replace (j <=? n) with true by lia. cbn [andb]. rewrite E. cbn [bind]. replace (zlen d <? i + len) with false by lia. rewrite M. reflexivity. Qed.
Lemma head_end hin rate fuel d n i j p out x : p < 3 -> n < j -> mem_get d i (zlen d - i) = Some x ->
  head_loop hin rate (S fuel) d n i j p out = Ok (if (p + 1 =? 0) && negb (hin x) then ERR_INVALID_DATA else rate (hd [] (out ++ [x])), out ++ [x]).
Proof. intros Hp Hj M. cbn [head_loop]. cbv zeta. replace (p <? 3) with true by lia. replace (j <=? n) with false by lia. cbn [andb]. rewrite M. reflexivity. Qed.
Lemma guess_headers hin rate h1 h2 h3 : zlen h1 < 255 -> zlen h2 < 255 ->
  guess hin rate (private h1 h2 h3) = Ok (if hin h1 then (rate h1, [h1; h2; h3]) else (ERR_INVALID_DATA, [h1])).
Proof.
  intros H1 H2. pose proof (zlen_nonneg h1). pose proof (zlen_nonneg h2). pose proof (zlen_nonneg h3). unfold private. rewrite !xiph_short by lia. cbn [app].
  set (d := 2 :: zlen h1 :: zlen h2 :: h1 ++ h2 ++ h3). assert (Ld : zlen d = 3 + zlen h1 + zlen h2 + zlen h3) by (unfold d; rewrite !zlen_cons, !zlen_app; lia).
  assert (M1 : mem_get d 3 (zlen h1) = Some h1) by (apply (mem_get_3 [2; zlen h1; zlen h2] h1 (h2 ++ h3)); reflexivity).
  assert (M2 : mem_get d (3 + zlen h1) (zlen h2) = Some h2) by (apply (mem_get_3 (2 :: zlen h1 :: zlen h2 :: h1) h2 h3); [rewrite !zlen_cons; lia|lia]).
  assert (M3 : mem_get d (3 + zlen h1 + zlen h2) (zlen d - (3 + zlen h1 + zlen h2)) = Some h3).
  { assert (Ed : d = (2 :: zlen h1 :: zlen h2 :: h1 ++ h2) ++ h3 ++ []) by (unfold d; rewrite app_nil_r; cbn [app]; rewrite <- app_assoc; reflexivity). rewrite Ld. rewrite Ed. apply mem_get_3; [rewrite !zlen_cons, zlen_app; lia|lia]. }
  unfold guess. change (at_byte d 0) with (Ok 2). cbn [bind]. change (1 + 2) with 3.
  rewrite (head_turn hin rate 5 d 2 3 1 (-1) [] (zlen h1) 2 h1); [|lia|lia|apply (size_one d 2 1); [reflexivity|lia]|lia|exact M1]. change (-1 + 1 =? 0) with true. cbn [andb app]. destruct (hin h1); cbn [negb]; [|reflexivity].
  rewrite (head_turn hin rate 4 d 2 (3 + zlen h1) 2 (-1 + 1) [h1] (zlen h2) 3 h2); [|lia|lia|apply (size_one d 2 2); [reflexivity|lia]|lia|exact M2]. change (-1 + 1 + 1 =? 0) with false. cbn [andb app].
  rewrite (head_end hin rate 3 d 2 _ 3 _ _ h3); [reflexivity|lia|lia|exact M3].
Qed.

Lemma xiph_long l : 255 <= l -> exists r, xiph l = 255 :: r /\ (r = [l mod 255] \/ exists r', r = 255 :: r').
Proof.
  intros H. unfold xiph. destruct (Z.to_nat (l / 255)) as [|k] eqn:E; [lia|]. cbn [repeat app]. eexists. split; [reflexivity|]. destruct k as [|k]; [left; reflexivity|right; eexists; reflexivity].
Qed.
(** The comment header has more than 254 bytes: its size has two bytes or more, and the first header is looked for too early. *)
Lemma guess_long hin rate t h2 h3 : zlen (1 :: 118 :: t) < 255 -> 255 <= zlen h2 -> (forall x, hin x = true -> exists y, x = 1 :: 118 :: y) ->
  exists p, guess hin rate (private (1 :: 118 :: t) h2 h3) = Ok (ERR_INVALID_DATA, [p]).
Proof.
  intros H1 H2 P. set (h1 := 1 :: 118 :: t) in *. pose proof (zlen_nonneg h3). assert (L1 : 2 <= zlen h1) by (unfold h1; rewrite !zlen_cons; pose proof (zlen_nonneg t); lia).
  unfold private. rewrite (xiph_short (zlen h1)) by lia. destruct (xiph_long (zlen h2) H2) as (r & -> & Hr). cbn [app]. set (d := 2 :: zlen h1 :: 255 :: r ++ h1 ++ h2 ++ h3).
  assert (Ld : zlen d = 3 + zlen r + zlen h1 + zlen h2 + zlen h3) by (unfold d; rewrite !zlen_cons, !zlen_app; lia). pose proof (zlen_nonneg r).
  unfold guess. change (at_byte d 0) with (Ok 2). cbn [bind]. change (1 + 2) with 3.
  erewrite (head_turn hin rate 5 d 2 3 1 (-1) [] (zlen h1) 2); [|lia|lia|apply (size_one d 2 1); [reflexivity|lia]|lia|apply mem_get_eq; lia]. change (-1 + 1 =? 0) with true. cbn [andb app]. set (x := firstn _ _). assert (N : hin x = false).
  { destruct (hin x) eqn:E; [|reflexivity]. exfalso. apply P in E. destruct E as (y & E). unfold x in E. change (skipn (Z.to_nat 3) d) with (r ++ h1 ++ h2 ++ h3) in E.
    destruct (Z.to_nat (zlen h1)) as [|[|k]] eqn:K; [lia|lia|]. destruct Hr as [->|(r' & ->)]; cbn [app firstn] in E; [|discriminate E]. unfold h1 in E. cbn [app firstn] in E. discriminate E. }
  rewrite N. cbn [negb]. eexists. reflexivity.
Qed.
