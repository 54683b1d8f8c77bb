(** Proofs about paths. *)
From Verif Require Import Base BaseProofs Tree Str StrSpec Scan Path PathSpec.

(** ** Searching *)
Lemma chr_app c a b : ~ In c a -> chr c (a ++ c :: b) = Some (length a).
Proof. induction a as [|x a IH]; intros H; cbn [app chr length]; [rewrite Z.eqb_refl; reflexivity|]. cbn [In] in H. replace (x =? c) with false by lia. rewrite IH by tauto. reflexivity. Qed.
Lemma chr_none c s : chr c s = None <-> ~ In c s.
Proof.
  induction s as [|x s IH]; cbn [chr In]; [tauto|]. destruct (Z.eqb_spec x c); [split; [discriminate|intros H; elim H; auto]|]. destruct (chr c s); cbn [option_map].
  - split; [discriminate|]. intros H. exfalso. assert (~ In c s) by tauto. apply IH in H0. discriminate.
  - split; [intros _ [K|K]; [contradiction|]; apply IH in K; [exact K|reflexivity]|reflexivity].
Qed.
Lemma chr_some c s n : chr c s = Some n -> exists a b, s = a ++ c :: b /\ ~ In c a /\ n = length a.
Proof.
  revert n. induction s as [|x s IH]; intros n; cbn [chr]; [discriminate|]. destruct (Z.eqb_spec x c) as [->|N].
  - intros H. injection H as <-. exists [], s. cbn. auto.
  - destruct (chr c s) as [m|]; [|discriminate]. cbn [option_map]. intros H. injection H as <-. destruct (IH m eq_refl) as (a & b & -> & Ha & ->). exists (x :: a), b. cbn [app In length]. intuition.
Qed.
Lemma rchr_none c s : rchr c s = None <-> ~ In c s.
Proof.
  induction s as [|x s IH]; cbn [rchr In]; [tauto|]. destruct (rchr c s).
  - split; [discriminate|]. intros H. exfalso. assert (K : ~ In c s) by tauto. apply IH in K. discriminate.
  - destruct (Z.eqb_spec x c); split; try discriminate; tauto.
Qed.
Lemma rchr_app c a b : ~ In c b -> rchr c (a ++ c :: b) = Some (length a).
Proof. intros H. induction a as [|x a IH]; cbn [app rchr length]; [apply rchr_none in H; rewrite H, Z.eqb_refl; reflexivity|]. rewrite IH. reflexivity. Qed.
Lemma rchr_some c s n : rchr c s = Some n -> exists a b, s = a ++ c :: b /\ ~ In c b /\ n = length a.
Proof.
  revert n. induction s as [|x s IH]; intros n; cbn [rchr]; [discriminate|]. destruct (rchr c s) as [m|] eqn:E.
  - intros H. injection H as <-. destruct (IH m eq_refl) as (a & b & -> & Hb & ->). exists (x :: a), b. auto.
  - apply rchr_none in E. destruct (Z.eqb_spec x c) as [->|]; [|discriminate]. intros H. injection H as <-. exists [], s. auto.
Qed.
Lemma firstn_len {A} (a b : list A) : firstn (length a) (a ++ b) = a.
Proof. rewrite firstn_app, Nat.sub_diag, firstn_all, app_nil_r. reflexivity. Qed.
Lemma skipn_len {A} (a b : list A) : skipn (length a) (a ++ b) = b.
Proof. rewrite skipn_app, Nat.sub_diag, skipn_all. reflexivity. Qed.
Lemma skipn_len1 {A} (a b : list A) x : skipn (length a + 1) (a ++ x :: b) = b.
Proof. replace (a ++ x :: b) with ((a ++ [x]) ++ b) by (rewrite <- app_assoc; reflexivity). replace (length a + 1)%nat with (length (a ++ [x])) by (rewrite app_length; reflexivity). apply skipn_len. Qed.
Lemma no_seps_in s : no_seps s <-> ~ In 92 s /\ ~ In 47 s.
Proof.
  unfold no_seps. rewrite Forall_forall. unfold sep. split; [intros H; split; intros K; apply H in K; lia|]. intros [H1 H2] x Hx [->| ->]; contradiction.
Qed.
Lemma last_sep_app a c b : sep c -> no_seps b -> last_sep (a ++ c :: b) = Some (length a).
Proof.
  intros Hc Hb. apply no_seps_in in Hb. destruct Hb as [H1 H2]. unfold last_sep. destruct Hc as [-> | ->].
  - rewrite (rchr_app 47) by assumption. destruct (rchr 92 (a ++ 47 :: b)) as [n|] eqn:E; [|reflexivity]. apply rchr_some in E. destruct E as (a' & b' & E & Hb' & ->).
    assert (L : (length a' < length a)%nat); [|apply Nat.ltb_lt in L; rewrite L; reflexivity].
    destruct (Nat.lt_ge_cases (length a') (length a)) as [|G]; [assumption|]. exfalso. assert (In 92 (47 :: b)) as [K|K]; [|discriminate|contradiction].
    apply (f_equal (skipn (length a))) in E. rewrite skipn_len, skipn_app in E. rewrite E. apply in_or_app. right. replace (length a - length a')%nat with O by lia. left. reflexivity.
  - rewrite (rchr_app 92) by assumption. destruct (rchr 47 (a ++ 92 :: b)) as [n|] eqn:E; [|reflexivity]. apply rchr_some in E. destruct E as (a' & b' & E & Hb' & ->).
    assert (L : (length a' <= length a)%nat); [|replace (length a <? length a')%nat with false; [reflexivity|symmetry; apply Nat.ltb_ge; exact L]].
    destruct (Nat.le_gt_cases (length a') (length a)) as [|G]; [assumption|]. exfalso. assert (In 47 (92 :: b)) as [K|K]; [|discriminate|contradiction].
    apply (f_equal (skipn (length a))) in E. rewrite skipn_len, skipn_app in E. rewrite E. apply in_or_app. right. replace (length a - length a')%nat with O by lia. left. reflexivity.
Qed.
Lemma last_sep_none s : no_seps s -> last_sep s = None.
Proof. intros H. apply no_seps_in in H. destruct H as [H1 H2]. apply rchr_none in H1. apply rchr_none in H2. unfold last_sep. rewrite H1, H2. reflexivity. Qed.
Lemma sep_dec c : {sep c} + {~ sep c}.
Proof. unfold sep. destruct (Z.eq_dec c 47), (Z.eq_dec c 92); [left|left|left|right]; lia. Qed.
Lemma split_last s : no_seps s \/ exists a c b, s = a ++ c :: b /\ sep c /\ no_seps b.
Proof.
  induction s as [|x s [IH|(a & c & b & -> & Hc & Hb)]]; [left; constructor| |right; exists (x :: a), c, b; auto].
  destruct (sep_dec x) as [H|H]; [right; exists [], x, s; auto|left; constructor; assumption].
Qed.
Lemma first_sep_app a c b : sep c -> no_seps a -> first_sep (a ++ c :: b) = Some (length a).
Proof.
  intros Hc Ha. apply no_seps_in in Ha. destruct Ha as [H1 H2]. unfold first_sep.
  assert (G : forall d n, d <> c -> ~ In d a -> chr d (a ++ c :: b) = Some n -> (length a <= n)%nat).
  { intros d n Hd Hn H. apply chr_some in H. destruct H as (a' & b' & E & _ & ->). destruct (Nat.le_gt_cases (length a) (length a')) as [|L]; [assumption|]. exfalso. apply Hn.
    apply (f_equal (firstn (length a))) in E. rewrite firstn_len, firstn_app in E. rewrite E. apply in_or_app. right. destruct (length a - length a')%nat eqn:Q; [lia|]. left. reflexivity. }
  destruct Hc as [-> | ->].
  - rewrite (chr_app 47) by assumption. destruct (chr 92 (a ++ 47 :: b)) as [n|] eqn:E; [|reflexivity]. pose proof E as E'. apply G in E; [|discriminate|assumption]. destruct (Nat.ltb_spec (length a) n); [reflexivity|].
    apply chr_some in E'. destruct E' as (a' & b' & E' & _ & ->). f_equal. lia.
  - rewrite (chr_app 92) by assumption. destruct (chr 47 (a ++ 92 :: b)) as [n|] eqn:E; [|reflexivity]. apply G in E; [|discriminate|assumption]. replace (n <? length a)%nat with false by (symmetry; apply Nat.ltb_ge; exact E). reflexivity.
Qed.
Lemma first_sep_none s : no_seps s -> first_sep s = None.
Proof. intros H. apply no_seps_in in H. destruct H as [H1 H2]. apply chr_none in H1. apply chr_none in H2. unfold first_sep. rewrite H1, H2. reflexivity. Qed.
Lemma split_first s : no_seps s \/ exists a c b, s = a ++ c :: b /\ sep c /\ no_seps a.
Proof.
  induction s as [|x s IH]; [left; constructor|]. destruct (sep_dec x) as [H|H]; [right; exists [], x, s; repeat split; [assumption|constructor]|].
  destruct IH as [IH|(a & c & b & -> & Hc & Ha)]; [left; constructor; assumption|right; exists (x :: a), c, b; repeat split; [assumption|constructor; assumption]].
Qed.

(** ** Protocols *)
Lemma lower_same x y : lower x = lower y <-> same_letter x y.
Proof. unfold lower, same_letter. destruct (Z.leb_spec 65 x), (Z.leb_spec x 90), (Z.leb_spec 65 y), (Z.leb_spec y 90); cbn [andb]; lia. Qed.
Lemma list_same_ok : forall a b, list_same a b = true <-> same_text a b.
Proof.
  induction a as [|x a IH]; intros [|y b]; cbn [list_same]; split; intros H; try discriminate; try constructor; try (inversion H; fail).
  - apply andb_true_iff in H. apply lower_same. lia.
  - apply andb_true_iff in H. apply IH. tauto.
  - inversion H; subst. apply andb_true_iff. split; [apply Z.eqb_eq; apply lower_same; assumption|apply IH; assumption].
Qed.
Lemma is_space_ok c : is_space c = true <-> blank c.
Proof. unfold is_space, blank. destruct (Z.eqb_spec c 32), (Z.eqb_spec c 9), (Z.eqb_spec c 13), (Z.eqb_spec c 10); cbn [orb]; intuition; discriminate. Qed.
Lemma skip_spaces_ok b s : Forall blank b -> match s with x :: _ => ~ blank x | [] => True end -> skip_spaces (b ++ s) = s.
Proof.
  intros Hb Hs. induction Hb as [|x b Hx _ IH]; cbn [app].
  - destruct s as [|x s]; [reflexivity|]. cbn [skip_spaces]. destruct (is_space x) eqn:E; [apply is_space_ok in E; contradiction|reflexivity].
  - cbn [skip_spaces]. apply is_space_ok in Hx. rewrite Hx. exact IH.
Qed.
Lemma spaces_split s : exists b r, s = b ++ r /\ Forall blank b /\ match r with x :: _ => ~ blank x | [] => True end.
Proof.
  induction s as [|x s (b & r & -> & Hb & Hr)]; [exists [], []; auto|]. destruct (is_space x) eqn:E.
  - apply is_space_ok in E. exists (x :: b), r. auto.
  - exists [], (x :: b ++ r). split; [reflexivity|]. split; [constructor|]. intros K. apply is_space_ok in K. congruence.
Qed.
Lemma blank_no_colon b : Forall blank b -> ~ In 58 b.
Proof. rewrite Forall_forall. intros H K. apply H in K. unfold blank in K. lia. Qed.
(** A name compared with the start of a URL. *)
Lemma nicmp_prefix n name sch rest : (n <= length name)%nat -> ~ In 58 name -> ~ In 58 (firstn n name) ->
  nicmp_same n (sch ++ 58 :: rest) name = true <-> exists a b, sch = a ++ b /\ same_text a (firstn n name).
Proof.
  intros Hn _ Hc. unfold nicmp_same. rewrite list_same_ok. remember (firstn n name) as nm eqn:E. assert (L : length nm = n) by (subst nm; rewrite firstn_length; lia). clear E Hn.
  split.
  - intros H. assert (Hl : (n <= length sch)%nat).
    { destruct (Nat.le_gt_cases n (length sch)) as [|G]; [assumption|]. exfalso. apply Hc. rewrite firstn_app in H. destruct (n - length sch)%nat eqn:Q; [lia|]. cbn [firstn] in H.
      rewrite (firstn_all2 sch) in H by lia. apply Forall2_app_inv_l in H. destruct H as (l1 & l2 & _ & H2 & ->). inversion H2 as [|x y u w H3 H4]; subst. apply in_or_app. right. left. unfold same_letter in H3. lia. }
    exists (firstn n sch), (skipn n sch). split; [symmetry; apply firstn_skipn|]. rewrite firstn_app in H. replace (n - length sch)%nat with O in H by lia. cbn [firstn] in H. rewrite app_nil_r in H. exact H.
  - intros (a & b & -> & H). assert (La : length a = n) by (rewrite <- L; clear -H; induction H; cbn [length]; congruence). rewrite <- app_assoc, <- La, firstn_len. exact H.
Qed.
Lemma locals_ok sch rest : ~ In 58 sch -> existsb (fun p => nicmp_same (fst p) (sch ++ 58 :: rest) (snd p)) LOCALS = true <-> local_scheme sch.
Proof.
  intros _. rewrite existsb_exists. unfold local_scheme. split.
  - intros ((n & nm) & Hin & H). cbn [fst snd] in H. assert (K : (n <= length nm)%nat /\ ~ In 58 nm /\ ~ In 58 (firstn n nm) /\ In (firstn n nm) local_names).
    { clear H. unfold LOCALS, FILE in Hin. cbn [In] in Hin. repeat (destruct Hin as [Hin|Hin]; [injection Hin as <- <-; cbn [firstn length In local_names]; repeat split; try lia; tauto|]). contradiction. }
    destruct K as (K1 & K2 & K3 & K4). apply nicmp_prefix in H; [|assumption..]. destruct H as (a & b & E & H). exists a, b, (firstn n nm). auto.
  - intros (a & b & nm & E & Hin & H). assert (K : exists n full, In (n, full) LOCALS /\ firstn n full = nm /\ (n <= length full)%nat /\ ~ In 58 full /\ ~ In 58 nm).
    { clear H. change local_names with (map (fun p => firstn (fst p) (snd p)) LOCALS) in Hin. apply in_map_iff in Hin. destruct Hin as ((n & full) & <- & Hin). exists n, full. cbn [fst snd]. split; [exact Hin|]. split; [reflexivity|].
      unfold LOCALS, FILE in Hin. cbn [In] in Hin. repeat (destruct Hin as [Hin|Hin]; [injection Hin as <- <-; cbn [firstn length In]; repeat split; lia|]). contradiction. }
    destruct K as (n & full & K1 & K2 & K3 & K4 & K5). exists (n, full). split; [exact K1|]. cbn [fst snd]. apply nicmp_prefix; [assumption..|rewrite K2; assumption|]. exists a, b. rewrite K2. auto.
Qed.
Definition local_dec (sch : list Z) : bool := existsb (fun p => nicmp_same (fst p) (sch ++ [58]) (snd p)) LOCALS.
Lemma local_dec_ok sch : ~ In 58 sch -> local_dec sch = true <-> local_scheme sch.
Proof. intros H. apply locals_ok. exact H. Qed.
Lemma protocol_url url b sch rest : is_url url b sch rest -> get_protocol url = mkProto (length b + length sch + 3) sch (negb (local_dec sch)).
Proof.
  intros (-> & Hb & Hc & Hs). assert (Hbs : ~ In 58 (b ++ sch)) by (intros K; apply in_app_or in K; destruct K as [K|K]; [apply blank_no_colon in K; assumption|contradiction]).
  unfold get_protocol. replace (b ++ sch ++ [58; 47; 47] ++ rest) with ((b ++ sch) ++ 58 :: 47 :: 47 :: rest) by (rewrite <- app_assoc; reflexivity).
  rewrite chr_app by exact Hbs. unfold char_of. rewrite !app_nth2 by lia. replace (length (b ++ sch) + 1 - length (b ++ sch))%nat with 1%nat by lia. replace (length (b ++ sch) + 2 - length (b ++ sch))%nat with 2%nat by lia. cbn [nth Z.eqb Pos.eqb andb].
  rewrite firstn_len. rewrite skip_spaces_ok by assumption. rewrite app_length. replace (length b + length sch - length sch)%nat with (length b) by lia. rewrite <- app_assoc, skipn_len. cbv zeta. f_equal. f_equal.
  assert (K : forall x y : bool, (x = true <-> y = true) -> x = y) by (intros [|] [|] K; intuition). apply K. rewrite locals_ok by exact Hc. symmetry. apply local_dec_ok. exact Hc.
Qed.
Lemma protocol_no url : no_url url -> get_protocol url = mkProto 0 FILE false.
Proof.
  intros H. unfold get_protocol. destruct (chr 58 url) as [n|] eqn:E; [|reflexivity]. apply chr_some in E. destruct E as (a & r & -> & Ha & ->). unfold char_of. rewrite !app_nth2 by lia.
  replace (length a + 1 - length a)%nat with 1%nat by lia. replace (length a + 2 - length a)%nat with 2%nat by lia. cbn [nth].
  destruct ((nth 0 r 0 =? 47) && (nth 1 r 0 =? 47)) eqn:K; [|reflexivity]. exfalso. apply H. destruct (spaces_split a) as (b & s & -> & Hb & Hs). exists b, s.
  destruct r as [|x [|y r]]; cbn [nth] in K; try (cbn in K; discriminate). { rewrite andb_false_r in K. discriminate. } exists r.
  split; [apply andb_true_iff in K; destruct K; assert (x = 47) by lia; assert (y = 47) by lia; subst; rewrite <- app_assoc; reflexivity|]. split; [exact Hb|]. split; [|exact Hs]. intros Q. apply Ha. apply in_or_app. auto.
Qed.
Lemma url_dec url : no_url url \/ exists b sch rest, is_url url b sch rest.
Proof.
  destruct (chr 58 url) as [n|] eqn:E.
  2:{ apply chr_none in E. left. intros (b & sch & rest & -> & _). apply E. apply in_or_app. right. apply in_or_app. right. left. reflexivity. }
  apply chr_some in E. destruct E as (a & r & -> & Ha & ->).
  assert (K : (exists r', r = 47 :: 47 :: r') \/ ~ exists r', r = 47 :: 47 :: r').
  { destruct r as [|x [|y r]]; [right; intros (? & ?); discriminate..|]. destruct (Z.eq_dec x 47) as [->|]; [|right; intros (? & Q); injection Q; congruence]. destruct (Z.eq_dec y 47) as [->|]; [left; eauto|right; intros (? & Q); injection Q; congruence]. }
  destruct K as [(r' & ->)|K].
  - right. destruct (spaces_split a) as (b & s & -> & Hb & Hs). exists b, s, r'. split; [rewrite <- app_assoc; reflexivity|]. split; [exact Hb|]. split; [|exact Hs]. intros Q. apply Ha. apply in_or_app. auto.
  - left. intros (b & sch & rest & Q & Hb & Hc & _). apply K. assert (Hbs : ~ In 58 (b ++ sch)) by (intros W; apply in_app_or in W; destruct W as [W|W]; [apply blank_no_colon in W; assumption|contradiction]).
    replace (b ++ sch ++ [58; 47; 47] ++ rest) with ((b ++ sch) ++ 58 :: 47 :: 47 :: rest) in Q by (rewrite <- app_assoc; reflexivity).
    pose proof (f_equal (chr 58) Q) as C. rewrite chr_app, chr_app in C by assumption. injection C as C. apply (f_equal (skipn (length a + 1))) in Q. rewrite skipn_len1 in Q. rewrite C, skipn_len1 in Q. exists rest. exact Q.
Qed.
