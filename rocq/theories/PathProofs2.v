(** Proofs about paths: delimiters, splitting, relative and absolute paths. *)
From Verif Require Import Base BaseProofs Tree Str StrSpec Scan Path PathSpec PathProofs.

(** A path is what comes before the place GetProtocol gives and what comes after. *)
Definition rooted (url pre rest : list Z) : Prop := (no_url url /\ pre = [] /\ rest = url) \/ exists b sch, is_url url b sch rest /\ pre = b ++ sch ++ [58; 47; 47].
Lemma rooted_at url pre rest : rooted url pre rest -> url = pre ++ rest /\ p_at (get_protocol url) = length pre.
Proof.
  intros [(H & -> & ->)|(b & sch & H & ->)].
  - rewrite protocol_no by exact H. auto.
  - rewrite (protocol_url _ _ _ _ H). destruct H as (-> & _). rewrite <- !app_assoc, !app_length. cbn [length p_at app]. split; [reflexivity|lia].
Qed.
Lemma rooted_ex url : exists pre rest, rooted url pre rest.
Proof. destruct (url_dec url) as [H|(b & sch & rest & H)]; [exists [], url; left; auto|exists (b ++ sch ++ [58; 47; 47]), rest; right; eauto]. Qed.
Lemma last_app_ne (a : list Z) x d : last (a ++ [x]) d = x.
Proof. apply last_last. Qed.
Lemma ends_app a : ends_in_slash (a ++ [47]) = true.
Proof. unfold ends_in_slash. rewrite last_last. reflexivity. Qed.
Lemma cut_all len s : zlen s < len -> cut len s = s.
Proof. intros H. unfold cut. apply firstn_all2. unfold zlen in H. lia. Qed.
Lemma cat_all len s t : zlen s + zlen t < len -> cat len s t = s ++ t.
Proof. intros H. unfold cat. pose proof (zlen_nonneg t). replace (zlen s <? len) with true by lia. apply cut_all. rewrite zlen_app. lia. Qed.
Lemma remove_ok p : p <> [] -> (forall b sch, ~ is_url (p ++ [47]) b sch []) -> remove_delim (p ++ [47]) = p.
Proof.
  intros Hp Hu. unfold remove_delim. destruct (rooted_ex (p ++ [47])) as (pre & rest & R). pose proof (rooted_at _ _ _ R) as [E A]. rewrite A. rewrite E at 1. rewrite skipn_len.
  assert (N : rest <> []). { intros ->. destruct R as [(_ & _ & K)|(b & sch & K & _)]; [destruct p; discriminate|apply (Hu b sch K)]. }
  replace (zlen rest =? 0) with false by (destruct rest; [contradiction|rewrite zlen_cons; pose proof (zlen_nonneg rest); lia]).
  rewrite ends_app. rewrite zlen_app. change (zlen [47]) with 1. assert (1 <= zlen p) by (destruct p; [contradiction|rewrite zlen_cons; pose proof (zlen_nonneg p); lia]).
  replace (0 <? zlen p + 1) with true by lia. replace (1 <? zlen p + 1) with true by lia. cbn [negb andb]. apply removelast_last.
Qed.
Lemma last_char (p : list Z) : p <> [] -> exists q x, p = q ++ [x].
Proof. intros H. destruct (exists_last H) as (q & x & ->). eauto. Qed.
Lemma scheme_ends b sch p : is_url (p ++ [47]) b sch [] -> exists q, p = q ++ [47].
Proof.
  intros (E & _). rewrite app_nil_r in E. replace (b ++ sch ++ [58; 47; 47]) with ((b ++ sch ++ [58; 47]) ++ [47]) in E by (rewrite <- !app_assoc; reflexivity). apply app_inj_tail in E. destruct E as [-> _].
  exists (b ++ sch ++ [58]). rewrite <- !app_assoc. reflexivity.
Qed.

(** ** SplitPath *)
Section Split.
Context (maxpath : Z).
Lemma list_same_length a b : list_same a b = true -> length a = length b.
Proof. intros H. apply list_same_ok in H. induction H; cbn [length]; congruence. Qed.
Lemma http_ok url : 6 <= maxpath -> same_text_ci (cut maxpath (p_name (get_protocol url))) HTTP = true <-> http_url url.
Proof.
  intros M. unfold same_text_ci. destruct (url_dec url) as [H|(b & sch & rest & H)].
  - rewrite protocol_no by exact H. cbn [p_name]. split; [|intros (b & sch & rest & K & _); elim H; eauto]. rewrite cut_all by (vm_compute zlen; lia). intros K. discriminate K.
  - rewrite (protocol_url _ _ _ _ H). cbn [p_name]. split.
    + intros K. exists b, sch, rest. split; [exact H|]. apply list_same_ok. replace sch with (cut maxpath sch); [exact K|]. apply list_same_length in K. unfold cut in *. rewrite firstn_length in K. change (length HTTP) with 4%nat in K. apply firstn_all2. lia.
    + intros (b' & sch' & rest' & K & S). pose proof (protocol_url _ _ _ _ H) as E1. rewrite (protocol_url _ _ _ _ K) in E1. injection E1 as _ E1 _. subst sch'. rewrite cut_all; [apply list_same_ok; exact S|]. apply list_same_ok in S. apply list_same_length in S. change (length _) with 4%nat in S at 2. unfold zlen. lia.
Qed.
Lemma dirs url : exists dir file, dir_file url dir file /\
  (let pr := get_protocol url in let p := skipn (p_at pr) url in
   match last_sep p with Some k => (firstn (p_at pr + k) url, skipn (p_at pr + k + 1) url) | None => if p_host pr then (url, []) else (firstn (p_at pr) url, p) end) = (dir, file) /\
  (exists s, url = dir ++ s ++ file).
Proof.
  destruct (url_dec url) as [H|(b & sch & rest & H)].
  - rewrite protocol_no by exact H. cbn [p_at p_host skipn]. cbv zeta. destruct (split_last url) as [N|(a & c & f & -> & Hc & Hf)].
    + rewrite last_sep_none by exact N. exists [], url. split; [constructor; assumption|]. split; [reflexivity|]. exists []. reflexivity.
    + rewrite last_sep_app by assumption. exists a, f. split; [constructor; assumption|]. cbn [Nat.add]. rewrite firstn_len, skipn_len1. split; [reflexivity|]. exists [c]. reflexivity.
  - rewrite (protocol_url _ _ _ _ H). cbn [p_at p_host]. cbv zeta. pose proof H as (E & _ & Hc0 & _). set (pre := b ++ sch ++ [58; 47; 47]). assert (E' : url = pre ++ rest) by (unfold pre; rewrite <- !app_assoc; exact E).
    replace (length b + length sch + 3)%nat with (length pre) by (unfold pre; rewrite !app_length; cbn [length]; lia). assert (Sk : skipn (length pre) url = rest) by (rewrite E'; apply skipn_len). rewrite Sk.
    destruct (split_last rest) as [N|(a & c & f & Er & Hc & Hf)].
    + rewrite last_sep_none by exact N. destruct (local_dec sch) eqn:L; cbn [negb].
      * apply local_dec_ok in L; [|exact Hc0]. exists pre, rest. split; [eapply df_scheme; eassumption|]. split; [f_equal; rewrite E'; apply firstn_len|]. exists []. exact E'.
      * exists url, []. split; [eapply df_host; try eassumption; intros K; apply local_dec_ok in K; [congruence|exact Hc0]|]. split; [reflexivity|]. exists []. rewrite !app_nil_r. reflexivity.
    + rewrite Er, last_sep_app by assumption. exists (pre ++ a), f. rewrite E', Er. split; [|split].
      * unfold pre. rewrite <- !app_assoc. apply df_url with (c := c); [|assumption..]. rewrite Er in H. unfold is_url in *. intuition.
      * rewrite app_assoc. replace (length pre + length a)%nat with (length (pre ++ a)) by apply app_length. rewrite firstn_len, skipn_len1. reflexivity.
      * exists [c]. rewrite <- app_assoc. reflexivity.
Qed.
Lemma split_ok url : 6 <= maxpath -> zlen url < maxpath \/ ~ http_url url ->
  exists dir file f name ext, dir_file url dir file /\ no_fragment url file f /\ name_ext f name ext /\ split_path maxpath false url = Ok (dir, name, ext) /\ split_path maxpath true url = Ok (dir, f, f).
Proof.
  intros M L. destruct (dirs url) as (dir & file & D & E & (s & Es)).
  set (g := if same_text_ci (cut maxpath (p_name (get_protocol url))) HTTP && match rchr 35 file with Some _ => true | None => false end then
       match rchr 35 (cut maxpath file) with Some k => Ok (firstn k (cut maxpath file)) | None => Null end else Ok file).
  assert (G : exists f, g = Ok f /\ no_fragment url file f).
  { unfold g. destruct (same_text_ci (cut maxpath (p_name (get_protocol url))) HTTP) eqn:K; cbn [andb].
    - apply http_ok in K; [|exact M]. destruct L as [L|L]; [|contradiction]. destruct (rchr 35 file) as [k|] eqn:R.
      + rewrite cut_all by (rewrite Es, !zlen_app in L; pose proof (zlen_nonneg dir); pose proof (zlen_nonneg s); lia). rewrite R. apply rchr_some in R. destruct R as (a & r & -> & Hr & ->). rewrite firstn_len. exists a. split; [reflexivity|]. left. split; [exact K|]. exists r. auto.
      + apply rchr_none in R. exists file. split; [reflexivity|]. right. auto.
    - exists file. split; [reflexivity|]. right. split; [|reflexivity]. left. intros Q. apply http_ok in Q; [|exact M]. congruence. }
  destruct G as (f & G & Nf). exists dir, file, f.
  assert (Q : forall alias, split_path maxpath alias url = do file <- g; if alias then Ok (dir, file, file) else match rchr 46 file with Some k => Ok (dir, firstn k file, if (k + 1 <? length file)%nat then skipn (k + 1) file else skipn k file) | None => Ok (dir, file, []) end).
  { intros alias. unfold split_path. cbv zeta in E. cbv zeta. rewrite E. reflexivity. }
  rewrite !Q, G. cbn [bind]. destruct (rchr 46 f) as [k|] eqn:R.
  - apply rchr_some in R. destruct R as (a & r & -> & Hr & ->). rewrite firstn_len, skipn_len1, skipn_len. rewrite app_length. cbn [length]. destruct r as [|x r].
    + exists a, [46]. change (length a + S (length (@nil Z)))%nat with (length a + 1)%nat. rewrite Nat.ltb_irrefl. repeat split; try assumption. apply ne_dot.
    + exists a, (x :: r). replace (length a + 1 <? length a + S (length (x :: r)))%nat with true by (symmetry; apply Nat.ltb_lt; cbn [length]; lia). repeat split; try assumption. apply ne_ext; [assumption|discriminate].
  - apply rchr_none in R. exists f, []. repeat split; try assumption. apply ne_none. exact R.
Qed.
(** The fragment of a long http file name. *)
Lemma split_null b sch dir c n post alias : 6 <= maxpath -> sep c -> is_url (b ++ sch ++ [58; 47; 47] ++ dir ++ c :: n ++ 35 :: post) b sch (dir ++ c :: n ++ 35 :: post) -> same_text sch HTTP ->
  ~ In 35 n -> no_seps n -> no_seps post -> maxpath - 1 <= zlen n -> split_path maxpath alias (b ++ sch ++ [58; 47; 47] ++ dir ++ c :: n ++ 35 :: post) = Null.
Proof.
  intros M Hc U S N1 N2 N3 L. set (url := b ++ sch ++ [58; 47; 47] ++ dir ++ c :: n ++ 35 :: post) in *. unfold split_path. cbv zeta. rewrite (protocol_url _ _ _ _ U). cbn [p_at p_name p_host].
  set (pre := b ++ sch ++ [58; 47; 47]). assert (E' : url = (pre ++ dir) ++ c :: n ++ 35 :: post) by (unfold pre, url; rewrite <- !app_assoc; reflexivity).
  replace (length b + length sch + 3)%nat with (length pre) by (unfold pre; rewrite !app_length; cbn [length]; lia). rewrite E'. rewrite <- app_assoc, skipn_len.
  assert (Nf : no_seps (n ++ 35 :: post)) by (apply Forall_app; split; [exact N2|constructor; [unfold sep; lia|exact N3]]). rewrite last_sep_app by assumption.
  rewrite app_assoc. replace (length pre + length dir)%nat with (length (pre ++ dir)) by apply app_length. rewrite skipn_len1.
  assert (H : same_text_ci (cut maxpath sch) HTTP = true). { unfold same_text_ci. rewrite cut_all; [apply list_same_ok; exact S|]. apply list_same_ok in S. apply list_same_length in S. change (length HTTP) with 4%nat in S. unfold zlen. lia. }
  rewrite H. cbn [andb]. destruct (rchr 35 (n ++ 35 :: post)) eqn:R; [|apply rchr_none in R; elim R; apply in_or_app; right; left; reflexivity].
  replace (rchr 35 (cut maxpath (n ++ 35 :: post))) with (@None nat); [reflexivity|]. symmetry. apply rchr_none. unfold cut. rewrite firstn_app. replace (Z.to_nat (maxpath - 1) - length n)%nat with O by (unfold zlen in L; lia). cbn [firstn]. rewrite app_nil_r.
  intros K. apply N1. rewrite <- (firstn_skipn (Z.to_nat (maxpath - 1)) n). apply in_or_app. left. exact K.
Qed.
End Split.

(** ** RelPath and AbsPath *)
Lemma list_same_refl a : list_same a a = true.
Proof. apply list_same_ok. induction a; constructor; [left; reflexivity|assumption]. Qed.
Lemma under_base base rest : base <> [] -> under (length base) (base ++ 47 :: rest) base = true.
Proof.
  intros H. unfold under. replace (0 <? length base)%nat with true by (destruct base; [contradiction|reflexivity]). rewrite app_length. cbn [length]. replace (length base <? length base + S (length rest))%nat with true by (symmetry; apply Nat.ltb_lt; lia).
  unfold char_of. rewrite app_nth2, Nat.sub_diag by lia. cbn [nth]. unfold nicmp_same. rewrite firstn_len, firstn_all, list_same_refl. reflexivity.
Qed.
Lemma normalize_id s : ~ In 92 s -> normalize s = s.
Proof. intros H. unfold normalize. destruct (_ =? _)%nat; [reflexivity|]. rewrite <- (map_id s) at 2. apply map_ext_in. intros c Hc. destruct (Z.eqb_spec c 92) as [->|]; [contradiction|reflexivity]. Qed.
Lemma char0_sep rest : (match rest with x :: _ => ~ sep x | [] => True end) -> is_sep (char_of rest 0) = false.
Proof. intros H. destruct rest as [|x r]; [reflexivity|]. unfold char_of. cbn [nth]. unfold is_sep, sep in *. destruct (Z.eqb_spec x 92), (Z.eqb_spec x 47); try reflexivity; elim H; auto. Qed.
Lemma rel_abs_base len base rest : base <> [] -> last base 0 <> 47 -> ~ In 92 (base ++ rest) -> Forall (fun c => c <> 0) rest -> relative rest -> zlen (base ++ 47 :: rest) < len ->
  abs_path len rest (Some base) = base ++ 47 :: rest.
Proof.
  intros Hb Hl Hs Hz (R1 & R2 & R3) Hlen. unfold abs_path. rewrite (char0_sep rest R2). rewrite andb_false_r. cbn [andb negb]. rewrite (protocol_no rest R1). cbn [p_at Nat.eqb andb].
  assert (D : negb (zlen rest =? 0) && (char_of rest 1 =? 58) && ((char_of rest 2 =? 92) || (char_of rest 2 =? 0)) = false).
  { destruct rest as [|x [|y r]]; [reflexivity|apply andb_false_intro1; apply andb_false_r|]. unfold char_of. cbn [nth]. destruct (Z.eqb_spec y 58) as [->|]; [|apply andb_false_intro1; apply andb_false_r].
    destruct (R3 x r eq_refl) as (z & r' & -> & Hz2). cbn [nth]. replace (z =? 92) with false by lia. do 3 (apply Forall_cons_iff in Hz; destruct Hz as [? Hz]). replace (z =? 0) with false by lia. apply andb_false_r. }
  rewrite D. cbn [negb]. rewrite zlen_app, zlen_cons in Hlen. pose proof (zlen_nonneg rest). rewrite (cut_all len base) by lia.
  destruct (rooted_ex base) as (pre & r & Rt). destruct (rooted_at _ _ _ Rt) as [E A]. rewrite A. rewrite E at 1. rewrite skipn_len.
  assert (N : r <> []). { intros ->. destruct Rt as [(_ & _ & K)|(b & sch & _ & K)]; [symmetry in K; contradiction|]. apply Hl. rewrite E, app_nil_r, K. replace (b ++ sch ++ [58; 47; 47]) with ((b ++ sch ++ [58; 47]) ++ [47]) by (rewrite <- !app_assoc; reflexivity). apply last_last. }
  replace (zlen r =? 0) with false by (destruct r; [contradiction|rewrite zlen_cons; pose proof (zlen_nonneg r); lia]).
  unfold add_delim. unfold ends_in_slash. replace (last base 0 =? 47) with false by lia. rewrite orb_true_r. rewrite (cat_all len base [47]) by (change (zlen [47]) with 1; lia).
  rewrite cat_all by (rewrite zlen_app; change (zlen [47]) with 1; lia). rewrite <- app_assoc. cbn [app]. apply normalize_id. intros K. apply Hs. apply in_or_app. apply in_app_or in K. destruct K as [K|[K|K]]; [auto|discriminate|auto].
Qed.
Lemma rel_abs len base rest : base <> [] -> last base 0 <> 47 -> ~ In 92 (base ++ rest) -> Forall (fun c => c <> 0) rest -> relative rest -> zlen (base ++ 47 :: rest) < len ->
  abs_path len (rel_path len (base ++ 47 :: rest) base) (Some base) = base ++ 47 :: rest.
Proof.
  intros Hb Hl Hs Hz Hr Hlen. pose proof (rel_abs_base len base rest Hb Hl Hs Hz Hr Hlen) as Main.
  assert (Lr : zlen rest < len) by (rewrite zlen_app, zlen_cons in Hlen; pose proof (zlen_nonneg base); lia).
  assert (Direct : cut len (if under (length base) (base ++ 47 :: rest) base then skipn (length base + 1) (base ++ 47 :: rest) else base ++ 47 :: rest) = rest).
  { rewrite under_base by assumption. rewrite skipn_len1. apply cut_all. exact Lr. }
  destruct (url_dec base) as [H|(b & sch & r & H)].
  - unfold rel_path. rewrite (protocol_no base H). cbn [p_at]. rewrite Direct. exact Main.
  - pose proof (protocol_url _ _ _ _ H) as P. set (pre := b ++ sch ++ [58; 47; 47]). assert (E : base = pre ++ r) by (unfold pre; rewrite <- !app_assoc; apply H).
    replace (length b + length sch + 3)%nat with (length pre) in P by (unfold pre; rewrite !app_length; cbn [length]; lia).
    assert (Nr : r <> []). { intros ->. apply Hl. rewrite E, app_nil_r. unfold pre. replace (b ++ sch ++ [58; 47; 47]) with ((b ++ sch ++ [58; 47]) ++ [47]) by (rewrite <- !app_assoc; reflexivity). apply last_last. }
    assert (Lp : (0 < length pre)%nat) by (unfold pre; rewrite !app_length; cbn [length]; lia).
    (* taking n characters off both *)
    assert (Strip : forall u w, base = u ++ w -> u <> [] -> w <> [] -> (let '(path, base) := if under (length u) (base ++ 47 :: rest) base then (skipn (length u) (base ++ 47 :: rest), skipn (length u) base) else (base ++ 47 :: rest, base) in
      cut len (if under (length base) path base then skipn (length base + 1) path else path)) = rest).
    { intros u w Eu Nu Nw. destruct (under (length u) (base ++ 47 :: rest) base); [|exact Direct]. rewrite Eu, <- app_assoc, !skipn_len. rewrite under_base by assumption. rewrite skipn_len1. apply cut_all. exact Lr. }
    assert (Np : pre <> []) by (intros K; rewrite K in Lp; cbn in Lp; lia).
    assert (Sk : skipn (length pre) base = r) by (rewrite E; apply skipn_len).
    unfold rel_path at 1. rewrite P. cbn [p_at p_host]. assert (Mt : forall (X : Type) (a b : X), match length pre with O => a | S _ => b end = b) by (intros X a b0; destruct (length pre); [lia|reflexivity]). rewrite Mt. rewrite Sk. cbv zeta.
    destruct (local_dec sch) eqn:Lo; cbn [negb].
    + rewrite (Strip pre r E Np Nr). exact Main.
    + destruct (split_first r) as [N|(a & c & w & Er & Hc & Ha)].
      * rewrite first_sep_none by exact N. rewrite under_base by assumption. rewrite skipn_len, skipn_all. unfold under at 1. cbn [length Nat.ltb Nat.leb andb]. rewrite cut_all by (rewrite zlen_cons; rewrite zlen_app, zlen_cons in Hlen; assert (1 <= zlen base) by (destruct base; [contradiction|rewrite zlen_cons; pose proof (zlen_nonneg base); lia]); lia).
        unfold abs_path. rewrite P. cbn [p_at]. replace (length pre =? 0)%nat with false by (symmetry; apply Nat.eqb_neq; lia). cbn [negb andb]. change (is_sep (char_of (47 :: rest) 0)) with true. change (char_of (47 :: rest) 1) with (char_of rest 0). rewrite char0_sep by apply Hr. cbn [negb andb].
        rewrite (cut_all len base) by (rewrite zlen_app in Hlen; pose proof (zlen_nonneg (47 :: rest)); lia). rewrite P. cbn [p_host p_at negb]. rewrite Sk. rewrite first_sep_none by exact N. rewrite cat_all by (rewrite zlen_app in Hlen; exact Hlen).
        apply normalize_id. intros K. apply Hs. apply in_or_app. apply in_app_or in K. destruct K as [K|[K|K]]; [auto|discriminate|auto].
      * replace (first_sep r) with (Some (length a)) by (rewrite Er; symmetry; apply first_sep_app; assumption). replace (length pre + length a)%nat with (length (pre ++ a)) by apply app_length.
        rewrite (Strip (pre ++ a) (c :: w)); [exact Main|rewrite E, Er, app_assoc; reflexivity|destruct pre; [contradiction|discriminate]|discriminate].
Qed.
