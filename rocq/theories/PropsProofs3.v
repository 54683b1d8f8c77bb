From Verif Require Import Base BaseProofs Arr ArrSpec ArrProofs ArrProofs2 ClassesProofs Tree NodeData Props PropsSpec PropsProofs PropsProofs2.

Definition wr (o : list Z) (ofs : Z) (d : list Z) : list Z := firstn (Z.to_nat ofs) o ++ d ++ skipn (Z.to_nat (ofs + zlen d)) o.

Lemma nth_ext_err {A} : forall a b : list A, (forall i, nth_error a i = nth_error b i) -> a = b.
Proof.
  induction a as [|x a IH]; intros b H; destruct b as [|y b]; [reflexivity|discriminate (H O)|discriminate (H O)|].
  pose proof (H O) as E. cbn in E. injection E as <-. f_equal. apply IH. intros i. exact (H (S i)).
Qed.
Lemma aget_out {A} (l : list A) i : ~ 0 <= i < zlen l -> aget l i = None.
Proof. intros H. destruct (aget l i) eqn:E; [|reflexivity]. exfalso. apply H. apply aget_some_iff. eauto. Qed.
Lemma aget_eq {A} (a b : list A) : (forall i, aget a i = aget b i) -> a = b.
Proof. intros H. apply nth_ext_err. intros i. specialize (H (Z.of_nat i)). unfold aget in H. replace (Z.of_nat i <? 0) with false in H by lia. rewrite Nat2Z.id in H. exact H. Qed.
Lemma zlen_firstn {A} (l : list A) n : 0 <= n <= zlen l -> zlen (firstn (Z.to_nat n) l) = n.
Proof. intros H. unfold zlen in *. rewrite firstn_length. lia. Qed.
Lemma zlen_skipn {A} (l : list A) n : 0 <= n <= zlen l -> zlen (skipn (Z.to_nat n) l) = zlen l - n.
Proof. intros H. unfold zlen in *. rewrite skipn_length. lia. Qed.

Lemma store_wr o ofs d : 0 <= ofs -> ofs + zlen d <= zlen o -> store o ofs d = Ok (wr o ofs d).
Proof. intros H1 H2. unfold store. replace ((0 <=? ofs) && (ofs + zlen d <=? zlen o)) with true by lia. reflexivity. Qed.
Lemma wr_len o ofs d : 0 <= ofs -> ofs + zlen d <= zlen o -> zlen (wr o ofs d) = zlen o.
Proof. intros H1 H2. pose proof (zlen_nonneg d). unfold wr. rewrite !zlen_app, zlen_firstn, zlen_skipn by lia. lia. Qed.
Lemma wr_in o ofs d i : 0 <= ofs -> ofs + zlen d <= zlen o -> ofs <= i < ofs + zlen d -> aget (wr o ofs d) i = aget d (i - ofs).
Proof.
  intros H1 H2 H3. unfold wr. rewrite aget_app_r by (rewrite zlen_firstn; lia). rewrite zlen_firstn by lia. rewrite aget_app_l by lia. reflexivity.
Qed.
Lemma wr_out o ofs d i : 0 <= ofs -> ofs + zlen d <= zlen o -> i < ofs \/ ofs + zlen d <= i -> aget (wr o ofs d) i = aget o i.
Proof.
  intros H1 H2 H3. pose proof (zlen_nonneg d). unfold wr. destruct H3 as [H3|H3].
  - rewrite aget_app_l by (rewrite zlen_firstn; lia). destruct (Z.ltb_spec i 0); [rewrite !aget_out by lia; reflexivity|]. apply aget_firstn. lia.
  - rewrite aget_app_r by (rewrite zlen_firstn; lia). rewrite zlen_firstn by lia. rewrite aget_app_r by lia. rewrite aget_skip by lia. f_equal. lia.
Qed.

Lemma load_ok o ofs n : 0 <= ofs -> 0 <= n -> ofs + n <= zlen o -> exists d, load o ofs n = Ok d /\ zlen d = n /\ (forall i, 0 <= i < n -> aget d i = aget o (ofs + i)).
Proof.
  intros H1 H0 H2. unfold load. replace ((0 <=? ofs) && (ofs + n <=? zlen o)) with true by lia. eexists. split; [reflexivity|].
  assert (L : zlen (firstn (Z.to_nat n) (skipn (Z.to_nat ofs) o)) = n) by (apply zlen_firstn; rewrite zlen_skipn; lia). split; [exact L|].
  intros i Hi. rewrite aget_firstn by lia. apply aget_skip; lia.
Qed.
Lemma load_is o ofs n d : 0 <= ofs -> ofs + n <= zlen o -> zlen d = n -> (forall i, 0 <= i < n -> aget o (ofs + i) = aget d i) -> load o ofs n = Ok d.
Proof.
  intros H1 H2 H3 H. pose proof (zlen_nonneg d). destruct (load_ok o ofs n H1 ltac:(lia) H2) as (d' & -> & L & G). f_equal. apply aget_eq. intros i.
  destruct (Z.ltb_spec i 0); [rewrite !aget_out by lia; reflexivity|]. destruct (Z.ltb_spec i n); [rewrite G, H by lia; reflexivity|rewrite !aget_out by lia; reflexivity].
Qed.
Lemma load_wr o ofs d : 0 <= ofs -> ofs + zlen d <= zlen o -> load (wr o ofs d) ofs (zlen d) = Ok d.
Proof. intros H1 H2. apply load_is; [exact H1|rewrite wr_len; lia|reflexivity|]. intros i Hi. rewrite wr_in by lia. f_equal. lia. Qed.
Lemma load_ext o o' ofs n : zlen o' = zlen o -> (forall i, ofs <= i < ofs + n -> aget o' i = aget o i) -> 0 <= n -> load o' ofs n = load o ofs n.
Proof.
  intros L H Hn. destruct ((0 <=? ofs) && (ofs + n <=? zlen o)) eqn:X; [|unfold load; rewrite L, X; reflexivity].
  apply andb_true_iff in X. destruct X as [X1 X2]. destruct (load_ok o ofs n ltac:(lia) Hn ltac:(lia)) as (d & -> & Ld & G). apply load_is; [lia|lia|exact Ld|]. intros i Hi. rewrite H, G by lia. reflexivity.
Qed.

(** ** Words *)
Definition bytes (l : list Z) : Prop := Forall (fun b => 0 <= b < 256) l.
Lemma le_ptr_bound d : bytes d -> 0 <= le_ptr d < 256 ^ zlen d.
Proof.
  induction 1 as [|b d Hb _ IH]; [cbn; lia|]. cbn [le_ptr]. rewrite zlen_cons. pose proof (zlen_nonneg d). rewrite Z.pow_add_r by lia. change (256 ^ 1) with 256. lia.
Qed.
Lemma le_bytes_len n : forall x, zlen (le_bytes n x) = Z.of_nat n.
Proof. induction n as [|n IH]; intros x; [reflexivity|]. cbn [le_bytes]. rewrite zlen_cons, IH. lia. Qed.
Lemma le_bytes_bytes n : forall x, bytes (le_bytes n x).
Proof. induction n as [|n IH]; intros x; constructor; [apply Z.mod_pos_bound; lia|apply IH]. Qed.
Lemma le_ptr_bytes n : forall x, le_ptr (le_bytes n x) = x mod 256 ^ Z.of_nat n.
Proof.
  induction n as [|n IH]; intros x; [cbn [le_bytes le_ptr]; change (256 ^ Z.of_nat 0) with 1; rewrite Z.mod_1_r; reflexivity|].
  cbn [le_bytes le_ptr]. rewrite IH. replace (Z.of_nat (S n)) with (1 + Z.of_nat n) by lia. rewrite Z.pow_add_r by lia. change (256 ^ 1) with 256. rewrite (Z.rem_mul_r x 256) by (try lia; apply Z.pow_pos_nonneg; lia). reflexivity.
Qed.
Lemma aget_bytes o i x : bytes o -> aget o i = Some x -> 0 <= x < 256.
Proof. intros H E. unfold bytes in H. rewrite Forall_forall in H. apply H. apply aget_in in E. exact E. Qed.
Lemma load_bytes o ofs n d : bytes o -> load o ofs n = Ok d -> bytes d.
Proof.
  intros H. unfold load. destruct (_ && _); [|discriminate]. intros [= <-]. unfold bytes in *. rewrite Forall_forall in *. intros x Hx. apply H.
  rewrite <- (firstn_skipn (Z.to_nat ofs) o). apply in_or_app. right. rewrite <- (firstn_skipn (Z.to_nat n) (skipn (Z.to_nat ofs) o)). apply in_or_app. left. exact Hx.
Qed.

Lemma bits_lt n x i : 0 <= n <= i -> 0 <= x < 2 ^ n -> Z.testbit x i = false.
Proof. intros Hn Hx. destruct (Z.eq_dec x 0) as [->|N]; [apply Z.testbit_0_l|]. apply Z.bits_above_log2; [lia|]. assert (Z.log2 x < n) by (apply Z.log2_lt_pow2; lia). lia. Qed.
Lemma word_or x m : 0 <= x < 2 ^ 32 -> 0 <= m < 2 ^ 32 -> 0 <= Z.lor x m < 2 ^ 32.
Proof.
  intros Hx Hm. split; [apply Z.lor_nonneg; lia|]. destruct (Z.eq_dec (Z.lor x m) 0) as [->|N]; [lia|]. apply Z.log2_lt_pow2; [pose proof (proj2 (Z.lor_nonneg x m)); lia|]. rewrite Z.log2_lor by lia.
  assert (forall y, 0 <= y < 2 ^ 32 -> Z.log2 y < 32) as K by (intros y Hy; destruct (Z.eq_dec y 0) as [->|]; [reflexivity|apply Z.log2_lt_pow2; lia]). pose proof (K x Hx). pose proof (K m Hm). lia.
Qed.
Lemma word_clear x m : 0 <= x < 2 ^ 32 -> 0 <= Z.land x (Z.lnot m) < 2 ^ 32.
Proof.
  intros Hx. split; [apply Z.land_nonneg; lia|]. destruct (Z.eq_dec (Z.land x (Z.lnot m)) 0) as [->|N]; [lia|].
  assert (0 <= Z.land x (Z.lnot m)) by (apply Z.land_nonneg; lia). apply Z.log2_lt_pow2; [lia|].
  destruct (Z.ltb_spec (Z.log2 (Z.land x (Z.lnot m))) 32) as [Q|Q]; [exact Q|exfalso].
  pose proof (Z.bit_log2 (Z.land x (Z.lnot m)) ltac:(lia)) as B. rewrite Z.land_spec, (bits_lt 32 x) in B by lia. discriminate.
Qed.
Lemma or_has x m : m <> 0 -> Z.land (Z.lor x m) m <> 0.
Proof. intros N E. apply N. rewrite Z.land_comm, Z.lor_comm, Z.land_lor_distr_r, Z.land_diag in E. apply Z.lor_eq_0_iff in E. tauto. Qed.
Lemma clear_has x m : Z.land (Z.land x (Z.lnot m)) m = 0.
Proof. rewrite <- Z.land_assoc, (Z.land_comm (Z.lnot m)), Z.land_lnot_diag. apply Z.land_0_r. Qed.
Lemma or_other x m k : Z.land m k = 0 -> Z.land (Z.lor x m) k = Z.land x k.
Proof. intros E. rewrite Z.land_comm, Z.land_lor_distr_r, (Z.land_comm k m), E, Z.lor_0_r. apply Z.land_comm. Qed.
Lemma clear_other x m k : Z.land m k = 0 -> Z.land (Z.land x (Z.lnot m)) k = Z.land x k.
Proof.
  intros E. apply Z.bits_inj'. intros i Hi. rewrite !Z.land_spec, Z.lnot_spec by exact Hi. assert (B : Z.testbit (Z.land m k) i = false) by (rewrite E; apply Z.testbit_0_l). rewrite Z.land_spec in B.
  destruct (Z.testbit x i), (Z.testbit m i), (Z.testbit k i); try reflexivity; discriminate.
Qed.

Section Values.
Context (ms ue : Z -> Z).
Definition upd_of (u : option Z) : Z := match u with Some f => ue f | None => 0 end.

Lemma mds24 id : max_data_size ms id 24 = Some 8.
Proof. unfold max_data_size. change (Z.land 24 63) with 24. cbn [Z.eqb Pos.eqb]. unfold type_size. change (Z.land 24 63) with 24. reflexivity. Qed.
Lemma mds_nonneg id ty n : (forall i, 0 <= ms i) -> max_data_size ms id ty = Some n -> 0 <= n.
Proof.
  intros Hm. unfold max_data_size. cbv zeta. destruct (Z.land ty 63 =? 0); [intros Q; assert (n = 0) by congruence; lia|]. destruct (type_size _) as [k|] eqn:E; [|discriminate]. intros Q. assert (Hn : n = if (k =? MAXDATA) && negb (Z.land ty 63 =? T_STRING) then (if ms id =? 0 then MAXDATA else ms id) else k) by congruence. rewrite Hn.
  assert (0 <= k). { unfold type_size in E. apply nth_error_In in E. unfold param_size, MAXDATA in E. cbn [In] in E. repeat (destruct E as [E|E]; [lia|]). destruct E. }
  destruct (_ && _); [|assumption]. specialize (Hm id). destruct (ms id =? 0); unfold MAXDATA; lia.
Qed.

Lemma eq_data_exact ty a b : ty <> 3 -> eq_data ty a (Some b) = true -> a = b.
Proof. intros N. cbn [eq_data]. replace (ty =? 3) with false by lia. destruct (list_eq_dec Z.eq_dec a b); [auto|discriminate]. Qed.
Lemma all_zero_repeat l : all_zero l = true -> l = repeat 0 (length l).
Proof. induction l as [|b l IH]; intros H; [reflexivity|]. unfold all_zero in H. cbn [forallb] in H. apply andb_true_iff in H. destruct H as [H1 H2]. cbn [length repeat]. f_equal; [lia|apply IH; exact H2]. Qed.

Lemma set_plain o id ty ofs fl u n d : special ty = false -> max_data_size ms id ty = Some n -> 0 <= n -> 0 <= ofs -> ofs + n <= zlen o ->
  (forall v, d = Some v -> zlen v = n) ->
  let v := match d with Some v => v | None => repeat 0 (Z.to_nat n) end in
  (exists now, load o ofs n = Ok now /\ zlen now = n /\ eq_data ty now d = true /\ set_value ms ue o id ty ofs fl u None d = Ok (0, o)) \/
  (zlen v = n /\ set_value ms ue o id ty ofs fl u None d = Ok (upd_of u, wr o ofs v)).
Proof.
  intros Hs Hm H0 H1 H2 Hd v. unfold set_value. rewrite Hs, Hm. cbn [opt_res bind].
  replace (match d with Some d => negb (zlen d =? n) | None => false end) with false by (destruct d as [d|]; [rewrite (Hd d eq_refl), Z.eqb_refl|]; reflexivity).
  destruct (load_ok o ofs n H1 H0 H2) as (now & -> & L & _). cbn [bind].
  assert (Lv : zlen v = n) by (unfold v; destruct d as [d|]; [exact (Hd d eq_refl)|unfold zlen; rewrite repeat_length; lia]).
  destruct (negb (Z.land fl DFLAG_CMP =? 0) && eq_data ty now d) eqn:X.
  - left. exists now. apply andb_true_iff in X. destruct X as [_ X]. auto.
  - right. split; [exact Lv|]. fold v. rewrite store_wr by lia. cbn [bind]. reflexivity.
Qed.
Lemma get_plain o id ty ofs n : special ty = false -> max_data_size ms id ty = Some n -> get_value ms o id ty ofs None n = do d <- load o ofs n; Ok (0, d).
Proof. intros Hs Hm. unfold get_value. rewrite Hs, Hm. cbn [opt_res bind]. rewrite Z.eqb_refl. reflexivity. Qed.

Lemma bool_bytes_zero b : all_zero (bool_bytes b) = negb b.
Proof. destruct b; reflexivity. Qed.

Lemma set_bit o id ofs fl u m d : bytes o -> 0 <= m < 2 ^ 32 -> 0 <= ofs -> ofs + 4 <= zlen o -> (forall v, d = Some v -> zlen v = 8) ->
  let on := match d with Some v => negb (all_zero v) | None => false end in
  exists w, load o ofs 4 = Ok w /\ 0 <= le_ptr w < 2 ^ 32 /\
  ((negb (Z.land (le_ptr w) m =? 0) = on /\ set_value ms ue o id 24 ofs fl u (Some m) d = Ok (0, o)) \/
   (exists w', set_value ms ue o id 24 ofs fl u (Some m) d = Ok (upd_of u, wr o ofs w') /\ zlen w' = 4 /\
      le_ptr w' = if on then Z.lor (le_ptr w) m else Z.land (le_ptr w) (Z.lnot m))).
Proof.
  intros Hb Hm H1 H2 Hd on. unfold set_value. change (special 24) with false. cbv iota. rewrite mds24. cbn [opt_res bind].
  replace (match d with Some d => negb (zlen d =? 8) | None => false end) with false by (destruct d as [d|]; [rewrite (Hd d eq_refl), Z.eqb_refl|]; reflexivity).
  destruct (load_ok o ofs 4 H1 ltac:(lia) H2) as (w & E & L & _). exists w. split; [exact E|]. rewrite E. cbn [bind].
  pose proof (le_ptr_bound w (load_bytes _ _ _ _ Hb E)) as B. rewrite L in B. change (256 ^ 4) with (2 ^ 32) in B. split; [exact B|].
  destruct (negb (Z.land fl DFLAG_CMP =? 0) && eq_data 24 (bool_bytes (negb (Z.land (le_ptr w) m =? 0))) d) eqn:X.
  - left. split; [|reflexivity]. apply andb_true_iff in X. destruct X as [_ X]. unfold on. destruct d as [d|].
    + apply eq_data_exact in X; [|lia]. rewrite <- X, bool_bytes_zero, negb_involutive. reflexivity.
    + cbn [eq_data] in X. rewrite bool_bytes_zero in X. destruct (negb (Z.land (le_ptr w) m =? 0)); [discriminate|reflexivity].
  - right. fold on. set (y := if on then Z.lor (le_ptr w) m else Z.land (le_ptr w) (Z.lnot m)). exists (le_bytes 4 y). rewrite store_wr by (rewrite ?le_bytes_len; lia). cbn [bind].
    split; [reflexivity|]. split; [apply le_bytes_len|]. rewrite le_ptr_bytes. change (256 ^ Z.of_nat 4) with (2 ^ 32). apply Z.mod_small. unfold y. destruct on; [apply word_or; assumption|apply word_clear; assumption].
Qed.
Lemma get_bit o id ofs m : get_value ms o id 24 ofs (Some m) 8 = do d <- load o ofs 4; Ok (0, bool_bytes (negb (Z.land (le_ptr d) m =? 0))).
Proof. unfold get_value. change (special 24) with false. reflexivity. Qed.
End Values.

Section Resolve.
Context (ms ue : Z -> Z).
Lemma property_is w c id a : tidy w c -> resolved w c id a -> property w c id = Ok a.
Proof. intros T R. destruct (property_ok w c id T) as (a' & E & R'). rewrite E. f_equal. exact (resolved_one w c id a' a R' R). Qed.
Lemma nearest_sub (P Q : entry -> Prop) c e : nearest P c e -> (forall x, Q x -> P x) -> Q e -> nearest Q c e.
Proof. intros (p & s & E & _ & Hp) K He. exists p, s. split; [exact E|]. split; [exact He|]. eapply Forall_impl; [|exact Hp]. intros x N Qx. apply N. apply K. exact Qx. Qed.
Lemma keeps_both c id e ty ofs fl u : keeps c id e -> e_meta e = MData ty ofs fl u -> Z.testbit fl 0 = false -> nearest (about WGet id) c e /\ nearest (about WSet id) c e.
Proof.
  intros K Em B. assert (I : e_id e = id) by (apply nearest_in in K; destruct K as [_ [[I _]|[I _]]]; exact I).
  split; (eapply nearest_sub; [exact K|intros x Hx; cbv beta; first [left; exact Hx|right; exact Hx]|]); (split; [exact I|rewrite Em; cbn [takes_part]; first [left; reflexivity|right; exact B]]).
Qed.

Lemma set_effect o id ty ofs fl u mask d err o' : byte_list o -> (forall m, mask = Some m -> 0 <= m < 2 ^ 32) -> set_value ms ue o id ty ofs fl u mask d = Ok (err, o') ->
  o' = o \/ exists k, o' = wr o ofs k /\ 0 <= ofs /\ ofs + zlen k <= zlen o /\
    match mask with
    | None => max_data_size ms id ty = Some (zlen k) \/ (d = None /\ exists n, max_data_size ms id ty = Some n /\ n < 0 /\ k = [])
    | Some m => zlen k = 4 /\ exists w, load o ofs 4 = Ok w /\ (le_ptr k = Z.lor (le_ptr w) m \/ le_ptr k = Z.land (le_ptr w) (Z.lnot m))
    end.
Proof.
  intros Hb Hm. unfold set_value. destruct (special ty); [discriminate|]. destruct (max_data_size ms id ty) as [n|]; [|discriminate]. cbn [opt_res bind].
  destruct (match d with Some d => negb (zlen d =? n) | None => false end) eqn:Z0; [intros [= _ <-]; left; reflexivity|].
  destruct mask as [m|].
  - specialize (Hm m eq_refl). destruct (load o ofs 4) as [| | |w] eqn:E; try discriminate. cbn [bind]. destruct (_ && _); [intros [= _ <-]; left; reflexivity|].
    set (y := if (match d with Some d => negb (all_zero d) | None => false end) then Z.lor (le_ptr w) m else Z.land (le_ptr w) (Z.lnot m)). pose proof E as E'. unfold load in E'. destruct ((0 <=? ofs) && (ofs + 4 <=? zlen o)) eqn:X; [|discriminate]. apply andb_true_iff in X. destruct X as [X1 X2].
    rewrite store_wr by (rewrite ?le_bytes_len; lia). cbn [bind]. intros [= _ <-]. right. exists (le_bytes 4 y). split; [reflexivity|]. rewrite le_bytes_len. split; [lia|]. split; [lia|]. split; [reflexivity|].
    exists w. split; [reflexivity|]. destruct (load_ok o ofs 4 ltac:(lia) ltac:(lia) ltac:(lia)) as (w2 & E2 & L2 & _). rewrite E in E2. injection E2 as <-.
    pose proof (le_ptr_bound w (load_bytes _ _ _ _ Hb E)) as B. rewrite L2 in B. change (256 ^ 4) with (2 ^ 32) in B.
    rewrite le_ptr_bytes. change (256 ^ Z.of_nat 4) with (2 ^ 32). unfold y. destruct (match d with Some d => negb (all_zero d) | None => false end); rewrite Z.mod_small; auto; [apply word_or; assumption|apply word_clear; assumption].
  - destruct (load o ofs n) as [| | |now] eqn:E; try discriminate. cbn [bind]. destruct (_ && _); [intros [= _ <-]; left; reflexivity|].
    set (v := match d with Some d => d | None => _ end). destruct (store o ofs v) as [| | |o2] eqn:S; try discriminate. cbn [bind]. intros [= _ <-]. right. exists v.
    pose proof S as S'. unfold store in S'. destruct ((0 <=? ofs) && (ofs + zlen v <=? zlen o)) eqn:X; [|discriminate]. apply andb_true_iff in X. destruct X as [X1 X2].
    rewrite store_wr in S by lia. split; [congruence|]. split; [lia|]. split; [lia|]. unfold v. destruct d as [d|].
    + left. f_equal. lia.
    + destruct (Z.ltb_spec n 0) as [Q|Q].
      * right. split; [reflexivity|]. exists n. split; [reflexivity|]. split; [exact Q|]. destruct n; [lia|lia|reflexivity].
      * left. f_equal. unfold zlen. rewrite repeat_length. lia.
Qed.
End Resolve.
