(** C40 - C42, C58: string helpers. *)
From Verif Require Import Base BaseProofs VintProofs Tree Arr Str StrSpec StrProofs StrProofs2 StrProofs3.

(** ** C40: bounded copies *)

(** tcscpy_s: the buffer holds the text cut to its length; what is after the text, in particular everything
    from the announced length on, is left as it was; with a length of 0 nothing is written. *)
Theorem C40_copy : forall out len inp s, 0 <= len <= zlen out -> holds inp s ->
  exists o, tcscpy_s out 0 len inp = Ok o /\ zlen o = zlen out /\
    (1 <= len -> holds o (fit len s) /\ forall i, zlen (fit len s) < i -> nth (Z.to_nat i) o 0 = nth (Z.to_nat i) out 0) /\ (len = 0 -> o = out).
Proof.
  intros out len inp s Hl H. destruct (Z.eqb_spec len 0) as [->|Hn].
  - exists out. repeat split; try reflexivity; intros; lia.
  - rewrite (tcscpy_ok out 0 len inp s) by (lia || exact H). eexists. split; [reflexivity|]. cbn [Z.to_nat firstn app]. pose proof (zlen_fit len s ltac:(lia)) as F. pose proof (zlen_nonneg s).
    set (f := fit len s) in *. split; [rewrite zlen_app, zlen_cons; unfold zlen in *; rewrite skipn_length; lia|]. split; [|lia]. intros _. split.
    + eexists. split; [reflexivity|]. apply forall_firstn. destruct H as (t & _ & H). exact H.
    + intros i Hi. rewrite app_nth2 by (unfold zlen in *; lia). destruct (Z.to_nat i - length f)%nat as [|k] eqn:E; [unfold zlen in *; lia|]. cbn [nth].
      replace (Z.to_nat i) with (Z.to_nat (0 + zlen f + 1) + k)%nat by (unfold zlen in *; lia). clear. revert k out. induction (Z.to_nat (0 + zlen f + 1)) as [|n IH]; intros k out; [reflexivity|]. destruct out as [|y out]; [destruct k; reflexivity|]. apply IH.
Qed.
Print Assumptions C40_copy.
(** tcsncpy_s: the same of the first n characters. *)
Theorem C40_copy_n : forall out len inp s n, 0 <= len <= zlen out -> 0 <= n -> holds inp s ->
  tcsncpy_s out 0 len inp n = tcscpy_s out 0 len (firstn (Z.to_nat n) s ++ [0]).
Proof.
  intros out len inp s n Hl Hn H. destruct (Z.eqb_spec len 0) as [->|Hz]; [reflexivity|].
  rewrite (tcsncpy_ok out 0 len inp s n) by (lia || exact H). rewrite (tcscpy_ok out 0 len _ (firstn (Z.to_nat n) s)); try lia; [reflexivity|]. exists []. split; [reflexivity|]. apply forall_firstn. destruct H as (t & _ & H). exact H.
Qed.
Print Assumptions C40_copy_n.
(** tcscat_s: the text is the two texts, cut to the length. *)
Theorem C40_append : forall out len inp s0 s, zlen s0 < len <= zlen out -> holds out s0 -> holds inp s ->
  exists o, tcscat_s out len inp = Ok o /\ holds o (fit len (s0 ++ s)) /\ zlen o = zlen out /\ skipn (Z.to_nat len) o = skipn (Z.to_nat len) out.
Proof.
  intros out len inp s0 s Hl H0 H. unfold tcscat_s. pose proof (zlen_nonneg s0). replace (0 <? len) with true by lia. rewrite (tcslen_ok _ _ H0). cbn [bind]. replace (zlen s0 <? len) with true by lia.
  rewrite (tcscpy_ok out (zlen s0) (len - zlen s0) inp s) by (lia || exact H). rewrite (firstn_end _ _ H0). eexists. split; [reflexivity|].
  pose proof (zlen_fit (len - zlen s0) s ltac:(lia)) as F. pose proof (zlen_nonneg s).
  assert (E : fit len (s0 ++ s) = s0 ++ fit (len - zlen s0) s). { unfold fit. rewrite firstn_app. rewrite firstn_all2 by (unfold zlen in *; lia). do 2 f_equal. unfold zlen in *. lia. }
  split; [|split].
  - rewrite E. eexists. rewrite <- app_assoc. split; [reflexivity|]. apply Forall_app. split; [destruct H0 as (t & _ & K); exact K|]. apply forall_firstn. destruct H as (t & _ & K). exact K.
  - rewrite !zlen_app, zlen_cons. unfold zlen in *. rewrite skipn_length. lia.
  - rewrite app_assoc. set (p := s0 ++ fit (len - zlen s0) s). set (k := zlen s0 + zlen (fit (len - zlen s0) s) + 1). assert (P : zlen p = k - 1) by (unfold p, k; rewrite zlen_app; lia).
    rewrite skipn_app, skipn_all2 by (unfold zlen in *; lia). cbn [app]. replace (Z.to_nat len - length p)%nat with (S (Z.to_nat len - Z.to_nat k)) by (unfold zlen in *; lia). cbn [skipn].
    replace (Z.to_nat len) with (Z.to_nat k + (Z.to_nat len - Z.to_nat k))%nat at 2 by (unfold zlen in *; lia). generalize (Z.to_nat len - Z.to_nat k)%nat as j. clear. intros j. revert out. induction (Z.to_nat k) as [|n IH]; intros out; [reflexivity|]. destruct out; [destruct j; reflexivity|]. apply IH.
Qed.
Print Assumptions C40_append.
Theorem C40_append_n : forall out len inp s0 s n, zlen s0 < len <= zlen out -> 0 <= n -> holds out s0 -> holds inp s ->
  tcsncat_s out len inp n = tcscat_s out len (firstn (Z.to_nat n) s ++ [0]).
Proof.
  intros out len inp s0 s n Hl Hn H0 H. unfold tcsncat_s, tcscat_s. pose proof (zlen_nonneg s0). replace (0 <? len) with true by lia. rewrite (tcslen_ok _ _ H0). cbn [bind]. replace (zlen s0 <? len) with true by lia.
  rewrite (tcsncpy_ok out (zlen s0) (len - zlen s0) inp s n) by (lia || exact H). rewrite (tcscpy_ok out (zlen s0) (len - zlen s0) _ (firstn (Z.to_nat n) s)); try lia; [reflexivity|].
  exists []. split; [reflexivity|]. apply forall_firstn. destruct H as (t & _ & K). exact K.
Qed.
Print Assumptions C40_append_n.
(** A buffer already longer than announced is not touched. *)
Theorem C40_append_full : forall out len inp s0 n, 0 <= len <= zlen s0 -> holds out s0 -> tcscat_s out len inp = Ok out /\ tcsncat_s out len inp n = Ok out.
Proof.
  intros out len inp s0 n Hl H0. unfold tcscat_s, tcsncat_s. destruct (0 <? len); [|split; reflexivity]. rewrite (tcslen_ok _ _ H0). cbn [bind]. replace (zlen s0 <? len) with false by lia. split; reflexivity.
Qed.
Print Assumptions C40_append_full.
(** But a buffer that is not terminated is read beyond its end. *)
Theorem C40_unterminated_refuted : exists out inp, zlen out = 3 /\ holds inp [66] /\ tcscat_s out 3 inp = Bad.
Proof. exists [65; 65; 65], [66; 0]. split; [reflexivity|]. split; [exists []; split; [reflexivity|repeat constructor; discriminate]|]. reflexivity. Qed.
Print Assumptions C40_unterminated_refuted.
Example C40_ex : tcscpy_s [1; 2; 3; 4; 5; 6] 0 4 [65; 66; 67; 68; 69; 0] = Ok [65; 66; 67; 0; 5; 6] /\ tcscat_s [65; 0; 3; 4; 5; 6] 4 [66; 67; 68; 0] = Ok [65; 66; 67; 0; 5; 6] /\
  tcsncat_s [65; 0; 3; 4; 5; 6] 4 [66; 67; 68; 0] 1 = Ok [65; 66; 0; 4; 5; 6] /\ tcsncpy_s [1; 2; 3; 4; 5; 6] 0 4 [65; 66; 67; 68; 69; 0] 2 = Ok [65; 66; 0; 4; 5; 6].
Proof. repeat split; vm_compute; reflexivity. Qed.
Example C40_hyp_ex : holds [65; 0; 3; 4; 5; 6] [65] /\ holds [66; 67; 68; 0] [66; 67; 68] /\ zlen [65] < 4 <= zlen [65; 0; 3; 4; 5; 6].
Proof. split; [exists [3; 4; 5; 6]; split; [reflexivity|repeat constructor; discriminate]|]. split; [exists []; split; [reflexivity|repeat constructor; discriminate]|]. vm_compute. split; [reflexivity|discriminate]. Qed.

(** ** C41: comparison without case *)

(** tcsicmp_ascii gives the sign of the order of the texts, whatever is in memory after them; tcsisame_ascii
    says whether it is 0. *)
Theorem C41_order : forall a b ta tb, text a -> text b ->
  exists r, tcsicmp_ascii (a ++ 0 :: ta) (b ++ 0 :: tb) = Ok r /\ (r ?= 0) = order a b /\ tcsisame_ascii (a ++ 0 :: ta) (b ++ 0 :: tb) = Ok (r =? 0).
Proof. exact icmp_gen. Qed.
Print Assumptions C41_order.
(** It is 0 exactly for texts that differ by the case of ASCII letters only. *)
Theorem C41_equal : forall a b ta tb r, text a -> text b -> tcsicmp_ascii (a ++ 0 :: ta) (b ++ 0 :: tb) = Ok r -> (r = 0 <-> same_text a b).
Proof.
  intros a b ta tb r Ha Hb H. destruct (icmp_gen a b ta tb Ha Hb) as (r' & E & S & _). rewrite E in H. injection H as <-. rewrite <- order_eq by assumption. red in S. rewrite <- S.
  split; intros K; [subst; reflexivity|apply Z.compare_eq; exact K].
Qed.
Print Assumptions C41_equal.
(** It is a total order on texts up to case. *)
Theorem C41_total : forall a b c ta tb tc, text a -> text b -> text c ->
  exists ab bc ac ba, tcsicmp_ascii (a ++ 0 :: ta) (b ++ 0 :: tb) = Ok ab /\ tcsicmp_ascii (b ++ 0 :: tb) (c ++ 0 :: tc) = Ok bc /\ tcsicmp_ascii (a ++ 0 :: ta) (c ++ 0 :: tc) = Ok ac /\ tcsicmp_ascii (b ++ 0 :: tb) (a ++ 0 :: ta) = Ok ba /\
    (ab < 0 <-> 0 < ba) /\ (ab = 0 <-> ba = 0) /\ (ab <= 0 -> bc <= 0 -> ac <= 0).
Proof.
  intros a b c ta tb tc Ha Hb Hc. destruct (icmp_gen a b ta tb Ha Hb) as (ab & E1 & S1 & _), (icmp_gen b c tb tc Hb Hc) as (bc & E2 & S2 & _), (icmp_gen a c ta tc Ha Hc) as (ac & E3 & S3 & _), (icmp_gen b a tb ta Hb Ha) as (ba & E4 & S4 & _).
  exists ab, bc, ac, ba. unfold sign_is in *. repeat split; try assumption; pose proof (order_opp a b) as O; try (intros K; rewrite <- S1, <- S4 in O; destruct (Z.compare_spec ab 0), (Z.compare_spec ba 0); cbn [CompOpp] in O; try discriminate; lia).
  intros K1 K2. pose proof (order_trans a b c Ha Hb Hc) as T. rewrite <- S1, <- S2, <- S3 in T. destruct (Z.compare_spec ac 0); try lia. exfalso. apply T; [| |reflexivity].
  - destruct (Z.compare_spec ab 0); [discriminate|discriminate|lia].
  - destruct (Z.compare_spec bc 0); [discriminate|discriminate|lia].
Qed.
Print Assumptions C41_total.
(** tcsnicmp_ascii compares the first n characters, and reads nothing else. *)
Theorem C41_prefix : forall n a b ta tb, text a -> text b ->
  exists r, tcsnicmp_ascii n (a ++ 0 :: ta) (b ++ 0 :: tb) = Ok r /\ (r ?= 0) = order (firstn n a) (firstn n b).
Proof. exact nicmp_gen. Qed.
Print Assumptions C41_prefix.
Theorem C41_prefix_only : forall n a b ta tb, (n <= length a)%nat -> (n <= length b)%nat -> tcsnicmp_ascii n (a ++ ta) (b ++ tb) = tcsnicmp_ascii n a b.
Proof. exact nicmp_local. Qed.
Print Assumptions C41_prefix_only.
(** Characters count as signed: a longer text can come before its own beginning. *)
Theorem C41_extension_refuted : exists a x r, text (a ++ [x]) /\ tcsicmp_ascii (a ++ [x; 0]) (a ++ [0]) = Ok r /\ r < 0.
Proof. exists [65], 233, (-23). split; [repeat constructor; lia|]. split; [vm_compute; reflexivity|lia]. Qed.
Print Assumptions C41_extension_refuted.
Example C41_ex : tcsicmp_ascii [77; 97; 112; 0] [109; 65; 80; 0] = Ok 0 /\ same_text [77; 97; 112] [109; 65; 80] /\ tcsicmp_ascii [77; 97; 91; 0] [109; 65; 123; 0] = Ok (-32) /\
  tcsnicmp_ascii 2 [77; 97; 91; 0] [109; 65; 123; 0] = Ok 0 /\ text [77; 97; 91] /\ ~ same_letter 91 123.
Proof. repeat split; try (vm_compute; reflexivity); [repeat constructor; unfold same_letter; lia|repeat constructor; lia|unfold same_letter; lia]. Qed.

(** ** C42: FourCC *)

(** FourCCToString writes the bytes of the code in memory order, cut to the buffer, without trailing '_'; it
    returns the length and leaves the bytes after the announced length alone, on hosts of both byte orders. *)
Theorem C42_to_text : forall be out len a b c d, 1 <= len <= zlen out -> bytes_ok [a; b; c; d] ->
  exists o t, fourcc_to_string be out len (fourcc be a b c d) = Ok (o, zlen (drop_fill (fit len [a; b; c; d]))) /\ o = drop_fill (fit len [a; b; c; d]) ++ 0 :: t /\ zlen o = zlen out /\ skipn (Z.to_nat len) o = skipn (Z.to_nat len) out.
Proof. exact to_string_ok. Qed.
Print Assumptions C42_to_text.
(** Every code is one of these. *)
Theorem C42_codes : forall be v, 0 <= v < 2 ^ 32 -> exists a b c d, bytes_ok [a; b; c; d] /\ v = fourcc be a b c d.
Proof. exact fourcc_union. Qed.
Print Assumptions C42_codes.
(** Text of 1 to 4 characters that does not end in '_' is restored from its code. *)
Theorem C42_text_code_text : forall be local out inp s, zlen local = 5 -> 5 <= zlen out -> holds inp s -> text s -> 1 <= zlen s <= 4 -> last s 0 <> 95 ->
  exists v o, string_to_fourcc be local inp false = Ok v /\ fourcc_to_string be out (zlen out) v = Ok (o, zlen s) /\ holds o s.
Proof.
  intros be local out inp s Hl Ho H Ht Hs Hd. assert (Hn : s <> []) by (intros ->; change (zlen (@nil Z)) with 0 in Hs; lia).
  destruct (of_string_ok be local inp s false Hl H Hn) as (a & b & c & d & F & E).
  assert (B : bytes_ok [a; b; c; d]). { rewrite <- F. apply forall_firstn. apply Forall_app. split; [eapply Forall_impl; [|exact Ht]; unfold is_byte; intros; lia|repeat constructor; unfold is_byte; lia]. }
  destruct (to_string_ok be out (zlen out) a b c d ltac:(lia) B) as (o & t & E2 & -> & _ & _).
  assert (D : drop_fill (fit (zlen out) [a; b; c; d]) = s).
  { unfold fit. rewrite firstn_all2 by (cbn [length]; unfold zlen in *; lia). rewrite <- F. unfold filled.
    assert (P : drop_fill s = s). { destruct (exists_last Hn) as (s' & z & ->). rewrite last_last in Hd. rewrite drop_fill_last. replace (z =? 95) with false by lia. reflexivity. }
    assert (K : forall k, drop_fill (s ++ repeat 95 k) = s). { intros k. induction k as [|k IH]; [cbn [repeat]; rewrite app_nil_r; exact P|]. replace (repeat 95 (S k)) with (repeat 95 k ++ [95]) by (symmetry; apply repeat_cons). rewrite app_assoc, drop_fill_last. exact IH. }
    rewrite firstn_app. rewrite firstn_all2 by (unfold zlen in *; lia). destruct s as [|s1 [|s2 [|s3 [|s4 [|]]]]]; [contradiction| | | | |rewrite !zlen_cons in Hs; match type of Hs with context [zlen ?g + 1] => pose proof (zlen_nonneg g) end; lia]; cbn [length Nat.sub firstn app]; [exact (K 3%nat)|exact (K 2%nat)|exact (K 1%nat)|exact P]. }
  exists (fourcc be a b c d). eexists. rewrite E, E2, D. split; [reflexivity|]. split; [reflexivity|]. exists t. split; [reflexivity|]. destruct H as (t' & _ & H). exact H.
Qed.
Print Assumptions C42_text_code_text.
(** A code without zero bytes, other than the four '_', is restored from its text. *)
Theorem C42_code_text_code : forall be local out a b c d, zlen local = 5 -> 5 <= zlen out -> text [a; b; c; d] -> [a; b; c; d] <> [95; 95; 95; 95] ->
  exists o n, fourcc_to_string be out (zlen out) (fourcc be a b c d) = Ok (o, n) /\ string_to_fourcc be local o false = Ok (fourcc be a b c d).
Proof.
  intros be local out a b c d Hl Ho Ht Hn. assert (B : bytes_ok [a; b; c; d]) by (eapply Forall_impl; [|exact Ht]; unfold is_byte; intros; lia).
  destruct (to_string_ok be out (zlen out) a b c d ltac:(lia) B) as (o & t & E2 & Eo & _ & _). exists o. eexists. split; [exact E2|].
  unfold fit in Eo. rewrite firstn_all2 in Eo by (cbn [length]; unfold zlen in *; lia). set (w := [a; b; c; d]) in *. destruct (drop_fill_split w) as (k & K).
  assert (Nz : Forall (fun b => b <> 0) (drop_fill w)). { assert (W : Forall (fun b => b <> 0) w) by (eapply Forall_impl; [|exact Ht]; cbv beta; intros; lia). rewrite K in W. apply Forall_app in W. destruct W. assumption. }
  assert (Ne : drop_fill w <> []). { intros D. rewrite D in K. cbn [app] in K. apply Hn. rewrite K. apply (f_equal (@length Z)) in K. rewrite repeat_length in K. cbn [w length] in K. subst k. reflexivity. }
  destruct (of_string_ok be local o (drop_fill w) false Hl ltac:(exists t; split; assumption) Ne) as (a' & b' & c' & d' & F & E). rewrite E. f_equal.
  assert (Q : filled (drop_fill w) = w).
  { unfold filled. pose proof (f_equal (@length Z) K) as L. rewrite app_length, repeat_length in L. change (length w) with 4%nat in L. rewrite K at 2.
    destruct (drop_fill w) as [|x1 [|x2 [|x3 [|x4 [|]]]]]; [contradiction| | | | |cbn [length] in L; lia]; cbn [length] in L; [replace k with 3%nat by lia|replace k with 2%nat by lia|replace k with 1%nat by lia|replace k with 0%nat by lia]; reflexivity. }
  rewrite Q in F. unfold w in F. injection F as -> -> -> ->. reflexivity.
Qed.
Print Assumptions C42_code_text_code.
(** With Upper the code is that of the text in capitals; only four characters count. *)
Theorem C42_upper : forall be local inp s, zlen local = 5 -> holds inp s -> s <> [] -> string_to_fourcc be local inp true = string_to_fourcc be local (map ascii_upper s ++ [0]) false.
Proof.
  intros be local inp s Hl H Hn. destruct (of_string_ok be local inp s true Hl H Hn) as (a & b & c & d & F & ->).
  assert (Hm : holds (map ascii_upper s ++ [0]) (map ascii_upper s)). { exists []. split; [reflexivity|]. destruct H as (t & _ & H). clear -H. induction H; cbn [map]; constructor; [apply upper_nz; assumption|assumption]. }
  destruct (of_string_ok be local _ (map ascii_upper s) false Hl Hm) as (a' & b' & c' & d' & F' & ->); [destruct s; [contradiction|discriminate]|]. rewrite F in F'. injection F' as -> -> -> ->. reflexivity.
Qed.
Print Assumptions C42_upper.
Theorem C42_cut : forall be local inp s, zlen local = 5 -> holds inp s -> s <> [] -> string_to_fourcc be local inp false = string_to_fourcc be local (firstn 4 s ++ [0]) false.
Proof.
  intros be local inp s Hl H Hn. destruct (of_string_ok be local inp s false Hl H Hn) as (a & b & c & d & F & ->).
  assert (Hm : holds (firstn 4 s ++ [0]) (firstn 4 s)). { exists []. split; [reflexivity|]. apply forall_firstn. destruct H as (t & _ & H). exact H. }
  destruct (of_string_ok be local _ (firstn 4 s) false Hl Hm) as (a' & b' & c' & d' & F' & ->); [destruct s; [contradiction|discriminate]|]. replace (filled (firstn 4 s)) with (filled s) in F'; [rewrite F in F'; injection F' as -> -> -> ->; reflexivity|].
  unfold filled. destruct s as [|s1 [|s2 [|s3 [|s4 s]]]]; reflexivity.
Qed.
Print Assumptions C42_cut.
(** The code of four '_' becomes an empty text, and text ending in '_' loses it. *)
Theorem C42_fill_refuted : forall be, exists o, fourcc_to_string be [1; 2; 3; 4; 5] 5 (fourcc be 95 95 95 95) = Ok (o, 0) /\ string_to_fourcc be [1; 2; 3; 4; 5] o false = Ok 0 /\ fourcc be 95 95 95 95 <> 0 /\
  (exists v, string_to_fourcc be [1; 2; 3; 4; 5] [65; 95; 0] false = Ok v /\ fourcc_to_string be [1; 2; 3; 4; 5] 5 v = Ok ([65; 0; 95; 95; 5], 1)).
Proof. intros [|]; eexists; (split; [vm_compute; reflexivity|]); (split; [vm_compute; reflexivity|]); (split; [vm_compute; discriminate|]); eexists; (split; [vm_compute; reflexivity|]); vm_compute; reflexivity. Qed.
Print Assumptions C42_fill_refuted.
Example C42_ex : string_to_fourcc false [1; 2; 3; 4; 5] [97; 98; 0; 9] true = Ok 1600078401 /\ fourcc_to_string false [1; 2; 3; 4; 5; 6] 6 1600078401 = Ok ([65; 66; 0; 95; 5; 6], 2) /\ holds [97; 98; 0; 9] [97; 98] /\ last [97; 98] 0 <> 95.
Proof. split; [vm_compute; reflexivity|]. split; [vm_compute; reflexivity|]. split; [exists [9]; split; [reflexivity|repeat constructor; discriminate]|discriminate]. Qed.

(** ** C58: lists of names *)
Theorem C58_index : forall s items t, item_ok s -> s <> [] -> Forall item_ok items -> join items <> [] ->
  exists r, str_list_index (s ++ [0]) (Some (join items ++ 0 :: t)) = Ok r /\
    ((exists k, r = Z.of_nat k /\ (exists it, nth_error items k = Some it /\ names s it) /\ forall j it, (j < k)%nat -> nth_error items j = Some it -> ~ names s it) \/
     (r = -1 /\ forall it, In it items -> ~ names s it)).
Proof.
  intros s items t Hs Hn Hi Hj. unfold str_list_index. pose proof (join_text _ Hi) as J.
  assert (C0 : exists x, char_at (join items ++ 0 :: t) 0 = Ok x /\ x <> 0). { destruct (join items) as [|x r]; [contradiction|]. exists x. cbn [app]. rewrite char0. split; [reflexivity|]. apply Forall_cons_iff in J. lia. }
  destruct C0 as (x & -> & Hx). cbn [bind]. replace (x =? 0) with false by lia.
  assert (Hh : holds (s ++ [0]) s) by (exists []; split; [reflexivity|]; eapply Forall_impl; [|exact Hs]; cbv beta; intros; lia). rewrite (tcslen_ok _ _ Hh). cbn [bind].
  replace (zlen s =? 0) with false by (destruct s; [contradiction|rewrite zlen_cons; pose proof (zlen_nonneg s); lia]).
  assert (L : (length items <= S (length (join items ++ 0%Z :: t)))%nat). { rewrite app_length. cbn [length]. enough (length items <= S (length (join items)))%nat by lia. clear. induction items as [|i items IH]; [cbn; lia|]. cbn [join]. destruct items; [cbn [length]; lia|]. rewrite app_length. cbn [length] in *. lia. }
  destruct (list_index_ok s Hs Hn items _ 0 t Hi ltac:(intros ->; contradiction) L) as (r & E & R). exists r. split; [exact E|]. destruct R as [(k & -> & R)|R]; [left; exists k; split; [lia|exact R]|right; exact R].
Qed.
Print Assumptions C58_index.
Theorem C58_empty : forall s t, str_list_index s None = Ok (-1) /\ str_list_index s (Some (0 :: t)) = Ok (-1) /\ forall l u, text l -> str_list_index (0 :: u) (Some (l ++ 0 :: t)) = Ok (-1).
Proof.
  intros s t. split; [reflexivity|]. split; [cbn [str_list_index]; rewrite char0; reflexivity|]. intros l u Hl. cbn [str_list_index]. destruct l as [|x l]; cbn [app]; rewrite char0; cbn [bind]; [reflexivity|].
  apply Forall_cons_iff in Hl. replace (x =? 0) with false by lia. reflexivity.
Qed.
Print Assumptions C58_empty.
Example C58_ex : str_list_index [98; 66; 0] (Some [97; 44; 98; 98; 98; 44; 66; 98; 32; 120; 44; 98; 98; 0]) = Ok 2 /\ join [[97]; [98; 98; 98]; [66; 98; 32; 120]; [98; 98]] = [97; 44; 98; 98; 98; 44; 66; 98; 32; 120; 44; 98; 98] /\
  Forall item_ok [[97]; [98; 98; 98]; [66; 98; 32; 120]; [98; 98]].
Proof. split; [vm_compute; reflexivity|]. split; [reflexivity|]. repeat constructor; lia. Qed.
