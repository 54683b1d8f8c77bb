From Verif Require Import Base BaseProofs Vint VintSpec VintProofs EbmlId EbmlIdSpec EbmlIdProofs EltHead Void VoidSpec.

Lemma void_id_valid : valid_id_len VOID_ID 1.
Proof. unfold VOID_ID. split; [lia|]. cbn; lia. Qed.
Lemma void_id_len : get_id_length VOID_ID = 1. Proof. reflexivity. Qed.
Lemma void_id_bytes : fill_buffer_id 12 VOID_ID = [236]. Proof. reflexivity. Qed.

Lemma size_class_csl k n : size_class k n -> coded_size_length n 0 true = k.
Proof.
  intros [Hk Hn]. assert (0 <= n) by (assert (0 < 2 ^ (7 * (k - 1))) by (apply Z.pow_pos_nonneg; lia); lia).
  rewrite coded_size_length_natural by lia.
  assert (k = 1 \/ k = 2 \/ k = 3 \/ k = 4 \/ k = 5) as [->|[->|[->|[->| ->]]]] by lia; cbn in Hn;
  destruct (n <? 127) eqn:?, (n <? 16383) eqn:?, (n <? 2097151) eqn:?, (n <? 268435455) eqn:?; lia.
Qed.

Lemma csl_size_class n : 0 <= n < 2 ^ 35 - 1 -> size_class (coded_size_length n 0 true) n.
Proof.
  intros Hn. rewrite coded_size_length_natural by lia. unfold size_class. cbn in Hn.
  destruct (n <? 127) eqn:?; [cbn; lia|]. destruct (n <? 16383) eqn:?; [cbn; lia|].
  destruct (n <? 2097151) eqn:?; [cbn; lia|]. destruct (n <? 268435455) eqn:?; cbn; lia.
Qed.

Lemma csl_range len sl : 0 <= len -> 0 <= sl <= 8 -> 1 <= coded_size_length len sl true <= 8.
Proof.
  intros. rewrite coded_size_length_forced, coded_size_length_natural by lia.
  destruct (len <? 127), (len <? 16383), (len <? 2097151), (len <? 268435455); lia.
Qed.

Lemma render_head_ok id n d sl : valid_id_len id n -> 0 <= d < 2 ^ 35 - 1 -> 0 <= sl <= 8 ->
  exists idb sz, render_head id d sl true = Some (idb ++ sz) /\ id_encodes idb id /\ zlen idb = n /\
    vint_spec sz d /\ zlen sz = coded_size_length d sl true /\ d <> vint_reserved (zlen sz) /\
    idb = fill_buffer_id 12 id.
Proof.
  intros Hid Hd Hsl. destruct (coded_size_length_fits d sl Hd Hsl) as [H1 H2]. cbv zeta in H1, H2.
  destruct (encode_ok d (coded_size_length d sl true)) as (sz & He & Hv & Hz); [assumption|unfold vint_reserved in H2; lia|].
  destruct (fill_buffer_id_ok id n 12 Hid) as [Hi Hl]; [destruct Hid; lia|].
  exists (fill_buffer_id 12 id), sz. unfold render_head. rewrite He. rewrite Hz. 
  split; [reflexivity|]. split; [assumption|]. split; [assumption|]. split; [assumption|]. split; [reflexivity|].
  split; [lia|reflexivity].
Qed.

Lemma void_chunks_ok fuel : forall left, 0 <= left <= Z.of_nat fuel ->
  void_chunks fuel left = Some (repeat 0 (Z.to_nat left)).
Proof.
  induction fuel as [|fuel IH]; intros left Hl.
  - assert (left = 0) as -> by lia. reflexivity.
  - cbn [void_chunks]. destruct (left =? 0) eqn:E; [replace left with 0 by lia; reflexivity|].
    rewrite IH by lia. rewrite <- repeat_app. do 2 f_equal. lia.
Qed.

Lemma void_render_data_ok d : 0 <= d -> void_render_data d = Some (repeat 0 (Z.to_nat d)).
Proof. intros. unfold void_render_data. destruct (d <? 0) eqn:?; [lia|]. apply void_chunks_ok. lia. Qed.

Lemma zlen_repeat (x : Z) n : 0 <= n -> zlen (repeat x (Z.to_nat n)) = n.
Proof. intros. unfold zlen. rewrite repeat_length. lia. Qed.

Lemma void_render_ok d sl : 0 <= d < 2 ^ 35 - 1 -> 0 <= sl <= 8 ->
  exists bs, void_render d sl = Some bs /\ void_bytes bs d /\ zlen bs = full_size VOID_ID d sl true.
Proof.
  intros Hd Hsl. destruct (render_head_ok VOID_ID 1 d sl void_id_valid Hd Hsl) as (idb & sz & Hh & Hi & Hl & Hv & Hz & Hr & Hidb).
  unfold void_render. rewrite Hh, void_render_data_ok by lia.
  rewrite void_id_bytes in Hidb.
  subst idb. eexists; split; [reflexivity|]. split.
  - exists sz. split; [reflexivity|]. split; assumption.
  - rewrite !zlen_app, zlen_repeat by lia. unfold full_size. rewrite void_id_len, Hz, Hl. lia.
Qed.

(** C11 *)
Lemma void_set_full_size_exact n : 2 <= n < 2 ^ 35 ->
  snd (void_set_full_size n) = true /\
  exists bs, void_render (fst (void_set_full_size n)) 0 = Some bs /\
    void_bytes bs (fst (void_set_full_size n)) /\
    (void_short n -> zlen bs = n - 1) /\ (~ void_short n -> zlen bs = n).
Proof.
  intros Hn. unfold void_set_full_size. cbn [fst snd].
  assert (Hn5 : 2 <= n < 34359738368) by (cbn in Hn; lia).
  set (c := coded_size_length n 0 true). assert (Hc : 1 <= c <= 5 /\ (n < 127 -> c = 1) /\ (127 <= n < 16383 -> c = 2)
    /\ (16383 <= n < 2097151 -> c = 3) /\ (2097151 <= n < 268435455 -> c = 4) /\ (268435455 <= n -> c = 5)).
  { subst c. rewrite coded_size_length_natural by lia.
    destruct (n <? 127) eqn:?, (n <? 16383) eqn:?, (n <? 2097151) eqn:?, (n <? 268435455) eqn:?; lia. }
  clearbody c. destruct Hc as (Hc & H1 & H2 & H3 & H4 & H5).
  assert (Hd : 0 <= n - 1 - c < 2 ^ 35 - 1) by (change (2 ^ 35) with 34359738368; lia).
  split; [lia|].
  destruct (void_render_ok (n - 1 - c) 0 Hd ltac:(lia)) as (bs & Hr & Hv & Hz).
  exists bs. split; [exact Hr|]. split; [exact Hv|]. rewrite Hz. unfold full_size. rewrite void_id_len.
  rewrite coded_size_length_natural by lia.
  assert (Hs : void_short n <-> 127 <= n <= 129 \/ 16383 <= n <= 16386 \/ 2097151 <= n <= 2097155 \/ 268435455 <= n <= 268435460).
  { unfold void_short. split.
    - intros (k & Hk & Hkn). assert (k = 1 \/ k = 2 \/ k = 3 \/ k = 4) as [->|[->|[->| ->]]] by lia; cbn in Hkn; lia.
    - intros [H|[H|[H|H]]]; [exists 1|exists 2|exists 3|exists 4]; cbn; lia. }
  rewrite Hs.
  destruct (n - 1 - c <? 127) eqn:?, (n - 1 - c <? 16383) eqn:?, (n - 1 - c <? 2097151) eqn:?, (n - 1 - c <? 268435455) eqn:?; lia.
Qed.

Lemma void_set_full_size_fails n : n < 2 -> snd (void_set_full_size n) = false.
Proof.
  intros Hn. unfold void_set_full_size, coded_size_length. cbn [fst snd negb].
  destruct (n <? 127) eqn:?; [|lia]. change (u8 (if negb (0 =? 0) && (1 <? 0) then 0 else 1)) with 1. lia.
Qed.

(** C12: the filler. *)
Lemma void_filler_exact gap k : 3 <= gap -> size_class k gap ->
  exists d' sl sz, void_filler gap = (d', sl, Some (236 :: sz)) /\ vint_spec sz d' /\
    d' <> vint_reserved (zlen sz) /\ 1 + zlen sz + d' = gap - k.
Proof.
  intros Hg Hk. pose proof (size_class_csl k gap Hk) as Hc. destruct Hk as [Hk1 Hk2].
  unfold void_filler, void_set_full_size, full_size. cbn [fst]. rewrite void_id_len, Hc.
  assert (Hdk : k <= gap - 2).
  { assert (k = 1 \/ k = 2 \/ k = 3 \/ k = 4 \/ k = 5) as [->|[->|[->|[->| ->]]]] by lia; cbn in Hk2; lia. }
  assert (Hgap : gap < 2 ^ 35 - 1).
  { assert (2 ^ (7 * k) <= 2 ^ 35) by (apply Z.pow_le_mono_r; lia). lia. }
  change (2 ^ 35) with 34359738368 in Hgap.
  set (d := gap - 1 - k). assert (Hd : 1 <= d < 34359738366) by (subst d; lia).
  set (c := coded_size_length d 0 true).
  assert (Hcd : 1 <= c <= 5 /\ c <= d).
  { subst c. rewrite coded_size_length_natural by lia.
    destruct (d <? 127) eqn:?, (d <? 16383) eqn:?, (d <? 2097151) eqn:?, (d <? 268435455) eqn:?; lia. }
  set (c' := coded_size_length (d - c) 0 true).
  assert (Hcc : 1 <= c' <= c).
  { assert (Hc5 : (d < 127 -> c = 1) /\ (127 <= d < 16383 -> c = 2)
    /\ (16383 <= d < 2097151 -> c = 3) /\ (2097151 <= d < 268435455 -> c = 4) /\ (268435455 <= d -> c = 5)).
    { subst c. rewrite coded_size_length_natural by lia.
      destruct (d <? 127) eqn:?, (d <? 16383) eqn:?, (d <? 2097151) eqn:?, (d <? 268435455) eqn:?; lia. }
    subst c'. rewrite (coded_size_length_natural (d - c)) by lia. clearbody c d.
    destruct (d - c <? 127) eqn:?, (d - c <? 16383) eqn:?, (d - c <? 2097151) eqn:?, (d - c <? 268435455) eqn:?; lia. }
  replace (d + 1 + c - d) with (1 + c) by lia. replace (d - c + 1 + c' - (d - c)) with (1 + c') by lia.
  assert (Hsl : exists sl, (if 1 + c =? 1 + c' then 0 else s8 (c' - (1 + c' - (1 + c)))) = sl /\ 0 <= sl <= 5 /\ Z.max sl c' = c).
  { destruct (1 + c =? 1 + c') eqn:E; [exists 0; lia|]. exists c. split; [|lia].
    unfold s8, s_wrap. change (2 ^ (8 - 1)) with 128. change (2 ^ 8) with 256. lia. }
  destruct Hsl as (sl & -> & Hsl & Hmax).
  destruct (render_head_ok VOID_ID 1 (d - c) sl void_id_valid) as (idb & sz & Hh & Hi & Hl & Hv & Hz & Hr & Hidb).
  { change (2 ^ 35) with 34359738368. lia. } { lia. }
  rewrite void_id_bytes in Hidb.
  subst idb. exists (d - c), sl, sz. rewrite Hh. split; [reflexivity|]. split; [assumption|]. split; [assumption|].
  rewrite Hz, coded_size_length_forced by lia. fold c'. subst d. lia.
Qed.

Lemma void_filler_two : snd (void_filler 2) = Some [236; 255] /\ fst (fst (void_filler 2)) = -1.
Proof. split; vm_compute; reflexivity. Qed.

(** File effect of a replacement. *)
Lemma app_inv_len {A} (a b c d : list A) : length a = length c -> a ++ b = c ++ d -> a = c /\ b = d.
Proof.
  revert c. induction a as [|x a IH]; intros [|y c] Hl H; cbn [length app] in *; try discriminate; [auto|].
  injection H as -> H. destruct (IH c ltac:(lia) H) as [-> ->]. auto.
Qed.

Lemma patch_app a b c bs : zlen b = zlen bs -> patch (a ++ b ++ c) (zlen a) bs = a ++ bs ++ c.
Proof.
  intros Hb. pose proof (zlen_nonneg a). pose proof (zlen_nonneg b). unfold patch.
  f_equal; [rewrite firstn_app; unfold zlen in *; rewrite Nat2Z.id, Nat.sub_diag, firstn_all, firstn_O, app_nil_r; reflexivity|].
  f_equal. rewrite app_assoc, skipn_app.
  replace (Z.to_nat (zlen a + zlen bs)) with (length (a ++ b)) by (rewrite app_length; unfold zlen in *; lia).
  rewrite skipn_all, Nat.sub_diag, skipn_O. reflexivity.
Qed.

(** Successful replacement with no room left, or with a gap of at least 3 bytes. *)
Lemma void_replace_ok pre old post repl gap k :
  zlen old = zlen repl + gap -> 3 <= gap -> size_class k gap ->
  exists sz d' stale,
    void_replace_with (pre ++ old ++ post) (zlen pre) (zlen old) repl =
      Some (Some (pre ++ repl ++ (236 :: sz) ++ stale ++ post), zlen old) /\
    vint_spec sz d' /\ d' <> vint_reserved (zlen sz) /\
    1 + zlen sz + d' = gap - k /\ zlen stale = d' + k /\ exists p, old = p ++ stale.
Proof.
  intros Hold Hg Hk. destruct (void_filler_exact gap k Hg Hk) as (d' & sl & sz & Hf & Hv & Hr & Hsum).
  pose proof (zlen_nonneg repl) as Hrn. pose proof (zlen_nonneg sz) as Hszn.
  assert (Hd0 : 0 <= d') by (destruct Hv as (_ & _ & ? & _); lia).
  assert (Hk1 : 1 <= k) by (destruct Hk; lia).
  set (o1 := firstn (Z.to_nat (zlen repl)) old). set (o23 := skipn (Z.to_nat (zlen repl)) old).
  set (o2 := firstn (Z.to_nat (1 + zlen sz)) o23). set (o3 := skipn (Z.to_nat (1 + zlen sz)) o23).
  assert (E1 : old = o1 ++ o23) by (symmetry; apply firstn_skipn).
  assert (E2 : o23 = o2 ++ o3) by (symmetry; apply firstn_skipn).
  assert (L1 : zlen o1 = zlen repl) by (subst o1; unfold zlen in *; rewrite firstn_length; lia).
  assert (L23 : zlen o23 = gap) by (rewrite E1, zlen_app in Hold; lia).
  assert (L2 : zlen o2 = 1 + zlen sz) by (subst o2; unfold zlen in *; rewrite firstn_length; lia).
  assert (L3 : zlen o3 = d' + k) by (rewrite E2, zlen_app in L23; lia).
  exists sz, d', o3. split; [|split; [assumption|split; [assumption|split; [assumption|split; [assumption|]]]]].
  - unfold void_replace_with. rewrite Hold. replace (zlen repl + gap - zlen repl) with gap by lia.
    destruct (gap <? 0) eqn:?; [lia|]. destruct (gap =? 1) eqn:?; [lia|]. destruct (1 <? gap) eqn:?; [|lia].
    rewrite Hf. cbn [snd]. do 2 f_equal. rewrite E1, <- app_assoc, (patch_app pre o1 (o23 ++ post) repl L1).
    rewrite E2, <- !app_assoc. rewrite app_assoc.
    replace (zlen pre + zlen repl) with (zlen (pre ++ repl)) by apply zlen_app.
    f_equal. rewrite patch_app by (rewrite zlen_cons; lia). rewrite <- app_assoc. reflexivity.
  - exists (o1 ++ o2). rewrite E1, E2, app_assoc. reflexivity.
Qed.

Lemma void_replace_exact_fit pre old post repl : zlen old = zlen repl ->
  void_replace_with (pre ++ old ++ post) (zlen pre) (zlen old) repl = Some (Some (pre ++ repl ++ post), zlen old).
Proof.
  intros H. unfold void_replace_with. rewrite H, Z.sub_diag. cbn [Z.ltb Z.eqb Z.compare].
  rewrite patch_app by assumption. reflexivity.
Qed.

Lemma void_replace_refused pre old post repl :
  void_replace_with (pre ++ old ++ post) (zlen pre) (zlen old) repl = None <->
  zlen old < zlen repl \/ zlen old = zlen repl + 1.
Proof.
  unfold void_replace_with. destruct (zlen old - zlen repl <? 0) eqn:?; [split; [lia|reflexivity]|].
  destruct (zlen old - zlen repl =? 1) eqn:?; [split; [lia|reflexivity]|].
  destruct (1 <? zlen old - zlen repl) eqn:?; [|split; [discriminate|lia]].
  destruct (snd (void_filler _)); split; try discriminate; lia.
Qed.

(** An unknown-size head: the ID, then the all-ones size of the length asked for (at least one byte). *)
Lemma render_head_unknown id n d sl : valid_id_len id n -> 0 <= sl <= 8 ->
  exists idb sz, render_head id d sl false = Some (idb ++ sz) /\ id_encodes idb id /\ zlen idb = n /\
    vint_spec sz (vint_reserved (zlen sz)) /\ zlen sz = Z.max 1 sl.
Proof.
  intros Hid Hsl. unfold render_head. rewrite coded_size_length_unknown by lia.
  destruct (unknown_encode d (Z.max 1 sl) [] ltac:(lia)) as (sz & E & Hl & Hs & _).
  rewrite E. exists (fill_buffer_id 12 id), sz.
  destruct (fill_buffer_id_ok id n 12 Hid) as [H1 H2]; [destruct Hid; lia|].
  rewrite Hl. auto.
Qed.
