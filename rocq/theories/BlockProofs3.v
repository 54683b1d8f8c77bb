(** Reading arbitrary bytes as a block, and the API sequences. *)
From Verif Require Import Base BaseProofs Vint VintSpec VintProofs StreamProofs Stream Ebml Tree TreeRead TreeProofs2 TreeProofs3 Block BlockSpec BlockProofs BlockProofs2.

Definition sumz (l : list Z) : Z := fold_right Z.add 0 l.

Lemma u32_eq x : exists z, u32 x = x + z * 2 ^ 32.
Proof. unfold u32. exists (- (x / 2 ^ 32)). pose proof (Z.div_mod x (2 ^ 32) ltac:(discriminate)). lia. Qed.
Lemma u32_range x : 0 <= u32 x < 2 ^ 32.
Proof. unfold u32. apply Z.mod_pos_bound. reflexivity. Qed.
Lemma s32_eq x : exists z, s32 x = x + z * 2 ^ 32.
Proof. unfold s32, s_wrap. exists (- ((x + 2 ^ 31) / 2 ^ 32)). change (2 ^ (32 - 1)) with (2 ^ 31). pose proof (Z.div_mod (x + 2 ^ 31) (2 ^ 32) ltac:(discriminate)). lia. Qed.
Lemma s32_range x : - 2 ^ 31 <= s32 x < 2 ^ 31.
Proof. unfold s32, s_wrap. change (2 ^ (32 - 1)) with (2 ^ 31). pose proof (Z.mod_pos_bound (x + 2 ^ 31) (2 ^ 32) ltac:(reflexivity)). lia. Qed.


Lemma read_byte_any s p prev : in_reach s p -> 0 <= p -> last (in_data s) 0 <> 255 -> (zlen (in_data s) <= p -> prev <> 255) ->
  exists x q, read_byte s p prev = Ok (x, q) /\ p <= q /\ (x = 255 -> q = p + 1 /\ q < zlen (in_data s)) /\ (zlen (in_data s) <= q -> x <> 255).
Proof.
  intros Hr Hp Hl Hpr. unfold read_byte, i_read. rewrite reach_cond by assumption. cbn [Z.ltb Z.compare orb bind].
  change (Z.to_nat 1) with 1%nat. destruct (skipn (Z.to_nat p) (in_data s)) as [|x r] eqn:E; cbn [firstn].
  - assert (Hz : zlen (in_data s) <= p).
    { pose proof (f_equal (@zlen Z) E) as Hz. unfold zlen in Hz. rewrite skipn_length in Hz. cbn [length] in Hz. unfold zlen. lia. }
    exists prev, (p + 0). split; [reflexivity|]. split; [lia|]. specialize (Hpr Hz). split; [tauto|]. intros _. exact Hpr.
  - exists x, (p + 1). split; [reflexivity|]. split; [lia|].
    assert (Hz : p + zlen (x :: r) = zlen (in_data s)).
    { rewrite <- E. unfold zlen. rewrite skipn_length. pose proof (f_equal (@length Z) E) as Hz. rewrite skipn_length in Hz. cbn [length] in Hz. lia. }
    assert (Hk : zlen (in_data s) <= p + 1 -> x <> 255).
    { intros Hk. rewrite zlen_cons in Hz. assert (r = []) by (destruct r; [reflexivity|rewrite zlen_cons in Hz; pose proof (zlen_nonneg r); lia]). subst r.
      assert (Hd : in_data s = firstn (Z.to_nat p) (in_data s) ++ [x]) by (rewrite <- E; symmetry; apply firstn_skipn).
      rewrite Hd, last_snoc in Hl. exact Hl. }
    split; [|exact Hk]. intros Hx. split; [reflexivity|]. destruct (Z_lt_dec (p + 1) (zlen (in_data s))); [assumption|]. exfalso. apply Hk; [lia|exact Hx].
Qed.

Lemma read_xiph_total s : last (in_data s) 0 <> 255 -> forall fuel p prev acc n, in_reach s p -> 0 <= p -> (zlen (in_data s) <= p -> prev <> 255) ->
  Z.max 0 (zlen (in_data s) - p) < Z.of_nat fuel ->
  exists d m x q, read_xiph fuel s p prev acc n = Ok (d, m, x, q) /\ p <= q /\ (zlen (in_data s) <= q -> x <> 255).
Proof.
  intros Hl. induction fuel as [|fuel IH]; intros p prev acc n Hr Hp Hpr Hf; [lia|]. cbn [read_xiph].
  destruct (read_byte_any s p prev Hr Hp Hl Hpr) as (x & q & -> & Hq & Hx & Hk). cbn [bind].
  destruct (x =? 255) eqn:E.
  - destruct (Hx ltac:(lia)) as [-> Hlt].
    destruct (IH (p + 1) x (s32 (acc + x)) (n + 1)) as (d & m & y & q' & Hi & Hq' & Hk'); [eapply reach_le; [exact Hr|lia]|lia|exact Hk|lia|].
    exists d, m, y, q'. split; [exact Hi|]. split; [lia|exact Hk'].
  - exists (s32 (acc + x)), (n + 1), x, q. split; [reflexivity|]. split; [exact Hq|exact Hk].
Qed.
Lemma read_xiph_sizes_total s fuel : last (in_data s) 0 <> 255 -> zlen (in_data s) < Z.of_nat fuel -> forall k p prev lbs len, in_reach s p -> 0 <= p ->
  (zlen (in_data s) <= p -> prev <> 255) -> exists r, read_xiph_sizes fuel s k p prev lbs len = Ok r.
Proof.
  intros Hl Hf. induction k as [|k IH]; intros p prev lbs len Hr Hp Hpr; cbn [read_xiph_sizes]; [eauto|].
  destruct (read_xiph_total s Hl fuel p prev 0 0 Hr Hp Hpr) as (d & m & x & q & -> & Hq & Hk); [pose proof (zlen_nonneg (in_data s)); lia|]. cbn [bind].
  destruct (IH q x (u32 (lbs - m - d)) (len + m)) as ([[l lb] le] & ->); [eapply reach_le; [exact Hr|lia]|lia|exact Hk|]. cbn [bind]. eauto.
Qed.

(** What is left after the sizes, modulo 2^32. *)
Lemma read_xiph_pos fuel s : forall p prev acc n d m x q, read_xiph fuel s p prev acc n = Ok (d, m, x, q) -> n < m /\ - 2 ^ 31 <= d < 2 ^ 31.
Proof.
  induction fuel as [|fuel IH]; intros p prev acc n d m x q; cbn [read_xiph]; [discriminate|].
  destruct (read_byte s p prev) as [| | |[y q']]; try discriminate. cbn [bind].
  destruct (y =? 255); intros H; [apply IH in H; lia|]. injection H as <- <- <- <-. pose proof (s32_range (acc + y)). lia.
Qed.
Lemma read_xiph_sizes_sum fuel s : forall k p prev lbs len l lb le, read_xiph_sizes fuel s k p prev lbs len = Ok (l, lb, le) -> 0 <= lbs < 2 ^ 32 ->
  length l = k /\ len + Z.of_nat k <= le /\ 0 <= lb < 2 ^ 32 /\ Forall (fun x => - 2 ^ 31 <= x < 2 ^ 31) l /\ exists z, sumz l + lb + le = lbs + len + z * 2 ^ 32.
Proof.
  induction k as [|k IH]; intros p prev lbs len l lb le; cbn [read_xiph_sizes].
  - intros H Hl. injection H as <- <- <-. split; [reflexivity|]. split; [lia|]. split; [exact Hl|]. split; [constructor|]. exists 0. cbn [sumz fold_right]. lia.
  - destruct (read_xiph fuel s p prev 0 0) as [| | |[[[d m] x] q]] eqn:E; try discriminate. cbn [bind].
    destruct (read_xiph_sizes fuel s k q x (u32 (lbs - m - d)) (len + m)) as [| | |[[l' lb'] le']] eqn:E2; try discriminate. cbn [bind]. intros H Hl. injection H as <- <- <-.
    apply read_xiph_pos in E. apply IH in E2; [|apply u32_range]. destruct E2 as (H1 & H2 & H3 & H4 & z & Hz). destruct (u32_eq (lbs - m - d)) as (z' & Hz').
    split; [cbn [length]; congruence|]. split; [lia|]. split; [exact H3|]. split; [constructor; [lia|exact H4]|]. exists (z + z'). cbn [sumz fold_right]. fold (sumz l'). lia.
Qed.
Lemma read_deltas_sum buf : forall k off prev lbs l lb le, read_deltas buf k off prev lbs = Ok (l, lb, le) -> 0 <= lbs < 2 ^ 32 ->
  length l = k /\ 0 <= lb < 2 ^ 32 /\ Forall (fun x => - 2 ^ 31 <= x < 2 ^ 31) l /\ exists z, sumz l + lb + le = lbs + off + z * 2 ^ 32.
Proof.
  induction k as [|k IH]; intros off prev lbs l lb le; cbn [read_deltas].
  - intros H Hl. injection H as <- <- <-. split; [reflexivity|]. split; [exact Hl|]. split; [constructor|]. exists 0. cbn [sumz fold_right]. lia.
  - destruct (opt_res _) as [| | |r] eqn:E; try discriminate. cbn [bind]. cbv zeta.
    destruct (read_deltas _ _ _ _ _) as [| | |[[l' lb'] le']] eqn:E2; try discriminate. cbn [bind]. intros H Hl. injection H as <- <- <-.
    apply IH in E2; [|apply u32_range]. destruct E2 as (H1 & H3 & H4 & z & Hz). set (d := s32 (prev + s32 (sz_val r))) in *. destruct (u32_eq (lbs - (d + sz_len r))) as (z' & Hz').
    split; [cbn [length]; congruence|]. split; [exact H3|]. split; [constructor; [apply s32_range|exact H4]|]. exists (z + z'). cbn [sumz fold_right]. fold (sumz l'). lia.
Qed.
Lemma sumz_app a b : sumz (a ++ b) = sumz a + sumz b.
Proof. apply sum_app. Qed.

Lemma rcs_loop_idx left : forall idx b0 unk i u, rcs_loop left idx b0 unk = inl (i, u) -> idx <= i.
Proof.
  induction left as [|left IH]; intros idx b0 unk i u; cbn [rcs_loop]; [discriminate|].
  destruct (_ =? 0); intros H; [apply IH in H; lia|]. injection H as -> ->. lia.
Qed.
Lemma sz_len_nonneg buf n r : read_coded_size buf n = Some r -> 0 <= sz_len r.
Proof.
  unfold read_coded_size. destruct (n <=? 0); [intros H; injection H as <-; cbn [sz_len]; lia|]. destruct buf as [|b0 bf]; [discriminate|].
  destruct (rcs_loop _ _ _ _) as [[i u]|u] eqn:E; [|intros H; injection H as <-; cbn [sz_len]; lia]. apply rcs_loop_idx in E.
  destruct (_ <? _); [discriminate|]. intros H. injection H as <-. cbn [sz_len]. lia.
Qed.
Lemma sz_len_signed buf n r : read_coded_size_signed buf n = Some r -> 0 <= sz_len r.
Proof.
  unfold read_coded_size_signed. destruct (read_coded_size buf n) as [r'|] eqn:E; [|discriminate]. apply sz_len_nonneg in E. intros H. injection H as <-. cbn [sz_len]. exact E.
Qed.
Lemma read_deltas_off buf : forall k off prev lbs l lb le, read_deltas buf k off prev lbs = Ok (l, lb, le) -> off <= le.
Proof.
  induction k as [|k IH]; intros off prev lbs l lb le; cbn [read_deltas]; [intros H; injection H as <- <- <-; lia|].
  destruct (read_coded_size_signed _ _) as [r|] eqn:E; cbn [opt_res bind]; [|discriminate]. apply sz_len_signed in E.
  destruct (read_deltas _ _ _ _ _) as [| | |[[l' lb'] le']] eqn:E2; try discriminate. cbn [bind]. intros H. injection H as <- <- <-. apply IH in E2. lia.
Qed.

Lemma land_2 x : 0 <= Z.shiftr (Z.land x 6) 1 < 4.
Proof.
  replace (Z.land x 6) with (Z.land x (Z.land 7 6)) by reflexivity. rewrite Z.land_assoc. change 7 with (Z.ones 3). rewrite Z.land_ones by lia.
  pose proof (Z.mod_pos_bound x (2 ^ 3) ltac:(reflexivity)) as H. change (2 ^ 3) with 8 in *. set (y := x mod 8) in *.
  assert (y = 0 \/ y = 1 \/ y = 2 \/ y = 3 \/ y = 4 \/ y = 5 \/ y = 6 \/ y = 7) as [->|[->|[->|[->|[->|[->|[->| ->]]]]]]] by lia; vm_compute; split; discriminate || reflexivity.
Qed.

Lemma i_read_bytes s p n err bs q : bytes_ok (in_data s) -> i_read s p n = Ok (err, bs, q) -> bytes_ok bs.
Proof.
  intros Hb. unfold i_read. destruct (_ || _); [discriminate|]. remember (firstn (Z.to_nat n) (skipn (Z.to_nat p) (in_data s))) as l eqn:El. intros H. injection H as _ <- _. subst l.
  apply bytes_ok_firstn, bytes_ok_skipn, Hb.
Qed.
(** The count byte. *)
Lemma read_byte_range s p prev x q : bytes_ok (in_data s) -> is_byte prev -> read_byte s p prev = Ok (x, q) -> is_byte x.
Proof.
  unfold read_byte, i_read. destruct (_ || _); [discriminate|]. cbn [bind]. intros Hb Hp H.
  pose proof (bytes_ok_firstn (Z.to_nat 1) _ (bytes_ok_skipn (Z.to_nat p) _ Hb)) as Hf.
  destruct (firstn _ _) as [|y l]; [injection H as <- _; exact Hp|]. injection H as <- _. apply Forall_cons_iff in Hf. tauto.
Qed.
Lemma nth_byte l n : bytes_ok l -> is_byte (nth n l 0).
Proof. intros H. destruct (nth_in_or_default n l 0) as [Hi|Hi]; [|rewrite Hi; red; lia]. eapply Forall_forall in Hi; [exact Hi|exact H]. Qed.

Lemma fixed_cover n lbs : 0 < n -> 0 <= lbs < 2 ^ 31 -> n * s32 (lbs / n) <= lbs < n * s32 (lbs / n) + n.
Proof.
  intros Hn Hl. assert (0 <= lbs / n <= lbs) by (split; [apply Z.div_pos; lia|apply Z.div_le_upper_bound; nia]).
  rewrite s32_small by lia. pose proof (Z.div_mod lbs n ltac:(lia)). pose proof (Z.mod_pos_bound lbs n ltac:(lia)). lia.
Qed.
Lemma sumz_repeat x n : sumz (repeat x n) = Z.of_nat n * x.
Proof. induction n as [|n IH]; [reflexivity|]. cbn [repeat sumz fold_right]. fold (sumz (repeat x n)). lia. Qed.

Lemma parse_facts fuel b s pos b' q : bytes_ok (in_data s) -> read_parse fuel b s pos = Ok (ERR_NONE, b', q) ->
  let n := zlen (b_sizes b') in let rest := b_dsize b - (b_first b' - b_dpos b) in
  0 <= b_lacing b' < 4 /\ (b_lacing b' = 0 -> n = 1) /\ 1 <= n <= 256 /\ Forall (fun x => - 2 ^ 31 <= x < 2 ^ 31) (b_sizes b') /\
  b_dpos b + 4 <= b_first b' /\ b_data b' = b_data b /\ b_dpos b' = b_dpos b /\ b_dsize b' = b_dsize b /\ b_set b' = false /\
  (b_lacing b' <> 2 -> exists z, sumz (b_sizes b') = rest + z * 2 ^ 32) /\
  (b_lacing b' = 2 -> exists x, b_sizes b' = repeat x (Z.to_nat n) /\ (0 <= rest < 2 ^ 31 -> sumz (b_sizes b') <= rest < sumz (b_sizes b') + n)).
Proof.
  intros Hb. unfold read_parse. cbv zeta. cbn [b_dpos bl_set]. destruct (i_seek s (b_dpos b) pos) as [sk p]. destruct (sk =? INVALID_FILEPOS); [discriminate|].
  destruct (i_read s p 5) as [| | |[[err bs] p1]] eqn:Er; cbn [bind]; try discriminate.
  assert (Hbs : bytes_ok bs).
  { eapply i_read_bytes; eauto. }
  destruct (negb (err =? ERR_NONE)) eqn:Ee; [intros H; injection H as -> _ _; discriminate|].
  destruct (_ && _); [discriminate|]. set (k := if Z.land (nth 0 bs 0) 128 =? 0 then 2%nat else 1%nat) in *.
  set (hsz := Z.of_nat k + 3). assert (Hh : 4 <= hsz) by (subst hsz k; destruct (_ =? 0); lia).
  pose proof (land_2 (nth (k + 2) bs 0)) as Hlac. set (lacing := Z.shiftr (Z.land (nth (k + 2) bs 0) 6) 1) in *.
  set (bb := bl_head _ _ _ _ _ _ _). cbn [b_dpos bl_set b_simple bl_head].
  assert (Hbb : b_dpos bb = b_dpos b /\ b_dsize bb = b_dsize b /\ b_data bb = b_data b /\ b_lacing bb = lacing /\ b_set bb = false) by (subst bb; repeat split).
  destruct Hbb as (E1 & E2 & E3 & E4 & E5). clearbody bb.
  destruct (if (k =? 1)%nat then _ else _) as [| | |[num p2]] eqn:En; cbn [bind]; try discriminate.
  assert (Hnum : is_byte num).
  { destruct (k =? 1)%nat; [injection En as <- _; apply nth_byte; exact Hbs|]. eapply read_byte_range; [exact Hb| |exact En]. apply nth_byte; exact Hbs. }
  red in Hnum. rewrite E1, E2.
  change LACING_NONE with 0. destruct (lacing =? 0) eqn:E0.
  - intros H. injection H as <- _. cbn [bl_frames b_sizes b_lacing b_first b_data b_dpos b_dsize b_set]. rewrite E1, E2, E3, E4, E5.
    change (zlen [s32 (b_dsize b - hsz)]) with 1. split; [lia|]. split; [reflexivity|]. split; [lia|]. split; [constructor; [apply s32_range|constructor]|]. split; [lia|]. do 4 (split; [reflexivity|]).
    split; [|lia]. intros _. destruct (s32_eq (b_dsize b - hsz)) as (z & Hz). exists z. cbn [sumz fold_right]. lia.
  - set (lbs := u32 (b_dsize b - hsz - 1)). pose proof (u32_range (b_dsize b - hsz - 1)) as Hlr. fold lbs in Hlr. destruct (u32_eq (b_dsize b - hsz - 1)) as (z0 & Hz0). fold lbs in Hz0.
    destruct (if lacing =? LACING_XIPH then _ else _) as [| | |[sizes len]] eqn:Es; cbn [bind]; try discriminate.
    intros H. injection H as <- _. cbn [bl_frames b_sizes b_lacing b_first b_data b_dpos b_dsize b_set]. rewrite E1, E2, E3, E4, E5.
    assert (Hfact : zlen sizes = num + 1 /\ 0 <= len /\ Forall (fun x => - 2 ^ 31 <= x < 2 ^ 31) sizes /\
      (lacing <> 2 -> exists z, sumz sizes + len = lbs + z * 2 ^ 32) /\
      (lacing = 2 -> len = 0 /\ exists x, sizes = repeat x (Z.to_nat (num + 1)) /\ (lbs < 2 ^ 31 -> sumz sizes <= lbs < sumz sizes + (num + 1)))).
    { change LACING_XIPH with 1 in Es. change LACING_EBML with 3 in Es. destruct (lacing =? 1) eqn:L1; [|destruct (lacing =? 3) eqn:L3].
      - destruct (read_xiph_sizes _ _ _ _ _ _ _) as [| | |[[l lb] le]] eqn:Ex; cbn [bind] in Es; try discriminate. injection Es as <- <-.
        apply read_xiph_sizes_sum in Ex; [|exact Hlr]. destruct Ex as (X1 & X2 & X3 & X4 & z & Hz).
        split; [rewrite zlen_app; change (zlen [s32 lb]) with 1; unfold zlen; lia|]. split; [lia|]. split; [apply Forall_app; split; [exact X4|constructor; [apply s32_range|constructor]]|].
        split; [|lia]. intros _. rewrite sumz_app. cbn [sumz fold_right]. fold (sumz l). destruct (s32_eq lb) as (z' & Hz'). exists (z + z'). lia.
      - destruct (i_read s p2 (num * 4)) as [| | |[[e2 buf] p3]] eqn:Er2; cbn [bind] in Es; try discriminate.
        destruct (read_coded_size buf lbs) as [z1|] eqn:Ec; cbn [opt_res bind] in Es; [|discriminate].
        destruct (read_deltas _ _ _ _ _) as [| | |[[l lb] le]] eqn:Ex; cbn [bind] in Es; try discriminate. destruct (num =? 0) eqn:N0; [discriminate|]. injection Es as <- <-.
        pose proof (read_deltas_off _ _ _ _ _ _ _ _ Ex) as Hoff. apply sz_len_nonneg in Ec. apply read_deltas_sum in Ex; [|apply u32_range]. destruct Ex as (X1 & X3 & X4 & z & Hz).
        destruct (u32_eq (lbs - (s32 (sz_val z1) + sz_len z1))) as (z2 & Hz2). destruct (s32_eq lb) as (z' & Hz').
        split; [rewrite zlen_cons, zlen_app; change (zlen [s32 lb]) with 1; unfold zlen; lia|]. split; [lia|].
        split; [constructor; [apply s32_range|apply Forall_app; split; [exact X4|constructor; [apply s32_range|constructor]]]|].
        split; [|lia]. intros _. exists (z + z' + z2). cbn [sumz fold_right]. fold (sumz (l ++ [s32 lb])). rewrite sumz_app. cbn [sumz fold_right]. fold (sumz l). lia.
      - destruct (num =? 255) eqn:N; [discriminate|]. injection Es as <- <-.
        split; [rewrite BaseProofs.zlen_repeat; lia|]. split; [lia|].
        split; [apply Forall_forall; intros x Hx; apply repeat_spec in Hx; subst x; apply s32_range|]. split; [lia|]. intros _. split; [reflexivity|].
        exists (s32 (lbs / (num + 1))). split; [reflexivity|]. intros Hs. rewrite sumz_repeat, Z2Nat.id by lia. apply fixed_cover; lia. }
    destruct Hfact as (F1 & F2 & F3 & F4 & F5). rewrite F1.
    split; [lia|]. split; [lia|]. split; [lia|]. split; [exact F3|]. split; [lia|]. do 4 (split; [reflexivity|]). split.
    + intros Hn. destruct (F4 Hn) as (z & Hz). exists (z + z0). lia.
    + intros H2. destruct (F5 H2) as (-> & x & Hx & Hc). exists x. split; [exact Hx|]. intros Hr. assert (lbs = b_dsize b - hsz - 1) by (unfold lbs; rewrite u32_small; lia). lia.
Qed.

Lemma top_bit x : is_byte x -> (Z.land x 128 =? 0) = (x <? 128).
Proof. intros H. apply (byte_forall (fun x => Bool.eqb (Z.land x 128 =? 0) (x <? 128))) in H; [apply eqb_prop; exact H|vm_compute; reflexivity]. Qed.
Lemma lacing_bits x : is_byte x -> Z.shiftr (Z.land x 6) 1 = x / 2 mod 4.
Proof. intros H. apply (byte_forall (fun x => Z.shiftr (Z.land x 6) 1 =? x / 2 mod 4)) in H; [apply Z.eqb_eq; exact H|vm_compute; reflexivity]. Qed.

Lemma nth_skipn_z {A} (l : list A) d n : forall p, nth n (skipn p l) d = nth (p + n) l d.
Proof. intros p. revert l. induction p as [|p IH]; intros l; [reflexivity|]. destruct l as [|x l]; [cbn [skipn]; destruct n; reflexivity|]. cbn [skipn Nat.add nth]. apply IH. Qed.
Lemma nth_firstn_z {A} (l : list A) d n : forall m, (n < m)%nat -> nth n (firstn m l) d = nth n l d.
Proof. intros m. revert l n. induction m as [|m IH]; intros l n H; [lia|]. destruct l as [|x l]; [reflexivity|]. destruct n; [reflexivity|]. cbn [firstn nth]. apply IH. lia. Qed.

Lemma last_nth {A} (l : list A) d : last l d = nth (length l - 1) l d.
Proof. induction l as [|x l IH]; [reflexivity|]. destruct l as [|y l]; [reflexivity|]. change (last (x :: y :: l) d) with (last (y :: l) d). rewrite IH. cbn [length Nat.sub]. rewrite Nat.sub_0_r. reflexivity. Qed.

Lemma parse_total fuel b s pos : bytes_ok (in_data s) -> 0 <= b_dpos b -> in_reach s (b_dpos b) -> last (in_data s) 0 <> 255 -> zlen (in_data s) < Z.of_nat fuel ->
  b_dpos b <= zlen (in_data s) -> lacing_at (in_data s) (b_dpos b) <> 3 -> (lacing_at (in_data s) (b_dpos b) = 2 -> count_at (in_data s) (b_dpos b) <> 255) ->
  exists r, read_parse fuel b s pos = Ok r.
Proof.
  intros Hb Hp Hr Hl Hf Hle Hn3 Hn2. unfold read_parse. cbv zeta. cbn [b_dpos bl_set]. rewrite seek_ok by lia.
  replace (b_dpos b =? INVALID_FILEPOS) with false by (unfold INVALID_FILEPOS; lia).
  destruct (i_read s (b_dpos b) 5) as [| | |[[err bs] p1]] eqn:Er.
  1-3: unfold i_read in Er; rewrite reach_cond in Er by assumption; cbn [Z.ltb Z.compare orb] in Er; discriminate.
  cbn [bind]. pose proof (i_read_bytes _ _ _ _ _ _ Hb Er) as Hbs.
  destruct (negb (err =? ERR_NONE)) eqn:Ee; [eauto|].
  destruct (_ && _); [eauto|]. 
  assert (Hn : bs = firstn 5 (skipn (Z.to_nat (b_dpos b)) (in_data s)) /\ zlen bs = 5 /\ p1 = b_dpos b + 5).
  { unfold i_read in Er. rewrite reach_cond in Er by assumption. change (Z.to_nat 5) with 5%nat in Er. change (5 <? 0) with false in Er. cbn [orb] in Er.
    remember (firstn 5 (skipn (Z.to_nat (b_dpos b)) (in_data s))) as l eqn:El. injection Er as E1 E2 E3. subst l. split; [symmetry; exact E2|].
    assert (zlen bs <= 5) by (rewrite <- E2; unfold zlen; rewrite firstn_length; lia).
    destruct (zlen bs <? 5) eqn:E5; rewrite E2 in *; rewrite E5 in E1; [subst err; discriminate|]. lia. }
  destruct Hn as (Hbse & Hlen & ->).
  assert (Hnth : forall i, (i < 5)%nat -> nth i bs 0 = nth (Z.to_nat (b_dpos b) + i) (in_data s) 0).
  { intros i Hi. rewrite Hbse, nth_firstn_z, nth_skipn_z by lia. reflexivity. }
  assert (Hfit : b_dpos b + 5 <= zlen (in_data s)).
  { rewrite Hbse in Hlen. unfold zlen in Hlen |- *. rewrite firstn_length, skipn_length in Hlen. lia. }
  assert (H0 : nth 0 bs 0 = nth (Z.to_nat (b_dpos b)) (in_data s) 0) by (rewrite Hnth by lia; f_equal; lia).
  set (k := if Z.land (nth 0 bs 0) 128 =? 0 then 2%nat else 1%nat) in *.
  assert (Hfp : flags_pos (in_data s) (b_dpos b) = (Z.to_nat (b_dpos b) + (k + 2))%nat).
  { unfold flags_pos. rewrite <- H0, <- top_bit by (apply nth_byte; exact Hbs). unfold k. destruct (_ =? 0); lia. }
  assert (Hk : k = 1%nat \/ k = 2%nat /\ nth 0 bs 0 < 128).
  { unfold k. rewrite top_bit by (apply nth_byte; exact Hbs). destruct (_ <? 128) eqn:E; [right; split; [reflexivity|lia]|left; reflexivity]. }
  set (lacing := Z.shiftr (Z.land (nth (k + 2) bs 0) 6) 1) in *.
  assert (Hlac : lacing = lacing_at (in_data s) (b_dpos b)).
  { unfold lacing, lacing_at. rewrite lacing_bits by (apply nth_byte; exact Hbs). rewrite Hfp, Hnth by lia. reflexivity. }
  set (bb := bl_head _ _ _ _ _ _ _). clearbody bb.
  assert (Hnum : exists num p2, (if (k =? 1)%nat then Ok (nth 4 bs 0, b_dpos b + 5) else read_byte s (b_dpos b + 5) (nth 0 bs 0)) = Ok (num, p2) /\ b_dpos b + 5 <= p2 /\
     (zlen (in_data s) <= p2 -> num <> 255) /\ (num = 255 -> count_at (in_data s) (b_dpos b) = 255)).
  { destruct Hk as [-> | [-> Hlt]]; cbn [Nat.eqb].
    - eexists _, _. split; [reflexivity|]. split; [lia|]. assert (H4 : nth 4 bs 0 = count_at (in_data s) (b_dpos b)) by (unfold count_at; rewrite Hfp, Hnth by lia; f_equal; lia).
      split; [|intros E; rewrite <- H4; exact E]. intros Hz. rewrite last_nth in Hl. rewrite Hnth by lia. intros E. apply Hl. rewrite <- E. f_equal. unfold zlen in *. lia.
    - destruct (read_byte_any s (b_dpos b + 5) (nth 0 bs 0)) as (x & q & Hx & Hq & _ & Hk); [eapply reach_le; [exact Hr|lia]|lia|exact Hl|lia|].
      exists x, q. split; [exact Hx|]. split; [exact Hq|]. split; [exact Hk|]. intros ->. unfold read_byte, i_read in Hx.
      rewrite reach_cond in Hx by (eapply reach_le; [exact Hr|lia]). cbn [Z.ltb Z.compare orb bind] in Hx. change (Z.to_nat 1) with 1%nat in Hx.
      unfold count_at. rewrite Hfp. replace (S (Z.to_nat (b_dpos b) + (2 + 2)))%nat with (Z.to_nat (b_dpos b + 5) + 0)%nat by lia. rewrite <- nth_skipn_z.
      destruct (skipn (Z.to_nat (b_dpos b + 5)) (in_data s)) as [|y r]; cbn [firstn nth] in *; [injection Hx as Hx _; lia|]. injection Hx as -> _. reflexivity. }
  destruct Hnum as (num & p2 & Hn & Hp2 & Hnum & Hcnt). rewrite Hn. cbn [bind].
  change LACING_NONE with 0. destruct (lacing =? 0) eqn:E0; [eauto|]. change LACING_XIPH with 1. change LACING_EBML with 3.
  destruct (lacing =? 1) eqn:E1; [|destruct (lacing =? 3) eqn:E3; [exfalso; lia|]].
  - match goal with |- context [read_xiph_sizes ?f ?s' ?n ?p ?x ?l ?z] =>
      destruct (read_xiph_sizes_total s f Hl Hf n p x l z) as ([[l' lb] le] & ->); [eapply reach_le; [exact Hr|lia]|lia|exact Hnum|] end. cbn [bind]. eauto.
  - destruct (num =? 255) eqn:E255; [|cbn [bind]; eauto]. exfalso. pose proof (land_2 (nth (k + 2) bs 0)) as H2. fold lacing in H2. apply Hn2; [lia|]. apply Hcnt. lia.
Qed.
