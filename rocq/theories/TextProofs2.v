(** Proofs about character conversion: single-byte pages and UTF-16. *)
From Verif Require Import Base BaseProofs VintProofs Tree CodePages Text TextSpec TextProofs.

Definition idx : list Z := map Z.of_nat (seq 0 128).
Lemma idx_in i : In i idx <-> 0 <= i < 128.
Proof.
  unfold idx. rewrite in_map_iff. split.
  - intros (n & <- & H). apply in_seq in H. lia.
  - intros H. exists (Z.to_nat i). split; [lia|]. apply in_seq. lia.
Qed.
Definition at_ (l : list Z) (i : Z) : Z := nth (Z.to_nat i) l 0.
Definition page_okb (utf index : list Z) : bool :=
  (Z.of_nat (length utf) =? 128) && (Z.of_nat (length index) =? 128) &&
  forallb (fun i => (0 <=? at_ index i) && (at_ index i <? 128) && (128 <=? at_ utf i) && (at_ utf i <? 65536) && existsb (fun j => at_ index j =? i) idx &&
    forallb (fun j => implb (i <? j) (at_ utf (at_ index i) <? at_ utf (at_ index j))) idx) idx.
Definition page_ok (utf index : list Z) : Prop :=
  length utf = 128%nat /\ length index = 128%nat /\
  (forall i, 0 <= i < 128 -> 0 <= at_ index i < 128) /\ (forall i, 0 <= i < 128 -> 128 <= at_ utf i < 65536) /\
  (forall i, 0 <= i < 128 -> exists j, 0 <= j < 128 /\ at_ index j = i) /\
  (forall i j, 0 <= i < j -> j < 128 -> at_ utf (at_ index i) < at_ utf (at_ index j)).
Lemma page_okb_ok utf index : page_okb utf index = true -> page_ok utf index.
Proof.
  unfold page_okb. intros H. apply andb_prop in H. destruct H as [H1 H]. apply andb_prop in H1. destruct H1 as [H1 H2]. rewrite forallb_forall in H.
  split; [lia|]. split; [lia|].
  assert (K : forall i, 0 <= i < 128 -> 0 <= at_ index i < 128 /\ 128 <= at_ utf i < 65536 /\ existsb (fun j => at_ index j =? i) idx = true /\
    forallb (fun j => implb (i <? j) (at_ utf (at_ index i) <? at_ utf (at_ index j))) idx = true).
  { intros i Hi. specialize (H i (proj2 (idx_in i) Hi)). repeat (apply andb_prop in H; destruct H as [H ?]). repeat split; try assumption; lia. }
  split; [intros i Hi; apply (K i Hi)|]. split; [intros i Hi; apply (K i Hi)|]. split.
  - intros i Hi. destruct (K i Hi) as (_ & _ & E & _). apply existsb_exists in E. destruct E as (j & Hj & E). apply idx_in in Hj. exists j. split; [exact Hj|lia].
  - intros i j Hi Hj. destruct (K i ltac:(lia)) as (_ & _ & _ & E). rewrite forallb_forall in E. specialize (E j (proj2 (idx_in j) ltac:(lia))). replace (i <? j) with true in E by lia. cbn [implb] in E. lia.
Qed.
(** The pages of the library. *)
Definition good (p : codepage) : Prop := match p with Simple utf index => page_ok utf index | Utf8 => True end.
Lemma library_pages : Forall (fun x => good (snd x)) code_pages.
Proof. unfold code_pages. repeat (apply Forall_cons; [cbn [snd good]; first [exact I|apply page_okb_ok; vm_compute; reflexivity]|]). apply Forall_nil. Qed.

Section Page.
Context (utf index : list Z) (OK : page_ok utf index).
Lemma key_inj i j : 0 <= i < 128 -> 0 <= j < 128 -> at_ utf (at_ index i) = at_ utf (at_ index j) -> i = j.
Proof.
  intros Hi Hj E. destruct OK as (_ & _ & _ & _ & _ & S). destruct (Z.lt_trichotomy i j) as [L|[L|L]]; [|exact L|]; [specialize (S i j ltac:(lia) ltac:(lia))|specialize (S j i ltac:(lia) ltac:(lia))]; lia.
Qed.
Lemma utf_inj i j : 0 <= i < 128 -> 0 <= j < 128 -> at_ utf i = at_ utf j -> i = j.
Proof.
  intros Hi Hj E. destruct OK as (_ & _ & _ & _ & S & _). destruct (S i Hi) as (a & Ha & <-). destruct (S j Hj) as (b & Hb & <-). f_equal. apply key_inj; assumption.
Qed.
Lemma nth_at l i : length l = 128%nat -> 0 <= i < 128 -> nth_error l (Z.to_nat i) = Some (at_ l i).
Proof. intros Hl Hi. unfold at_. apply nth_error_nth'. lia. Qed.
Lemma search_ok ch fuel : forall lo hi, 0 <= lo -> hi <= 127 -> hi - lo + 1 < 2 ^ Z.of_nat fuel ->
  (exists i, lo <= i <= hi /\ at_ utf (at_ index i) = ch /\ search fuel utf index ch lo hi = Ok (at_ index i + 128)) \/
  ((forall i, lo <= i <= hi -> at_ utf (at_ index i) <> ch) /\ search fuel utf index ch lo hi = Ok 63).
Proof.
  destruct OK as (Hu & Hi & Hb & _ & _ & S). induction fuel as [|fuel IH]; intros lo hi H0 H1 H2; cbn [search].
  - replace (hi <? lo) with true by lia. right. split; [intros; lia|reflexivity].
  - destruct (hi <? lo) eqn:E. { right. split; [intros; lia|reflexivity]. }
    set (mid := (hi + lo) / 2). assert (Hm : lo <= mid <= hi) by (unfold mid; lia). rewrite Nat2Z.inj_succ, Z.pow_succ_r in H2 by lia.
    rewrite (nth_at index mid Hi) by lia. rewrite (nth_at utf (at_ index mid) Hu) by (apply Hb; lia).
    destruct (ch <? at_ utf (at_ index mid)) eqn:E1; [|destruct (at_ utf (at_ index mid) <? ch) eqn:E2].
    + destruct (IH lo (mid - 1) H0 ltac:(lia) ltac:(unfold mid in *; lia)) as [(i & A & B & C)|(A & C)].
      * left. exists i. split; [lia|]. auto.
      * right. split; [|exact C]. intros i Hr. destruct (Z_lt_le_dec i mid); [apply A; lia|]. destruct (Z.eq_dec i mid) as [->|]; [lia|]. specialize (S mid i ltac:(lia) ltac:(lia)). lia.
    + destruct (IH (mid + 1) hi ltac:(lia) H1 ltac:(unfold mid in *; lia)) as [(i & A & B & C)|(A & C)].
      * left. exists i. split; [lia|]. auto.
      * right. split; [|exact C]. intros i Hr. destruct (Z_lt_le_dec mid i); [apply A; lia|]. destruct (Z.eq_dec i mid) as [->|]; [lia|]. specialize (S i mid ltac:(lia) ltac:(lia)). lia.
    + left. exists mid. split; [exact Hm|]. split; [lia|reflexivity].
Qed.
Lemma page_char_at b : 128 <= b -> page_char utf b = at_ utf (b - 128).
Proof. intros H. unfold page_char. replace (b <? 128) with false by lia. reflexivity. Qed.
Lemma page_char_range b : is_byte b -> 0 <= page_char utf b < 65536 /\ (b < 128 -> page_char utf b = b) /\ (128 <= b -> 128 <= page_char utf b) /\ (b <> 0 -> page_char utf b <> 0).
Proof.
  intros Hb. unfold is_byte in Hb. destruct OK as (_ & _ & _ & Hr & _). destruct (Z_lt_le_dec b 128).
  - unfold page_char. replace (b <? 128) with true by lia. lia.
  - rewrite page_char_at by lia. specialize (Hr (b - 128) ltac:(lia)). lia.
Qed.
Lemma read_simple_ok b l : is_byte b -> read_simple utf (b :: l) = Ok (page_char utf b, l).
Proof.
  intros Hb. unfold read_simple. destruct (lead_tests b Hb) as (E & _). rewrite E. destruct (b <? 128) eqn:L; unfold is_byte in Hb; [unfold page_char; rewrite L; reflexivity|].
  rewrite (nth_at utf (b - 128)) by (try apply OK; lia). rewrite page_char_at by lia. reflexivity.
Qed.
Lemma write_simple_ok b len : is_byte b -> write_simple utf index len (page_char utf b) = if 1 <? len then Ok ([b], len - 1) else Ok ([], len).
Proof.
  intros Hb. unfold write_simple. destruct (1 <? len); [|reflexivity]. unfold is_byte in Hb. destruct (page_char_range b Hb) as (R1 & R2 & R3 & _).
  destruct (Z_lt_le_dec b 128).
  - rewrite R2 by lia. replace (128 <=? b) with false by lia. cbn [andb bind]. unfold u8. rewrite Z.mod_small by lia. reflexivity.
  - rewrite page_char_at in * by lia. set (ch := at_ utf (b - 128)) in *. replace (128 <=? ch) with true by lia. cbn [andb].
    destruct ((256 <=? ch) || negb (nth (Z.to_nat (ch - 128)) utf 0 =? ch)) eqn:E.
    + assert (Hf : exists i, 0 <= i < 128 /\ at_ index i = b - 128). { destruct OK as (_ & _ & _ & _ & S & _). apply S. lia. }
      destruct (search_ok ch 8 0 127 ltac:(lia) ltac:(lia) ltac:(cbn; lia)) as [(i & A & B & C)|(A & C)].
      * rewrite C. cbn [bind]. assert (at_ index i = b - 128). { apply utf_inj; [apply OK; lia|lia|exact B]. } unfold u8. rewrite Z.mod_small by lia. do 3 f_equal. lia.
      * destruct Hf as (i & Hi & Ei). specialize (A i ltac:(lia)). rewrite Ei in A. contradiction.
    + change (nth (Z.to_nat (ch - 128)) utf 0) with (at_ utf (ch - 128)) in E. assert (ch - 128 = b - 128). { apply utf_inj; [lia|lia|]. fold ch. lia. }
      cbn [bind]. unfold u8. rewrite Z.mod_small by lia. do 3 f_equal. lia.
Qed.
Lemma write_simple_unknown ch len : 0 <= ch -> (forall b, is_byte b -> page_char utf b <> ch) -> write_simple utf index len ch = if 1 <? len then Ok ([63], len - 1) else Ok ([], len).
Proof.
  intros Hc Hn. unfold write_simple. destruct (1 <? len); [|reflexivity].
  assert (H1 : 128 <= ch). { destruct (Z_lt_le_dec ch 128); [|lia]. destruct (Hn ch); [unfold is_byte; lia|]. apply (page_char_range ch); [unfold is_byte; lia|lia]. }
  replace (128 <=? ch) with true by lia. cbn [andb].
  replace ((256 <=? ch) || negb (nth (Z.to_nat (ch - 128)) utf 0 =? ch)) with true.
  2:{ destruct (256 <=? ch) eqn:E; [reflexivity|]. specialize (Hn ch ltac:(unfold is_byte; lia)). rewrite page_char_at in Hn by lia. unfold at_ in Hn. cbn [orb]. lia. }
  destruct (search_ok ch 8 0 127 ltac:(lia) ltac:(lia) ltac:(cbn; lia)) as [(i & A & B & C)|(A & C)]; [|rewrite C; reflexivity].
  destruct (Hn (at_ index i + 128)). { destruct OK as (_ & _ & Hb & _). specialize (Hb i ltac:(lia)). unfold is_byte. lia. }
  rewrite page_char_at by (destruct OK as (_ & _ & Hb & _); specialize (Hb i ltac:(lia)); lia). rewrite Z.add_simpl_r. exact B.
Qed.
Lemma write_simple_any ch len : 0 <= ch -> exists c, is_byte c /\ write_simple utf index len ch = if 1 <? len then Ok ([c], len - 1) else Ok ([], len).
Proof.
  intros Hc. unfold write_simple. destruct (1 <? len); [|exists 0; split; [unfold is_byte; lia|reflexivity]].
  destruct ((128 <=? ch) && _) eqn:E.
  - destruct (search_ok ch 8 0 127 ltac:(lia) ltac:(lia) ltac:(cbn; lia)) as [(i & A & B & C)|(A & C)]; rewrite C; cbn [bind]; eexists; (split; [|reflexivity]); unfold is_byte, u8; lia.
  - eexists. split; [|reflexivity]. unfold is_byte, u8. lia.
Qed.
End Page.

(** ** UTF-16 *)
Lemma lor_high x k y : 0 <= x < 2 ^ k -> 0 <= k -> Z.lor x (y * 2 ^ k) = x + y * 2 ^ k.
Proof.
  intros Hx Hk. rewrite <- Z.lxor_lor, <- Z.add_nocarry_lxor; try reflexivity; apply Z.bits_inj'; intros n Hn; rewrite Z.land_spec, Z.bits_0; destruct (Z_lt_le_dec n k).
  1,3: rewrite Z.mul_pow2_bits_low by lia; apply andb_false_r.
  all: (destruct (Z.eq_dec x 0) as [->|]; [rewrite Z.bits_0; reflexivity|]); assert (Z.log2 x < k) by (apply Z.log2_lt_pow2; lia); rewrite (Z.bits_above_log2 x n); [reflexivity|lia|lia].
Qed.
Lemma utf16_units c : unicode c -> Forall (fun u => 0 < u < 65536) (utf16_of c) /\ 1 <= zlen (utf16_of c) <= 2.
Proof.
  intros Hc. unfold unicode in Hc. unfold utf16_of. destruct (c <? 65536) eqn:E; (split; [|cbn; lia]); repeat (constructor; [lia|]); constructor.
Qed.
Lemma write_utf16_ok c len : unicode c -> zlen (utf16_of c) < len -> write_utf16 len c = (utf16_of c, len - zlen (utf16_of c)).
Proof.
  intros Hc. unfold unicode in Hc. unfold utf16_of, write_utf16. destruct (c <? 65536) eqn:E.
  - replace (65536 <=? c) with false by lia. change (zlen [c]) with 1. intros H. replace (1 <? len) with true by lia. cbn [andb]. unfold u16. rewrite Z.mod_small by lia. reflexivity.
  - replace (65536 <=? c) with true by lia. change (zlen [_; _]) with 2. intros H. replace (2 <? len) with true by lia. cbn [andb]. rewrite !mask1023, shr by lia.
    change 55296 with (54 * 2 ^ 10). change 56320 with (55 * 2 ^ 10). rewrite !lor_high by lia. change (2 ^ 10) with 1024. unfold u16. rewrite !Z.mod_small by lia.
    f_equal. f_equal; [lia|]. f_equal. lia.
Qed.
Lemma surrogate_test x v : 0 <= x -> (Z.shiftl (Z.shiftr x 10) 10 =? v * 1024) = (x / 1024 =? v).
Proof. intros. rewrite shl, shr by lia. change (2 ^ 10) with 1024. lia. Qed.
Lemma read_utf16_ok c rest : unicode c -> read_utf16 (utf16_of c ++ rest) = Ok (c, rest).
Proof.
  intros Hc. unfold unicode in Hc. unfold utf16_of, read_utf16. change 55296 with (54 * 1024) at 2. change 56320 with (55 * 1024) at 2. destruct (c <? 65536) eqn:E; cbn [app].
  - rewrite surrogate_test by lia. replace (c / 1024 =? 54) with false by lia. reflexivity.
  - change 55296 with (54 * 1024). change 56320 with (55 * 1024). rewrite !surrogate_test by lia. replace ((54 * 1024 + (c - 65536) / 1024) / 1024 =? 54) with true by lia.
    replace ((55 * 1024 + (c - 65536) mod 1024) / 1024 =? 55) with true by lia. rewrite !mask1023, shl by lia. rewrite Z.lor_comm, lor_high by lia. do 2 f_equal. lia.
Qed.
Lemma read_utf16_safe a l : Forall (fun u => 0 <= u < 65536) (a :: l) -> c_string (a :: l) -> a <> 0 -> exists c r, read_utf16 (a :: l) = Ok (c, r) /\ 0 <= c < 2 ^ 21 /\ tail_of (a :: l) r.
Proof.
  intros Hb Hs Ha. assert (Hs1 : c_string l).
  { destruct Hs as (s & t & E & Hs). destruct s as [|x s]; cbn in E; injection E as -> E; [contradiction|]. apply Forall_cons_iff in Hs. exists s, t. split; [exact E|apply Hs]. }
  apply Forall_cons_iff in Hb. destruct Hb as [Hab Hb].
  assert (Ho : exists c r, Ok (a, l) = Ok (c, r) /\ 0 <= c < 2 ^ 21 /\ tail_of (a :: l) r).
  { exists a, l. split; [reflexivity|]. split; [lia|]. exists [a]. split; [reflexivity|]. split; [discriminate|]. repeat constructor. exact Ha. }
  unfold read_utf16. destruct (_ =? 55296); [|exact Ho]. destruct Hs1 as (s & t & -> & Hs1). destruct s as [|b s]; cbn [app] in *; [exact Ho|].
  apply Forall_cons_iff in Hs1. destruct Hs1 as [H0 Hs1]. destruct (_ =? 56320); [|exact Ho]. eexists _, _. split; [reflexivity|].
  rewrite !mask1023, shl by lia. rewrite Z.lor_comm, lor_high by lia. split; [lia|]. exists [a; b]. split; [reflexivity|]. split; [discriminate|]. repeat constructor; assumption.
Qed.
