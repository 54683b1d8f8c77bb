From Verif Require Import Base BaseProofs Vint VintSpec VintProofs EbmlId EbmlIdSpec EbmlIdProofs Ebml Arr ArrProofs2 Finder FinderSpec.

Lemma scan_id_ok left b0 : (left <= 4)%nat -> is_byte b0 ->
  scan_id left 0 b0 = if (1 <=? b0) && (8 - Z.log2 b0 <=? Z.of_nat left) then Some (8 - Z.log2 b0) else None.
Proof.
  intros Hl Hb.
  assert (H : forallb (fun b => match scan_id left 0 b, (if (1 <=? b) && (8 - Z.log2 b <=? Z.of_nat left) then Some (8 - Z.log2 b) else None) with
     | Some x, Some y => x =? y | None, None => true | _, _ => false end) all_bytes = true).
  { do 5 (destruct left as [|left]; [vm_compute; reflexivity|]). lia. }
  pose proof (byte_forall _ H b0 Hb) as H'. cbv beta in H'.
  destruct (scan_id left 0 b0), ((1 <=? b0) && (8 - Z.log2 b0 <=? Z.of_nat left)); try congruence; try lia. f_equal; lia.
Qed.

(** Slices. *)
Lemma slice_0 l p : slice l p 0 = []. Proof. reflexivity. Qed.
Lemma slice_len l p n : 0 <= p -> 0 <= n -> p + n <= zlen l -> zlen (slice l p n) = n.
Proof. intros. unfold slice, zlen in *. rewrite firstn_length, skipn_length. lia. Qed.

Lemma skipn_S_tl {A} n (l : list A) : skipn (S n) l = tl (skipn n l).
Proof. revert l; induction n; intros [|x l]; cbn; try reflexivity; auto. apply (IHn l). Qed.
Lemma nth_error_skipn {A} n (l : list A) : nth_error l n = hd_error (skipn n l).
Proof. revert l; induction n; intros [|x l]; cbn; auto. Qed.
Lemma firstn_S_snoc {A} n (l : list A) x : nth_error l n = Some x -> firstn (S n) l = firstn n l ++ [x].
Proof. revert l; induction n; intros [|y l]; cbn; intros H; try discriminate. { injection H as ->. reflexivity. } f_equal. apply IHn, H. Qed.
Lemma nth_error_skipn_add {A} n m (l : list A) : nth_error (skipn n l) m = nth_error l (n + m).
Proof. revert l; induction n; intros [|y l]; cbn; auto. destruct m; reflexivity. Qed.

Lemma slice_snoc l p n x : 0 <= p -> 0 <= n -> nth_error l (Z.to_nat (p + n)) = Some x -> slice l p (n + 1) = slice l p n ++ [x].
Proof.
  intros Hp Hn H. unfold slice. replace (Z.to_nat (n + 1)) with (S (Z.to_nat n)) by lia.
  apply firstn_S_snoc. rewrite nth_error_skipn_add. rewrite <- H. f_equal. lia.
Qed.
Lemma firstn_tl {A} n (l : list A) : firstn n (tl l) = tl (firstn (S n) l).
Proof. destruct l; [destruct n; reflexivity|reflexivity]. Qed.
Lemma slice_tl l p n : 0 <= p -> 1 <= n -> slice l (p + 1) (n - 1) = tl (slice l p n).
Proof.
  intros. unfold slice. replace (Z.to_nat (p + 1)) with (S (Z.to_nat p)) by lia. rewrite skipn_S_tl.
  replace (Z.to_nat n) with (S (Z.to_nat (n - 1))) by lia. apply firstn_tl.
Qed.

Lemma firstn_add {A} a b (l : list A) : firstn (a + b) l = firstn a l ++ firstn b (skipn a l).
Proof. revert l; induction a; intros [|x l]; cbn; auto. { rewrite firstn_nil. reflexivity. } f_equal. auto. Qed.
Lemma skipn_add {A} a b (l : list A) : skipn (a + b) l = skipn b (skipn a l).
Proof. revert l; induction a; intros [|x l]; cbn; auto. rewrite skipn_nil. reflexivity. Qed.
Lemma slice_split l p n m : 0 <= p -> 0 <= n -> 0 <= m -> slice l p (n + m) = slice l p n ++ slice l (p + n) m.
Proof.
  intros. unfold slice. replace (Z.to_nat (n + m)) with (Z.to_nat n + Z.to_nat m)%nat by lia.
  replace (Z.to_nat (p + n)) with (Z.to_nat p + Z.to_nat n)%nat by lia.
  rewrite firstn_add, skipn_add. reflexivity.
Qed.
Lemma slice_bytes l p n : bytes_ok l -> bytes_ok (slice l p n).
Proof. intros. apply bytes_ok_firstn, bytes_ok_skipn. auto. Qed.
Lemma slice_app p l s n : n = zlen l -> slice (p ++ l ++ s) (zlen p) n = l.
Proof.
  intros ->. unfold slice, zlen. rewrite !Nat2Z.id. rewrite skipn_app, skipn_all, Nat.sub_diag.
  cbn [skipn app]. rewrite firstn_app, firstn_all, Nat.sub_diag. cbn [firstn]. apply app_nil_r.
Qed.

(** ** The invariant of the local variables *)
Definition inv (file : list Z) (start : Z) (s : fst_) : Prop :=
  zlen (f_buf s) = 16 /\ bytes_ok (f_buf s) /\ 0 <= start <= f_pos s - f_ri s /\ 0 <= f_ri s <= 12 /\
  0 <= f_pidl s <= 4 /\ (f_pos s = start \/ f_pos s <= zlen file) /\
  slice file (f_pos s - f_ri s) (f_ri s) = firstn (Z.to_nat (f_ri s)) (f_buf s) /\
  f_rs s = u32 (f_pos s - start).

Lemma mem_put_1 buf ri b : 0 <= ri < zlen buf ->
  exists l x r, buf = l ++ x :: r /\ zlen l = ri /\ mem_put buf ri [b] = Some (l ++ b :: r).
Proof.
  intros H. destruct (nth_error buf (Z.to_nat ri)) as [x|] eqn:E.
  2:{ apply nth_error_None in E. unfold zlen in H. lia. }
  apply nth_error_split in E as (l & r & -> & Hl). exists l, x, r.
  assert (Hz : zlen l = ri) by (unfold zlen; lia).
  split; [reflexivity|]. split; [exact Hz|]. rewrite <- Hz.
  exact (mem_put_ok l [x] r [b] eq_refl).
Qed.

Lemma firstn_app_len {A} (l r : list A) n : n = length l -> firstn n (l ++ r) = l.
Proof. intros ->. rewrite firstn_app, firstn_all, Nat.sub_diag. cbn [firstn]. apply app_nil_r. Qed.

Lemma u32_add x : u32 (u32 x + 1) = u32 (x + 1).
Proof. unfold u32. rewrite Zplus_mod_idemp_l. reflexivity. Qed.

Lemma push_ok file start s b : bytes_ok file -> inv file start s -> f_ri s <= 11 -> rd_byte file (f_pos s) = Some b ->
  exists buf, mem_put (f_buf s) (f_ri s) [b] = Some buf /\
    inv file start (mkF buf (f_ri s + 1) (u32 (f_rs s + 1)) (f_pidl s) (f_pos s + 1)).
Proof.
  intros Hok (H1 & H2 & H3 & H4 & H5 & H6 & H7 & H8) Hri Hb.
  destruct (mem_put_1 (f_buf s) (f_ri s) b ltac:(lia)) as (l & x & r & Eb & Hl & Hm).
  exists (l ++ b :: r). split; [exact Hm|].
  unfold rd_byte in Hb.
  assert (Hlt : f_pos s < zlen file).
  { assert (Hn : (Z.to_nat (f_pos s) < length file)%nat) by (apply nth_error_Some; congruence). unfold zlen. lia. }
  assert (Hbyte : is_byte b).
  { apply (Forall_forall is_byte file) ; [exact Hok|]. eapply nth_error_In; eauto. }
  rewrite Eb in H1, H2, H7. rewrite zlen_app, zlen_cons in H1.
  apply bytes_ok_app in H2 as [Hbl Hbr]. inversion Hbr; subst.
  red. cbn [f_buf f_ri f_rs f_pidl f_pos].
  replace (f_pos s + 1 - (f_ri s + 1)) with (f_pos s - f_ri s) by lia.
  split; [rewrite zlen_app, zlen_cons; lia|].
  split; [apply bytes_ok_app; split; [auto|constructor; auto]|].
  split; [lia|]. split; [lia|]. split; [lia|]. split; [right; lia|]. split.
  - rewrite (slice_snoc file (f_pos s - f_ri s) (f_ri s) b) by (try lia; rewrite <- Hb; f_equal; lia).
    rewrite H7. rewrite firstn_app_len by (unfold zlen in Hl; lia).
    replace (l ++ b :: r) with ((l ++ [b]) ++ r) by (rewrite <- app_assoc; reflexivity).
    rewrite firstn_app_len; [reflexivity|]. rewrite app_length. cbn. unfold zlen in Hl. lia.
  - rewrite H8, u32_add. f_equal. lia.
Qed.

Lemma shift_ok file start s : inv file start s -> 1 <= f_ri s ->
  exists buf, shift_buf (f_buf s) (f_ri s - 1) = Some buf /\
    inv file start (mkF buf (f_ri s - 1) (f_rs s) (f_pidl s) (f_pos s)).
Proof.
  intros (H1 & H2 & H3 & H4 & H5 & H6 & H7 & H8) Hri. unfold shift_buf.
  assert (Hs : exists x m r, f_buf s = x :: m ++ r /\ zlen m = f_ri s - 1 /\ 1 <= zlen r).
  { destruct (f_buf s) as [|x t]; [cbn in H1; lia|]. rewrite zlen_cons in H1.
    exists x, (firstn (Z.to_nat (f_ri s - 1)) t), (skipn (Z.to_nat (f_ri s - 1)) t).
    rewrite firstn_skipn. split; [reflexivity|]. unfold zlen in *. rewrite firstn_length, skipn_length. lia. }
  destruct Hs as (x & m & r & Eb & Hm & Hr). rewrite Eb in *.
  pose proof (mem_get_ok [x] m r) as Hg. change (zlen [x]) with 1 in Hg. cbn [app] in Hg. rewrite Hm in Hg. rewrite Hg.
  assert (Hsp : exists old s', x :: m ++ r = [] ++ old ++ s' /\ zlen old = zlen m /\ 1 <= zlen s').
  { exists (firstn (length m) (x :: m ++ r)), (skipn (length m) (x :: m ++ r)). rewrite firstn_skipn.
    split; [reflexivity|]. unfold zlen. rewrite firstn_length, skipn_length. cbn [length]. rewrite app_length. unfold zlen in Hr. lia. }
  destruct Hsp as (old & s' & Es & Hol & Hs'). rewrite Es.
  pose proof (mem_put_ok [] old s' m Hol) as Hp. change (zlen (@nil Z)) with 0 in Hp. rewrite Hp.
  exists ([] ++ m ++ s'). split; [reflexivity|].
  assert (Hl : zlen (x :: m ++ r) = zlen old + zlen s') by (rewrite Es; cbn [app]; apply zlen_app).
  assert (Hb : bytes_ok (m ++ s')).
  { inversion H2 as [|? ? _ Hmr]; subst. apply bytes_ok_app in Hmr as [Hbm _].
    rewrite Es in H2. cbn [app] in H2. apply bytes_ok_app in H2 as [_ Hbs]. apply bytes_ok_app. auto. }
  red. cbn [f_buf f_ri f_rs f_pidl f_pos app].
  split; [rewrite zlen_app; lia|]. split; [exact Hb|]. split; [lia|]. split; [lia|]. split; [lia|].
  split; [destruct H6; [left; lia|right; lia]|]. split; [|exact H8].
  replace (f_pos s - (f_ri s - 1)) with (f_pos s - f_ri s + 1) by lia.
  rewrite slice_tl by lia. rewrite H7.
  replace (Z.to_nat (f_ri s)) with (S (Z.to_nat (f_ri s - 1))) by lia. cbn [firstn tl].
  rewrite !firstn_app_len by (unfold zlen in Hm; lia). reflexivity.
Qed.

Lemma rd_0 file start s : inv file start s -> exists b0, rd (f_buf s) 0 = Some b0 /\ is_byte b0.
Proof.
  intros (H1 & H2 & _). destruct (f_buf s) as [|b0 t]; [cbn in H1; lia|]. exists b0. split; [reflexivity|]. inversion H2; auto.
Qed.

(** The marker of the first byte, and the bytes of the ID. *)
Definition id_ready (s : fst_) : Prop :=
  1 <= f_pidl s <= 4 /\ f_pidl s <= f_ri s /\ exists id, id_encodes (firstn (Z.to_nat (f_pidl s)) (f_buf s)) id.

(** No marker among the first bits: the leading byte is too small for its length. *)
Definition no_marker (s : fst_) : Prop :=
  exists b0, rd (f_buf s) 0 = Some b0 /\ 0 <= b0 < 2 ^ (8 - Z.min (f_ri s) 4).

Lemma byte_log_range b0 n : is_byte b0 -> 1 <= b0 -> n = 8 - Z.log2 b0 -> 2 ^ (8 - n) <= b0 < 2 ^ (9 - n).
Proof.
  intros Hb H1 ->. destruct (byte_log2 b0 Hb H1) as [_ H]. replace (8 - (8 - Z.log2 b0)) with (Z.log2 b0) by lia.
  replace (9 - (8 - Z.log2 b0)) with (Z.log2 b0 + 1) by lia. exact H.
Qed.

Lemma id_ready_intro file start s b0 n : inv file start s -> rd (f_buf s) 0 = Some b0 -> is_byte b0 -> 1 <= b0 ->
  n = 8 - Z.log2 b0 -> 1 <= n -> n <= Z.min (f_ri s) 4 ->
  id_ready (mkF (f_buf s) (f_ri s) (f_rs s) n (f_pos s)).
Proof.
  intros (H1 & H2 & H3 & H4 & H5 & H6 & H7 & H8) Hr Hb Hb1 Hn Hn1 Hn4. red. cbn [f_buf f_ri f_rs f_pidl f_pos].
  split; [lia|]. split; [lia|].
  destruct (f_buf s) as [|b t]; [discriminate|]. cbn in Hr. apply some_inj in Hr as ->.
  exists (be_val (firstn (Z.to_nat n) (b0 :: t))). red.
  assert (Hlen : zlen (firstn (Z.to_nat n) (b0 :: t)) = n) by (unfold zlen in *; rewrite firstn_length; lia).
  split; [apply bytes_ok_firstn; auto|]. split; [|reflexivity]. rewrite Hlen. split; [lia|].
  replace (Z.to_nat n) with (S (Z.to_nat (n - 1))) in * by lia. cbn [firstn] in *.
  rewrite be_val_cons. rewrite zlen_cons in Hlen.
  assert (Hok : bytes_ok (firstn (Z.to_nat (n - 1)) t)) by (apply bytes_ok_firstn; inversion H2; auto).
  pose proof (be_val_bound _ Hok) as Hv. replace (zlen (firstn (Z.to_nat (n - 1)) t)) with (n - 1) in * by lia.
  pose proof (byte_log_range b0 n Hb Hb1 Hn) as Hrange.
  rewrite pow256_2 in * by lia.
  replace (7 * n) with ((8 - n) + 8 * (n - 1)) by lia. replace (8 - n + 8 * (n - 1) + 1) with ((9 - n) + 8 * (n - 1)) by lia.
  rewrite !pow_split by lia. nia.
Qed.

Lemma id_loop_ok file start limit : bytes_ok file -> forall fuel s,
  inv file start s -> f_ri s <= 11 -> Z.max 0 (zlen file - f_pos s) < Z.of_nat fuel ->
  exists r, id_loop fuel file start limit s = Some r /\
  match r with
  | IdBad => False
  | IdEof p => f_pos s <= p
  | IdFound s' => inv file start s' /\ id_ready s' /\ f_ri s' <= 11 /\ f_pos s <= f_pos s' /\
      f_pos s - f_ri s <= f_pos s' - f_ri s'
  | IdLimit s' => inv file start s' /\ no_marker s' /\ f_ri s' <= 11 /\ f_pos s <= f_pos s' /\ f_ri s <= f_ri s' /\
      f_pos s - f_ri s <= f_pos s' - f_ri s' /\ f_pidl s' = f_pidl s /\ limit = start + f_rs s' /\
      (f_ri s <= 4 -> f_ri s' <= 4)
  end.
Proof.
  intros Hok. induction fuel as [|f IH]; intros s Hinv Hri Hfuel; [lia|].
  cbn [id_loop]. destruct (rd_0 _ _ _ Hinv) as (b0 & Hr & Hb). rewrite Hr.
  assert (Hri0 : 0 <= f_ri s) by apply Hinv.
  rewrite scan_id_ok by (auto; lia).
  replace (Z.of_nat (Z.to_nat (Z.min (f_ri s) 4))) with (Z.min (f_ri s) 4) by lia.
  destruct ((1 <=? b0) && (8 - Z.log2 b0 <=? Z.min (f_ri s) 4)) eqn:Em.
  - eexists. split; [reflexivity|]. cbn beta iota. cbn [f_buf f_ri f_rs f_pidl f_pos].
    assert (1 <= 8 - Z.log2 b0) by (destruct (byte_log2 b0 Hb ltac:(lia)); lia).
    split. { destruct Hinv as (H1 & H2 & H3 & H4 & H5 & H6 & H7 & H8). red; cbn [f_buf f_ri f_rs f_pidl f_pos].
      repeat (split; [assumption || lia|]). exact H8. }
    split. { apply (id_ready_intro file start s b0); auto; lia. } lia.
  - assert (Hnm : no_marker s).
    { exists b0. split; [exact Hr|]. red in Hb. split; [lia|].
      destruct (Z.lt_ge_cases b0 1) as [H0|H0]; [replace b0 with 0 by lia; apply Z.pow_pos_nonneg; lia|].
      destruct (byte_log2 b0 Hb ltac:(lia)) as [_ H2]. eapply Z.lt_le_trans; [apply H2|]. apply Z.pow_le_mono_r; lia. }
    destruct (limit =? start + f_rs s) eqn:El.
    { eexists. split; [reflexivity|]. cbn beta iota. split; [exact Hinv|]. split; [exact Hnm|]. lia. }
    destruct (4 <=? f_ri s) eqn:E4.
    + destruct (shift_ok file start s Hinv ltac:(lia)) as (buf & Hs & Hinv1). rewrite Hs.
      destruct (rd_byte file (f_pos s)) as [b|] eqn:Eb.
      2:{ eexists. split; [reflexivity|]. cbn beta iota. lia. }
      assert (Hlt : f_pos s < zlen file).
      { unfold rd_byte in Eb. assert (Hn : (Z.to_nat (f_pos s) < length file)%nat) by (apply nth_error_Some; congruence). unfold zlen.
        assert (0 <= f_pos s) by (destruct Hinv as (_ & _ & ? & ? & _); lia). lia. }
      destruct (push_ok file start _ b Hok Hinv1 ltac:(cbn [f_ri]; lia) Eb) as (buf2 & Hp & Hinv2).
      cbn [f_buf f_ri f_rs f_pidl f_pos] in Hp, Hinv2. rewrite Hp.
      destruct (IH _ Hinv2 ltac:(cbn [f_ri]; lia) ltac:(cbn [f_pos]; lia)) as (r & Er & Hrr). exists r. split; [exact Er|].
      cbn [f_buf f_ri f_rs f_pidl f_pos] in Hrr.
      destruct r as [s'|s'|p|]; cbn beta iota in *; [| | |exact Hrr].
      * destruct Hrr as (Q1 & Q2 & Q3 & Q4 & Q5). split; [exact Q1|]. split; [exact Q2|]. lia.
      * destruct Hrr as (Q1 & Q2 & Q3 & Q4 & Q5 & Q6 & Q7 & Q8 & Q9). split; [exact Q1|]. split; [exact Q2|]. split; [lia|].
        split; [lia|]. split; [lia|]. split; [lia|]. split; [exact Q7|]. split; [exact Q8|]. intros; apply Q9; lia.
      * lia.
    + destruct (rd_byte file (f_pos s)) as [b|] eqn:Eb.
      2:{ eexists. split; [reflexivity|]. cbn beta iota. lia. }
      assert (Hlt : f_pos s < zlen file).
      { unfold rd_byte in Eb. assert (Hn : (Z.to_nat (f_pos s) < length file)%nat) by (apply nth_error_Some; congruence). unfold zlen.
        assert (0 <= f_pos s) by (destruct Hinv as (_ & _ & ? & ? & _); lia). lia. }
      destruct (push_ok file start _ b Hok Hinv ltac:(lia) Eb) as (buf2 & Hp & Hinv2). rewrite Hp.
      destruct (IH _ Hinv2 ltac:(cbn [f_ri]; lia) ltac:(cbn [f_pos]; lia)) as (r & Er & Hrr). exists r. split; [exact Er|].
      cbn [f_buf f_ri f_rs f_pidl f_pos] in Hrr.
      destruct r as [s'|s'|p|]; cbn beta iota in *; [| | |exact Hrr].
      * destruct Hrr as (Q1 & Q2 & Q3 & Q4 & Q5). split; [exact Q1|]. split; [exact Q2|]. lia.
      * destruct Hrr as (Q1 & Q2 & Q3 & Q4 & Q5 & Q6 & Q7 & Q8 & Q9). split; [exact Q1|]. split; [exact Q2|]. split; [lia|].
        split; [lia|]. split; [lia|]. split; [lia|]. split; [exact Q7|]. split; [exact Q8|]. intros; apply Q9; lia.
      * lia.
Qed.

Lemma rd_byte_lt file pos b : 0 <= pos -> rd_byte file pos = Some b -> pos < zlen file.
Proof. intros H0 H. unfold rd_byte in H. assert (Hn : (Z.to_nat pos < length file)%nat) by (apply nth_error_Some; congruence). unfold zlen. lia. Qed.

Lemma slice_sub file base buf n p m : 0 <= base -> 0 <= p -> 0 <= m -> p + m <= n ->
  slice file base n = firstn (Z.to_nat n) buf -> slice file (base + p) m = firstn (Z.to_nat m) (skipn (Z.to_nat p) buf).
Proof.
  intros Hb Hp Hm Hn H. unfold slice in *.
  replace (Z.to_nat (base + p)) with (Z.to_nat base + Z.to_nat p)%nat by lia. rewrite skipn_add.
  assert (H2 : skipn (Z.to_nat p) (firstn (Z.to_nat n) (skipn (Z.to_nat base) file)) = skipn (Z.to_nat p) (firstn (Z.to_nat n) buf)) by (rewrite H; reflexivity).
  rewrite !skipn_firstn_comm in H2.
  apply (f_equal (firstn (Z.to_nat m))) in H2. rewrite !firstn_firstn in H2.
  replace (Nat.min (Z.to_nat m) (Z.to_nat n - Z.to_nat p)) with (Z.to_nat m) in H2 by lia. exact H2.
Qed.

Definition small_file (file : list Z) (start : Z) : Prop := zlen file - start < 2 ^ 32.

Lemma inv_rs file start s : inv file start s -> small_file file start -> f_rs s = f_pos s - start.
Proof.
  intros (H1 & H2 & H3 & H4 & H5 & H6 & H7 & H8) Hs. red in Hs. rewrite H8. unfold u32. apply Z.mod_small. lia.
Qed.

Lemma id_loop_bound file start limit : bytes_ok file -> small_file file start -> forall fuel s,
  inv file start s -> f_ri s <= 11 -> f_pos s <= limit ->
  match id_loop fuel file start limit s with
  | Some (IdFound s') | Some (IdLimit s') => f_pos s' <= limit
  | Some (IdEof p) => p <= limit
  | _ => True
  end.
Proof.
  intros Hok Hsm. induction fuel as [|f IH]; intros s Hinv Hri Hlim.
  { cbn [id_loop]. destruct (rd (f_buf s) 0); [|exact I]. destruct (scan_id _ _ _); [cbn [f_pos]; exact Hlim|].
    destruct (_ =? _); [exact Hlim|exact I]. }
  cbn [id_loop]. destruct (rd_0 _ _ _ Hinv) as (b0 & Hr & Hb). rewrite Hr.
  destruct (scan_id _ _ _); [cbn [f_pos]; exact Hlim|].
  destruct (limit =? start + f_rs s) eqn:El; [exact Hlim|].
  assert (Hlt : f_pos s < limit) by (rewrite (inv_rs _ _ _ Hinv Hsm) in El; lia).
  assert (Hstep : forall s1, inv file start s1 -> f_ri s1 <= 10 -> f_pos s1 = f_pos s ->
    match match rd_byte file (f_pos s) with
          | Some b => match mem_put (f_buf s1) (f_ri s1) [b] with
                      | Some buf => id_loop f file start limit (mkF buf (f_ri s1 + 1) (u32 (f_rs s1 + 1)) (f_pidl s1) (f_pos s + 1))
                      | None => Some IdBad end
          | None => Some (IdEof (f_pos s)) end with
    | Some (IdFound s') | Some (IdLimit s') => f_pos s' <= limit
    | Some (IdEof p) => p <= limit
    | _ => True
    end).
  { intros s1 Hinv1 Hri1 Hp. destruct (rd_byte file (f_pos s)) as [b|] eqn:Eb; [|exact Hlim].
    rewrite <- Hp in Eb. destruct (push_ok file start s1 b Hok Hinv1 ltac:(lia) Eb) as (buf & Hm & Hinv2). rewrite Hm.
    rewrite <- Hp. apply IH; [exact Hinv2| |]; cbn [f_pos f_ri]; lia. }
  destruct (4 <=? f_ri s) eqn:E4.
  - destruct (shift_ok file start s Hinv ltac:(lia)) as (buf & Hs & Hinv1). rewrite Hs.
    apply (Hstep _ Hinv1); cbn [f_ri f_pos]; lia.
  - apply (Hstep s Hinv); lia.
Qed.

(** ** The size loop *)
Definition size_ready (file : list Z) (s : fst_) (r : szres) : Prop :=
  vint_spec (slice file (f_pos s - f_ri s + f_pidl s) (sz_len r)) (sz_val r) /\
  zlen (slice file (f_pos s - f_ri s + f_pidl s) (sz_len r)) = sz_len r /\
  1 <= sz_len r /\ f_pidl s + sz_len r <= f_ri s /\ sz_unk r = vint_reserved (sz_len r).

Lemma size_loop_ok file start limit : bytes_ok file -> forall fuel s psl,
  inv file start s -> psl = f_ri s - f_pidl s -> 0 <= psl -> Z.max 0 (8 - psl) < Z.of_nat fuel ->
  exists r, size_loop fuel file start limit s psl = Some r /\
  match r with
  | SzBad => False
  | SzEof p => f_pos s <= p /\ zlen file <= p /\ p <= f_pos s - f_ri s + 11
  | SzFound r s' => inv file start s' /\ size_ready file s' r /\ f_pidl s' = f_pidl s /\
      f_pos s' - f_ri s' = f_pos s - f_ri s /\ f_pos s <= f_pos s' /\ firstn (Z.to_nat (f_ri s)) (f_buf s') = firstn (Z.to_nat (f_ri s)) (f_buf s)
  | SzNone s' => inv file start s' /\ f_pidl s' = f_pidl s /\ f_pos s' - f_ri s' = f_pos s - f_ri s /\ f_pos s <= f_pos s' /\
      (1 <= f_ri s' - f_pidl s' \/ limit = start + f_rs s')
  end.
Proof.
  intros Hok. induction fuel as [|f IH]; intros s psl Hinv Hpsl H0 Hfuel; [lia|].
  pose proof Hinv as (H1 & H2 & H3 & H4 & H5 & H6 & H7 & H8).
  cbn [size_loop].
  assert (Hu : u64 psl = psl) by (unfold u64; apply Z.mod_small; lia). rewrite Hu.
  assert (Hbok : bytes_ok (skipn (Z.to_nat (f_pidl s)) (f_buf s))) by (apply bytes_ok_skipn; auto).
  assert (Hblen : zlen (skipn (Z.to_nat (f_pidl s)) (f_buf s)) = 16 - f_pidl s) by (unfold zlen in *; rewrite skipn_length; lia).
  destruct (read_coded_size (skipn (Z.to_nat (f_pidl s)) (f_buf s)) psl) as [r|] eqn:Er.
  2:{ exfalso. revert Er. apply read_in_bounds; [exact Hbok|lia]. }
  destruct (sz_len r =? 0) eqn:Elen; cbn [negb].
  - destruct (8 <=? psl) eqn:E8.
    { eexists. split; [reflexivity|]. cbn beta iota. split; [exact Hinv|]. lia. }
    destruct (rd (f_buf s) (Z.to_nat (f_pidl s))) as [bz|] eqn:Ebz.
    2:{ apply nth_error_None in Ebz. unfold zlen in H1. lia. }
    destruct ((0 <? psl) && (bz =? 0)) eqn:Ez.
    { eexists. split; [reflexivity|]. cbn beta iota. split; [exact Hinv|]. lia. }
    destruct (limit =? start + f_rs s) eqn:El.
    { eexists. split; [reflexivity|]. cbn beta iota. split; [exact Hinv|]. lia. }
    destruct (rd_byte file (f_pos s)) as [b|] eqn:Eb.
    2:{ eexists. split; [reflexivity|]. cbn beta iota. unfold rd_byte in Eb. apply nth_error_None in Eb. unfold zlen. lia. }
    destruct (push_ok file start s b Hok Hinv ltac:(lia) Eb) as (buf & Hp & Hinv2). rewrite Hp.
    destruct (IH _ (psl + 1) Hinv2 ltac:(cbn [f_ri f_pidl]; lia) ltac:(lia) ltac:(lia)) as (q & Eq & Hq).
    exists q. split; [exact Eq|]. cbn [f_buf f_ri f_rs f_pidl f_pos] in Hq.
    destruct q as [r' s'|s'|p|]; cbn beta iota in *; [| | |exact Hq].
    + destruct Hq as (Q1 & Q2 & Q3 & Q4 & Q5 & Q6). split; [exact Q1|]. split; [exact Q2|]. split; [exact Q3|].
      split; [lia|]. split; [lia|].
      apply (f_equal (firstn (Z.to_nat (f_ri s)))) in Q6. rewrite !firstn_firstn in Q6.
      replace (Nat.min (Z.to_nat (f_ri s)) (Z.to_nat (f_ri s + 1))) with (Z.to_nat (f_ri s)) in Q6 by lia. rewrite Q6.
      destruct (mem_put_1 (f_buf s) (f_ri s) b ltac:(lia)) as (l & x & t & Eb1 & Hl & Hm). rewrite Hp in Hm.
      apply some_inj in Hm. rewrite Hm, Eb1. rewrite !firstn_app_len by (unfold zlen in Hl; lia). reflexivity.
    + destruct Hq as (Q1 & Q2 & Q3 & Q4 & Q5). split; [exact Q1|]. split; [exact Q2|]. lia.
    + lia.
  - eexists. split; [reflexivity|]. cbn beta iota. split; [exact Hinv|]. split; [|split; [reflexivity|split; [reflexivity|split; [lia|reflexivity]]]].
    destruct (read_sound _ _ _ Hbok Er ltac:(lia)) as (bs & rest & Eb & Hv & Hl & Hle & Hunk).
    assert (Hbs1 : 1 <= zlen bs) by (destruct Hv as (_ & ? & _); lia).
    assert (Hslice : slice file (f_pos s - f_ri s + f_pidl s) (sz_len r) = bs).
    { rewrite (slice_sub file (f_pos s - f_ri s) (f_buf s) (f_ri s) (f_pidl s) (sz_len r)) by (try lia; exact H7).
      rewrite Eb. apply firstn_app_len. unfold zlen in Hl. lia. }
    red. rewrite Hslice, Hl. split; [exact Hv|]. split; [reflexivity|]. split; [lia|]. split; [lia|]. rewrite <- Hl in *. congruence.
Qed.

Lemma size_loop_bound file start limit : bytes_ok file -> small_file file start -> forall fuel s psl,
  inv file start s -> f_pidl s + psl = f_ri s -> f_pos s <= limit ->
  match size_loop fuel file start limit s psl with
  | Some (SzFound _ s') | Some (SzNone s') => f_pos s' <= limit
  | Some (SzEof p) => p <= limit
  | _ => True
  end.
Proof.
  intros Hok Hsm. induction fuel as [|f IH]; intros s psl Hinv Hpsl Hlim.
  { cbn [size_loop]. destruct (read_coded_size _ _); [|exact I]. destruct (negb _); [exact Hlim|]. destruct (8 <=? psl); [exact Hlim|].
    destruct (rd _ _); [|exact I]. destruct (_ && _); [exact Hlim|]. destruct (_ =? _); [exact Hlim|exact I]. }
  cbn [size_loop]. destruct (read_coded_size _ _); [|exact I]. destruct (negb _); [exact Hlim|]. destruct (8 <=? psl) eqn:E8; [exact Hlim|].
  destruct (rd (f_buf s) (Z.to_nat (f_pidl s))); [|exact I]. destruct (_ && _); [exact Hlim|].
  destruct (limit =? start + f_rs s) eqn:El; [exact Hlim|].
  assert (Hlt : f_pos s < limit) by (rewrite (inv_rs _ _ _ Hinv Hsm) in El; lia).
  destruct (rd_byte file (f_pos s)) as [b|] eqn:Eb; [|exact Hlim].
  assert (0 <= f_pidl s <= 4) by apply Hinv.
  destruct (push_ok file start s b Hok Hinv ltac:(lia) Eb) as (buf & Hp & Hinv2). rewrite Hp.
  apply IH; [exact Hinv2| |]; cbn [f_pidl f_ri f_pos]; lia.
Qed.
