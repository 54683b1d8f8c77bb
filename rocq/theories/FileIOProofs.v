From Verif Require Import Base BaseProofs Tree Stream StreamSpec StreamProofs Ebml FileIO FileIOSpec.

Lemma nth_first (l : list Z) : forall n i, nth i (firstn n l) 0 = if (i <? n)%nat then nth i l 0 else 0.
Proof.
  induction l as [|x l IH]; intros [|n] [|i]; cbn [firstn nth]; try reflexivity.
  - destruct (_ <? _)%nat; reflexivity.
  - rewrite IH. destruct (Nat.ltb_spec i n), (Nat.ltb_spec (S i) (S n)); try lia; reflexivity.
Qed.
Lemma nth_skip (l : list Z) : forall n i, nth i (skipn n l) 0 = nth (n + i) l 0.
Proof. induction l as [|x l IH]; intros [|n] i; cbn [skipn Nat.add nth]; try reflexivity; [destruct i; reflexivity|apply IH]. Qed.
Lemma nth_rep i n : nth i (repeat 0 n) 0 = 0.
Proof. revert i. induction n as [|n IH]; intros [|i]; cbn; auto. Qed.

Lemma put_nth p bs d i : nth i (put_at p bs d) 0 = if (p <=? i)%nat && (i <? p + length bs)%nat then nth (i - p) bs 0 else nth i d 0.
Proof.
  unfold put_at. assert (L : (length (firstn p d) + (p - length d) = p)%nat) by (rewrite firstn_length; lia).
  destruct (Nat.leb_spec p i) as [H|H]; cbn [andb].
  - rewrite app_nth2 by lia. rewrite app_nth2 by (rewrite repeat_length; lia). rewrite repeat_length.
    replace (i - length (firstn p d) - (p - length d))%nat with (i - p)%nat by lia.
    destruct (Nat.ltb_spec i (p + length bs)).
    + rewrite app_nth1 by lia. reflexivity.
    + rewrite app_nth2 by lia. rewrite nth_skip. f_equal. lia.
  - destruct (Nat.ltb_spec i (length (firstn p d))) as [K|K].
    + rewrite app_nth1 by exact K. rewrite nth_first. rewrite (proj2 (Nat.ltb_lt _ _)) by lia. reflexivity.
    + rewrite app_nth2 by lia. rewrite app_nth1 by (rewrite repeat_length; lia). rewrite nth_rep. rewrite firstn_length in K. rewrite nth_overflow by lia. reflexivity.
Qed.
Lemma put_len p bs d : zlen (put_at p bs d) = Z.max (zlen d) (Z.of_nat p + zlen bs).
Proof. unfold put_at, zlen. rewrite !app_length, firstn_length, repeat_length, skipn_length. lia. Qed.

Lemma skip_done {U} (rd : U -> Z -> Z * Z * U) fuel u n e : n <= 0 \/ e <> ERR_NONE -> skip_loop rd fuel u n e = Ok (e, n, u).
Proof.
  intros H. assert (K : (0 <? n) && (e =? ERR_NONE) = false) by (destruct H as [H|H]; [rewrite (proj2 (Z.ltb_ge _ _)) by lia; reflexivity|rewrite (proj2 (Z.eqb_neq _ _) H); apply Bool.andb_false_r]).
  destruct fuel; cbn [skip_loop]; rewrite K; reflexivity.
Qed.

Section Skip.
Context {U W : Type} (inv : U -> Prop) (view : U -> W) (adv : Z -> W -> W) (rd : U -> Z -> Z * Z * U).

Lemma skip_ok : skippable inv view adv rd -> forall fuel n u, inv u -> 0 <= n <= Z.of_nat fuel ->
  exists e m u', skip_loop rd fuel u n ERR_NONE = Ok (e, m, u') /\ inv u' /\ 0 <= m <= n /\ (e = ERR_NONE <-> m = 0) /\ view u' = adv (n - m) (view u).
Proof.
  intros (A0 & AA & S). induction fuel as [|fuel IH]; intros n u I H.
  - exists ERR_NONE, n, u. rewrite skip_done by lia. split; [reflexivity|]. split; [exact I|]. split; [lia|]. split; [split; [lia|reflexivity]|]. rewrite Z.sub_diag, A0. reflexivity.
  - destruct (Z.eq_dec n 0) as [->|N].
    + exists ERR_NONE, 0, u. rewrite skip_done by lia. split; [reflexivity|]. split; [exact I|]. split; [lia|]. split; [split; reflexivity|]. rewrite A0. reflexivity.
    + cbn [skip_loop]. rewrite (proj2 (Z.ltb_lt 0 n)) by lia. cbn [andb]. change (ERR_NONE =? ERR_NONE) with true. cbn [andb].
      specialize (S u (Z.min n 1024) I ltac:(lia)). destruct (rd u (Z.min n 1024)) as [[e k] u1]. destruct S as (I1 & K & E & V).
      destruct (Z.eq_dec e ERR_NONE) as [->|NE].
      * pose proof (proj1 E eq_refl) as E1. destruct (IH (n - k) u1 I1 ltac:(lia)) as (e & m & u' & R & I' & M & E' & V'). exists e, m, u'.
        split; [exact R|]. split; [exact I'|]. split; [lia|]. split; [exact E'|]. rewrite V', V, AA by lia. f_equal. lia.
      * rewrite skip_done by auto. exists e, (n - k), u1. split; [reflexivity|]. split; [exact I1|]. split; [lia|]. split; [|rewrite V; f_equal; lia].
        split; [intros X; contradiction|]. intros X. exfalso. apply NE, E. lia.
Qed.
End Skip.

Definition fview (u : pfile * list answer) : list Z * Z := (f_data (fst u), f_pos (fst u)).
Definition fadv (m : Z) (w : list Z * Z) : list Z * Z := (fst w, snd w + m).
Definition finv (u : pfile * list answer) : Prop := 0 <= f_pos (fst u) /\ Forall answer_ok (snd u).

Lemma file_skippable : skippable finv fview fadv file_rd.
Proof.
  split; [intros (d & p); unfold fadv; cbn; f_equal; lia|]. split; [intros a b (d & p) _ _; unfold fadv; cbn; f_equal; lia|].
  intros (f & l) k (P & L) K. cbn [fst snd] in *. unfold file_rd, f_read, SSIZE_MAX. rewrite (proj2 (Z.ltb_ge _ _)) by lia.
  assert (HA : answer_ok (hd (Some k) l)) by (destruct L; cbn; [lia|assumption]). assert (HT : Forall answer_ok (tl l)) by (destruct L; cbn; auto).
  unfold os_read. destruct (hd (Some k) l) as [a|].
  - cbn [answer_ok] in HA. set (bs := firstn _ _). assert (B : zlen bs <= k) by (unfold bs, zlen; rewrite firstn_length; lia). pose proof (zlen_nonneg bs).
    split; [split; [cbn; lia|exact HT]|]. split; [lia|]. split; [|reflexivity]. destruct (Z.eqb_spec (zlen bs) k); split; auto; try discriminate; congruence.
  - split; [split; [exact P|exact HT]|]. split; [lia|]. split; [split; [discriminate|lia]|]. unfold fview, fadv. cbn. f_equal. lia.
Qed.

(** Through the buffer. *)
Definition buf_rd (b : bufs (list Z)) (size : Z) : Z * Z * bufs (list Z) :=
  match buf_read plain_read b size with Some (e, bs, b) => (e, zlen bs, b) | None => (E_READ, 0, b) end.
Definition bview (b : bufs (list Z)) : list Z := ahead b ++ bu b.
Definition badv (m : Z) (w : list Z) : list Z := skipn (Z.to_nat m) w.
Lemma skip_skip (l : list Z) : forall a b, skipn b (skipn a l) = skipn (a + b) l.
Proof. induction l as [|x l IH]; intros [|a] b; cbn [skipn Nat.add]; try reflexivity; [destruct b; reflexivity|apply IH]. Qed.

Record inv (init : list Z) (h : fhistory) (f : pfile) : Prop := {
  inv_pos : f_pos f = where_of h /\ 0 <= f_pos f;
  inv_byte : forall i, 0 <= i -> nth (Z.to_nat i) (f_data f) 0 = byte_of init h i;
  inv_len : zlen (f_data f) = length_of init h
}.

Definition all_ok (h : fhistory) : Prop := Forall (fun cr => call_ok (fst cr)) h.

Lemma step_inv init h f c : inv init h f -> call_ok c -> exists f' r, fstep f c = Ok (f', r) /\ inv init ((c, r) :: h) f'.
Proof.
  intros [(P & P0) B L] C. destruct c as [size a|bs a|p w|n ok|n l]; cbn [call_ok] in C; cbn [fstep].
  - unfold f_read. destruct (SSIZE_MAX <? size).
    + eexists _, _. split; [reflexivity|]. split; cbn; auto. split; lia.
    + unfold os_read. destruct a as [k|].
      * set (x := firstn _ _). eexists _, _. split; [reflexivity|]. pose proof (zlen_nonneg x). split; cbn; auto. split; lia.
      * eexists _, _. split; [reflexivity|]. split; cbn; auto. split; lia.
  - unfold f_write. destruct (SSIZE_MAX <? zlen bs).
    + eexists _, _. split; [reflexivity|]. split; cbn; auto; [split; lia|]. intros i I. rewrite B by exact I. rewrite Z.add_0_r. destruct (Z.leb_spec (where_of h) i), (Z.ltb_spec i (where_of h)); try lia; reflexivity.
    + unfold os_write. destruct a as [k|].
      * destruct (firstn (Z.to_nat k) bs) as [|y ys] eqn:X.
        -- eexists _, _. split; [reflexivity|]. change (zlen (@nil Z)) with 0. split; cbn; auto; [split; lia|]. intros i I. rewrite B by exact I. rewrite Z.add_0_r. destruct (Z.leb_spec (where_of h) i), (Z.ltb_spec i (where_of h)); try lia; reflexivity.
        -- eexists _, _. split; [reflexivity|]. pose proof (zlen_nonneg ys) as Y. assert (Y1 : zlen (y :: ys) = zlen ys + 1) by (rewrite zlen_cons; lia). split; cbn [f_pos f_data where_of byte_of length_of count].
           ++ split; lia.
           ++ intros i I. rewrite put_nth. rewrite P. destruct (Z.leb_spec (where_of h) i) as [Q|Q]; cbn [andb].
              ** rewrite (proj2 (Nat.leb_le _ _)) by lia. cbn [andb]. destruct (Z.ltb_spec i (where_of h + zlen (y :: ys))) as [R|R].
                 --- rewrite (proj2 (Nat.ltb_lt _ _)) by (unfold zlen in R; lia). rewrite <- X, nth_first. replace (Z.to_nat i - Z.to_nat (where_of h))%nat with (Z.to_nat (i - where_of h)) by lia.
                     rewrite (proj2 (Nat.ltb_lt _ _)); [reflexivity|]. assert (length (y :: ys) <= Z.to_nat k)%nat by (rewrite <- X, firstn_length; lia). unfold zlen in R. lia.
                 --- rewrite (proj2 (Nat.ltb_ge _ _)) by (unfold zlen in R; lia). apply B, I.
              ** rewrite (proj2 (Nat.leb_gt _ _)) by lia. apply B, I.
           ++ rewrite put_len. rewrite (proj2 (Z.eqb_neq _ _)) by lia. rewrite L. lia.
      * eexists _, _. split; [reflexivity|]. split; cbn; auto; [split; lia|]. intros i I. rewrite B by exact I. rewrite Z.add_0_r. destruct (Z.leb_spec (where_of h) i), (Z.ltb_spec i (where_of h)); try lia; reflexivity.
  - unfold f_seek, os_seek. set (q := p + _). destruct (Z.ltb_spec q 0) as [Q|Q]; cbn [orb].
    + eexists _, _. split; [reflexivity|]. split; cbn; auto.
    + destruct (Z.leb_spec (2 ^ 63) q) as [Q2|Q2].
      * eexists _, _. split; [reflexivity|]. split; cbn; auto.
      * rewrite (proj2 (Z.ltb_ge q 0)) by lia. eexists _, _. split; [reflexivity|]. split; cbn [f_pos f_data where_of byte_of length_of]; auto. rewrite (proj2 (Z.eqb_neq q (-1))) by lia. split; [reflexivity|lia].
  - unfold f_set_length, os_truncate. destruct (negb ok || (n <? 0)) eqn:K.
    + eexists _, _. split; [reflexivity|]. split; cbn; auto.
    + apply Bool.orb_false_iff in K as (_ & K). apply Z.ltb_ge in K. eexists _, _. split; [reflexivity|]. split; cbn [f_pos f_data where_of byte_of length_of].
      * auto.
      * change (match ERR_NONE with 0 => if n <=? ?i then 0 else ?x | _ => _ end) with (if n <=? i then 0 else x). intros i I. cbn. assert (LL : (length (firstn (Z.to_nat n) (f_data f)) <= Z.to_nat n)%nat) by (rewrite firstn_length; lia).
        destruct (Nat.ltb_spec (Z.to_nat i) (length (firstn (Z.to_nat n) (f_data f)))) as [R|R].
        -- rewrite app_nth1 by exact R. rewrite nth_first. rewrite (proj2 (Nat.ltb_lt _ _)) by lia. rewrite (proj2 (Z.leb_gt _ _)) by lia. apply B, I.
        -- rewrite app_nth2 by exact R. rewrite nth_rep. destruct (Z.leb_spec n i); [reflexivity|]. rewrite <- B by exact I. rewrite firstn_length in R. rewrite nth_overflow by lia. reflexivity.
      * cbn. unfold zlen. rewrite app_length, firstn_length, repeat_length. lia.
  - unfold skip. destruct (Z.leb_spec n 0) as [N|N].
    + rewrite skip_done by (left; exact N). cbn [bind]. eexists _, _. split; [reflexivity|]. split; cbn [f_pos f_data where_of byte_of length_of]; auto. split; lia.
    + destruct (skip_ok finv fview fadv file_rd file_skippable (Z.to_nat n) n (f, l) (conj P0 C) ltac:(lia)) as (e & m & (f' & l') & -> & (I' & _) & M & _ & V). cbn [bind].
      unfold fview, fadv in V. cbn [fst snd] in V, I'. injection V as V1 V2. eexists _, _. split; [reflexivity|]. split; cbn [f_pos f_data where_of byte_of length_of].
      * split; lia.
      * intros i I. rewrite V1. apply B, I.
      * rewrite V1. exact L.
Qed.

Lemma start_inv init : inv init [] (mkPf init 0).
Proof. split; cbn; auto. split; lia. Qed.

Lemma happens_inv init h f : fhappens init h f -> all_ok h -> inv init h f.
Proof.
  induction 1 as [|h f c f' r H IH S]; intros A; [apply start_inv|]. apply Forall_cons_iff in A as (A1 & A2). cbn [fst] in A1.
  destruct (step_inv init h f c (IH A2) A1) as (f2 & r2 & S2 & I). rewrite S in S2. injection S2 as -> ->. exact I.
Qed.

Lemma bytes_nth init h p n i : (i < n)%nat -> nth i (bytes_of init h p n) 0 = byte_of init h (p + Z.of_nat i).
Proof.
  intros L. unfold bytes_of. set (g := fun j => byte_of init h (p + Z.of_nat j)). rewrite (nth_indep _ 0 (g 0%nat)) by (rewrite map_length, seq_length; exact L).
  rewrite map_nth, seq_nth by exact L. reflexivity.
Qed.
Lemma bytes_len init h p n : length (bytes_of init h p n) = n.
Proof. unfold bytes_of. rewrite map_length, seq_length. reflexivity. Qed.
Lemma bytes_ok init h f n : inv init h f -> Z.of_nat n <= Z.max 0 (zlen (f_data f) - f_pos f) -> firstn n (skipn (Z.to_nat (f_pos f)) (f_data f)) = bytes_of init h (where_of h) n.
Proof.
  intros [(P & P0) B _] N. apply (nth_ext _ _ 0 0).
  - rewrite firstn_length, skipn_length, bytes_len. unfold zlen in N. lia.
  - intros i I. assert (LI : (i < n)%nat) by (rewrite firstn_length in I; lia). rewrite nth_first, (proj2 (Nat.ltb_lt _ _) LI), nth_skip.
    rewrite bytes_nth by exact LI. rewrite <- B by lia. f_equal. lia.
Qed.
