(** EBML_FindNextElement: the whole function. *)
From Verif Require Import Base BaseProofs Vint VintSpec VintProofs EbmlId EbmlIdSpec EbmlIdProofs Ebml Arr ArrProofs Finder FinderSpec FinderProofs FinderProofs2 FinderProofs3.

Lemma chain_end_ctx chain k : chain_end (skipn k chain) = ctx_end chain k.
Proof.
  revert k. induction chain as [|[c e] up IH]; intros k; [rewrite skipn_nil; destruct k; reflexivity|].
  destruct k; [reflexivity|]. cbn [skipn]. apply IH.
Qed.

Lemma adjust_spec orig start : forall upper, orig <> [] ->
  exists k, adjust orig start upper = (skipn k orig, upper + Z.of_nat k) /\ open_ctx orig start k.
Proof.
  induction orig as [|[c e] up IH]; intros upper Hne; [congruence|]. cbn [adjust].
  destruct up as [|x up].
  { exists O. split; [cbn [skipn]; f_equal; lia|]. split; [cbn; lia|]. split; [lia|]. left. reflexivity. }
  destruct (negb (e =? INVALID_FILEPOS) && (e <=? start)) eqn:Ec.
  - destruct (IH (upper + 1) ltac:(congruence)) as (k & Ea & Hk & Hb & Hc). exists (S k).
    split; [rewrite Ea; f_equal; lia|]. split; [cbn [length] in *; lia|]. split.
    + intros i Hi. destruct i; [unfold ctx_end; cbn [nth_error]; unfold INVALID_FILEPOS in *; lia|]. apply Hb. lia.
    + destruct Hc as [Hc|Hc]; [left; cbn [length] in *; lia|right; exact Hc].
  - exists O. split; [cbn [skipn]; f_equal; lia|]. split; [cbn; lia|]. split; [lia|]. right.
    unfold ctx_end; cbn [nth_error]. unfold INVALID_FILEPOS in *. lia.
Qed.

Lemma open_ctx_unique orig start k k' : open_ctx orig start k -> open_ctx orig start k' -> k = k'.
Proof.
  intros (H1 & H2 & H3) (G1 & G2 & G3).
  destruct (Nat.lt_trichotomy k k') as [Hl|[|Hl]]; [exfalso|assumption|exfalso].
  - destruct (G2 k Hl). lia.
  - destruct (H2 k' Hl). lia.
Qed.

Lemma adjust_open orig start upper k : open_ctx orig start k -> adjust orig start upper = (skipn k orig, upper + Z.of_nat k).
Proof.
  intros H. assert (Hne : orig <> []) by (destruct H as (H & _); destruct orig; [cbn in H; lia|congruence]).
  destruct (adjust_spec orig start upper Hne) as (k' & E & H'). rewrite (open_ctx_unique _ _ _ _ H H'). exact E.
Qed.

Lemma init_ent file start junk : zlen junk = 16 -> bytes_ok junk -> 0 <= start -> ent file start (mkF junk 0 0 0 start).
Proof.
  intros H1 H2 H3. split; [|cbn [f_ri f_pidl]; lia]. red. cbn [f_buf f_ri f_rs f_pidl f_pos].
  split; [exact H1|]. split; [exact H2|]. split; [lia|]. split; [lia|]. split; [lia|]. split; [left; reflexivity|].
  split; [reflexivity|]. unfold u32. replace (start - start) with 0 by lia. reflexivity.
Qed.

Section loop.
Context (E : schema) (file : list Z) (start : Z) (orig : list pctx) (upper0 : Z) (allow : bool) (k : nat).
Context (Hok : bytes_ok file) (Hopen : open_ctx orig start k).
Let T s := turn E file start orig upper0 allow s (skipn k orig) (upper0 + Z.of_nat k).

Lemma live_orig s s' : ent file start s -> T s = Again s' -> k = O.
Proof.
  intros He Ht. pose proof (turn_ok E file start orig upper0 allow s (skipn k orig) (upper0 + Z.of_nat k) Hok He) as H.
  unfold T in Ht. rewrite Ht in H. destruct H as (He' & Hb & _ & _ & _ & Hor).
  destruct k as [|k0]; [reflexivity|exfalso]. destruct Hopen as (_ & Ho & _). destruct (Ho O ltac:(lia)) as [Ho1 Ho2].
  pose proof (chain_end_ctx orig O) as Hc. cbn [skipn] in Hc. rewrite <- Hc in Ho1, Ho2.
  destruct He as (Hi & _). destruct Hi as (_ & _ & Hi & _). destruct He' as (Hi' & _). assert (0 <= f_pidl s') by apply Hi'.
  unfold INVALID_FILEPOS, base in *. lia.
Qed.

Context (P : fst_ -> Prop) (Q : fres -> Prop).
Context (Hstep : forall s, ent file start s -> P s -> match T s with Done r => Q r | Again s' => P s' | Stuck => True end).

Lemma loop_ind n : forall s, ent file start s -> P s -> Z.max 0 (zlen file - base s) < Z.of_nat n ->
  exists r, fne_loop (2 * n) E file start orig upper0 allow s (skipn k orig) (upper0 + Z.of_nat k) = Some r /\ Q r /\ r <> FBad.
Proof.
  induction n as [|n IH]; intros s He HP Hm; [lia|].
  replace (2 * S n)%nat with (S (S (2 * n))) by lia. rewrite fne_loop_turn.
  pose proof (turn_ok E file start orig upper0 allow s (skipn k orig) (upper0 + Z.of_nat k) Hok He) as Hto.
  specialize (Hstep s He HP). pose proof (live_orig s) as Hlive. unfold T in *.
  destruct (turn E file start orig upper0 allow s (skipn k orig) (upper0 + Z.of_nat k)) as [r|s'|]; [| |contradiction].
  - exists r. split; [reflexivity|]. split; [exact Hstep|]. destruct r; [congruence|congruence|contradiction].
  - rewrite (Hlive s' He eq_refl) in *. cbn [skipn] in *. change (Z.of_nat 0) with 0 in *. rewrite Z.add_0_r in *.
    destruct Hto as (He' & Hb & _ & _ & Hz & _). apply IH; auto. assert (0 <= f_ri s') by apply He'. unfold base in *. lia.
Qed.

Lemma find_ind junk : zlen junk = 16 -> bytes_ok junk -> 0 <= start -> P (mkF junk 0 0 0 start) ->
  exists r, find_next E junk file start orig upper0 allow = Some r /\ Q r /\ r <> FBad.
Proof.
  intros H1 H2 H3 HP. unfold find_next. rewrite (adjust_open orig start upper0 k Hopen).
  replace (2 * length file + 4)%nat with (2 * (length file + 2))%nat by lia.
  apply loop_ind; [apply init_ent; auto|exact HP|]. unfold base, zlen; cbn [f_pos f_ri]. lia.
Qed.
End loop.

(** ** Termination and memory safety *)
Lemma find_next_total E junk file start orig upper0 allow : bytes_ok file -> zlen junk = 16 -> bytes_ok junk -> 0 <= start -> orig <> [] ->
  exists r, find_next E junk file start orig upper0 allow = Some r /\ r <> FBad.
Proof.
  intros Hok H1 H2 H3 Hne. destruct (adjust_spec orig start upper0 Hne) as (k & _ & Hk).
  destruct (find_ind E file start orig upper0 allow k Hok Hk (fun _ => True) (fun _ => True)) with (junk := junk) as (r & Er & _ & Hr); auto.
  { intros s _ _. destruct (turn E file start orig upper0 allow s (skipn k orig) (upper0 + Z.of_nat k)); exact I. }
  eauto.
Qed.

(** ** Fields of the element *)
Lemma find_sem_some E id l s : find_sem E id l = Some s -> In s l /\ c_id (E (s_ctx s)) = id.
Proof. intros H. apply find_some in H as [H1 H2]. split; [exact H1|lia]. Qed.
Lemma find_sem_none E id l : find_sem E id l = None -> unnamed E id l.
Proof. intros H s Hs Hid. pose proof (find_none _ _ H s Hs) as Hn. cbn in Hn. lia. Qed.

Lemma create_using_ok E chain id idlen allow : forall low k l, create_using E chain id idlen allow low = Some (k, l) ->
  lookup E id allow chain low k l /\ kind_id E k = id.
Proof.
  induction chain as [|[c e] up IH]; intros low k l H; [discriminate|]. cbn [create_using] in H.
  destruct (c_sem (E c)) as [ss|] eqn:Es; [|discriminate].
  destruct (find_sem E id ss) as [s|] eqn:E1.
  { destruct (find_sem_some _ _ _ _ E1) as [Hi Hd]. apply some_inj in H. injection H as <- <-. split; [eapply lk_child; eauto|exact Hd]. }
  apply find_sem_none in E1.
  destruct (find_sem E id (c_glob (E c))) as [s|] eqn:E2.
  { destruct (find_sem_some _ _ _ _ E2) as [Hi Hd]. apply some_inj in H. injection H as <- <-. split; [eapply lk_glob; eauto|exact Hd]. }
  apply find_sem_none in E2.
  destruct up as [|x up].
  - destruct (allow && negb (idlen =? 0)) eqn:Ea; [|discriminate]. apply some_inj in H. injection H as <- <-.
    assert (allow = true) by (destruct allow; [reflexivity|discriminate]).
    unfold create_element. destruct (c_id (E c) =? id) eqn:Ei.
    + split; [eapply lk_self; eauto; lia|]. cbn [kind_id]. lia.
    + split; [eapply lk_dummy; eauto; lia|reflexivity].
  - destruct (IH _ _ _ H) as [Hl Hk]. split; [|exact Hk]. eapply lk_up; eauto.
Qed.

Definition is_known (k : kind) : bool := match k with Known _ => true | Dummy _ => false end.

Lemma accept_fields E chain allow upper id r s h u q : accept E chain allow upper id r s = Some (FElt h u q) ->
  exists k low, lookup E id allow chain 0 k low /\ kind_id E (h_kind h) = id /\
    (h_kind h = k \/ (allow = true /\ h_kind h = Dummy id /\ validate_size (kind_class E k) (negb (sz_val r =? sz_unk r)) (sz_val r) = false)) /\
    (allow = false -> is_known (h_kind h) = true) /\
    validate_size (kind_class E (h_kind h)) (h_fin h) (sz_val r) = true /\
    h_fin h = negb (sz_val r =? sz_unk r) /\ h_szlen h = sz_len r /\ h_epos h = base s /\ h_spos h = base s + f_pidl s /\
    h_dsize h = (if h_fin h then sz_val r else -1) /\ q = base s + f_pidl s + sz_len r /\
    h_end h = (if h_fin h then q + sz_val r else chain_end chain) /\ u = upper + Z.max 0 low.
Proof.
  unfold accept. destruct (create_using E chain id (f_pidl s) allow 0) as [[k low]|] eqn:Ec; [|discriminate].
  destruct (create_using_ok _ _ _ _ _ _ _ _ Ec) as [Hlk Hki]. cbv zeta.
  set (fin := negb (sz_val r =? sz_unk r)).
  destruct (allow || match k with Dummy _ => false | _ => true end) eqn:Ea; [|discriminate].
  set (k' := if allow && negb (validate_size (kind_class E k) fin (sz_val r)) && match k with Dummy _ => false | _ => true end then Dummy id else k).
  destruct (validate_size (kind_class E k') fin (sz_val r)) eqn:Ev; [|discriminate].
  intros H. apply some_inj in H. injection H as <- <- <-. cbn [h_kind h_szlen h_dsize h_fin h_epos h_spos h_end].
  exists k, low. split; [exact Hlk|].
  assert (Hk' : k' = k \/ (allow = true /\ k' = Dummy id /\ validate_size (kind_class E k) fin (sz_val r) = false)).
  { unfold k'. destruct (allow && negb (validate_size (kind_class E k) fin (sz_val r)) && _) eqn:Eb; [right|left; reflexivity].
    destruct allow; [|discriminate]. destruct (validate_size (kind_class E k) fin (sz_val r)); [discriminate|]. auto. }
  split. { destruct Hk' as [->|(_ & -> & _)]; [exact Hki|reflexivity]. }
  split; [exact Hk'|].
  split. { intros ->. destruct Hk' as [->|(? & _)]; [|discriminate]. destruct k; [reflexivity|discriminate]. }
  split; [exact Ev|]. unfold base, INVALID_FILEPOS in *.
  split; [reflexivity|]. split; [reflexivity|]. split; [lia|]. split; [lia|]. split; [reflexivity|]. split; [lia|].
  split; [destruct fin; lia|]. destruct (0 <? low) eqn:El; lia.
Qed.

Lemma contain_climb chain allow v : forall upper found chain' upper', contain chain allow v upper = (found, chain', upper') ->
  exists j, (j <= length chain)%nat /\ chain' = skipn j chain /\ upper' = upper + Z.of_nat j /\
    (found = true -> ctx_end chain j = -1 \/ v <= ctx_end chain j) /\ (allow = true -> j = O) /\
    (forall i, (i < j)%nat -> ctx_end chain i <> -1 /\ ctx_end chain i < v).
Proof.
  induction chain as [|[c e] up IH]; intros upper found chain' upper' H; cbn [contain] in H.
  { injection H as <- <- <-. exists O. split; [cbn; lia|]. split; [reflexivity|]. split; [lia|]. split; [left; reflexivity|]. split; [reflexivity|lia]. }
  destruct (negb (e =? INVALID_FILEPOS) && (e <? v)) eqn:Ec.
  - destruct (allow || match up with [] => true | _ => false end) eqn:Ea.
    + injection H as <- <- <-. exists O. split; [cbn; lia|]. split; [reflexivity|]. split; [lia|]. split; [discriminate|]. split; [reflexivity|lia].
    + destruct (IH _ _ _ _ H) as (k & Hk & -> & -> & Hf & Hal & Hne). exists (S k). split; [cbn; lia|]. split; [reflexivity|]. split; [lia|].
      split; [exact Hf|]. destruct allow; [discriminate|]. split; [discriminate|]. intros i Hi. destruct i; [|apply Hne; lia].
      unfold ctx_end; cbn [nth_error]. unfold INVALID_FILEPOS in *. lia.
  - injection H as <- <- <-. exists O. split; [cbn; lia|]. split; [reflexivity|]. split; [lia|]. split; [|split; [reflexivity|lia]].
    intros _. unfold ctx_end; cbn [nth_error]. unfold INVALID_FILEPOS in *. lia.
Qed.

Lemma ctx_end_skipn chain k j : ctx_end (skipn k chain) j = ctx_end chain (k + j).
Proof.
  unfold ctx_end. replace (nth_error (skipn k chain) j) with (nth_error chain (k + j)); [reflexivity|].
  revert chain. induction k as [|k IH]; intros [|x l]; try reflexivity; cbn [skipn Nat.add nth_error]; [destruct j; reflexivity|apply IH].
Qed.

(** The element returned is the one announced by the bytes at its position. *)
Definition sound_element (E : schema) (file : list Z) (start : Z) (orig : list pctx) (upper0 : Z) (allow : bool) (k : nat) (h : hdr) (u q : Z) : Prop :=
  exists id n v m j kd low,
    start <= h_epos h /\ q <= zlen file /\
    1 <= n <= 4 /\ zlen (slice file (h_epos h) n) = n /\ be_val (slice file (h_epos h) n) = id /\
    vint_spec (slice file (h_epos h + n) m) v /\ zlen (slice file (h_epos h + n) m) = m /\
    (valid_id_len id n \/ (id < 2 ^ (7 * n) /\ ctx_end orig k <> -1 /\ q <= ctx_end orig k <= h_epos h + 12)) /\
    h_spos h = h_epos h + n /\ q = h_epos h + n + m /\ h_szlen h = m /\
    h_fin h = negb (v =? vint_reserved m) /\ h_dsize h = (if h_fin h then v else -1) /\
    h_end h = (if h_fin h then q + v else ctx_end orig j) /\
    (k <= j)%nat /\ (allow = true \/ h_fin h = false -> j = k) /\
    (h_fin h = true -> ctx_end orig j = -1 \/ h_epos h + v <= ctx_end orig j) /\
    (forall i, (k <= i < j)%nat -> ctx_end orig i <> -1 /\ ctx_end orig i < h_epos h + v) /\
    lookup E id allow (skipn j orig) 0 kd low /\ u = upper0 + Z.of_nat j + Z.max 0 low /\ kind_id E (h_kind h) = id /\
    (h_kind h = kd \/ (allow = true /\ h_kind h = Dummy id /\ validate_size (kind_class E kd) (h_fin h) v = false)) /\
    (allow = false -> is_known (h_kind h) = true) /\
    validate_size (kind_class E (h_kind h)) (h_fin h) v = true.

Lemma elt_from_sound E file start orig upper0 allow k s h u q : small_file file start -> ent file start s ->
  ctx_end orig k = -1 \/ f_pos s <= ctx_end orig k ->
  elt_from E file start (skipn k orig) (upper0 + Z.of_nat k) allow s (FElt h u q) ->
  sound_element E file start orig upper0 allow k h u q /\ (ctx_end orig k = -1 \/ q <= ctx_end orig k).
Proof.
  intros Hsm (Hi & _) Hin (s2 & r & id & chain' & upper' & Hi2 & Hb & Hw & Hrh & Hcc & Hacc).
  rewrite chain_end_ctx in *. unfold within in Hw.
  pose proof Hrh as (Hn & Hid & Hz & (Hv & Hvz & Hm1 & Hmr & Hu) & Hstale).
  destruct (accept_fields _ _ _ _ _ _ _ _ _ _ Hacc) as (kd & low & Hlk & Hki & Hkk & Hal & Hvs & Hf & Hsl & Hep & Hsp & Hds & Hq & Hend & Hup).
  assert (Hst : start <= base s2) by (destruct Hi2 as (_ & _ & ? & _); unfold base; lia).
  assert (Hr12 : f_ri s2 <= 12) by apply Hi2.
  assert (Hq2 : q <= f_pos s2) by (unfold base in *; lia).
  assert (Hj : exists j, chain' = skipn j (skipn k orig) /\ upper' = upper0 + Z.of_nat k + Z.of_nat j /\
     (allow = true \/ h_fin h = false -> j = O) /\
     (h_fin h = true -> ctx_end (skipn k orig) j = -1 \/ h_epos h + sz_val r <= ctx_end (skipn k orig) j) /\
     (forall i, (i < j)%nat -> ctx_end (skipn k orig) i <> -1 /\ ctx_end (skipn k orig) i < h_epos h + sz_val r)).
  { destruct Hcc as [(He & -> & ->)|(Hne & Hc)].
    - exists O. split; [reflexivity|]. split; [lia|]. split; [reflexivity|]. split; [|lia]. intros H. rewrite Hf in H. lia.
    - destruct (contain_climb _ _ _ _ _ _ _ Hc) as (j & _ & -> & -> & H1 & H2 & H3). exists j. rewrite Hep.
      split; [reflexivity|]. split; [reflexivity|]. split; [|split; [intros; apply H1; reflexivity|exact H3]].
      intros [Ha|Ha]; [auto|]. rewrite Hf in Ha. lia. }
  destruct Hj as (j & Hj1 & Hj2 & Hj3 & Hj4 & Hj5). rewrite <- skipn_add in Hj1. rewrite ctx_end_skipn in Hj4.
  assert (Hqk : ctx_end orig k = -1 \/ q <= ctx_end orig k) by (destruct Hin as [|Hin]; [auto|right; specialize (Hw Hsm Hin); lia]).
  split; [|exact Hqk].
  exists id, (f_pidl s2), (sz_val r), (sz_len r), (k + j)%nat, kd, low.
  rewrite Hep. split; [exact Hst|].
  split. { destruct Hi2 as (_ & _ & _ & _ & _ & [Hp|Hp] & _); [unfold base in *; lia|lia]. }
  split; [exact Hn|]. split; [exact Hz|]. split; [symmetry; exact Hid|]. split; [exact Hv|]. split; [exact Hvz|].
  split. { destruct Hstale as [He|[Hlt Hl]]; [left; destruct He as (_ & He & _); rewrite Hz in He; exact He|right]. split; [exact Hlt|].
    rewrite (inv_rs _ _ _ Hi2 Hsm) in Hl. destruct Hi2 as (_ & _ & Hp & _). unfold base in *. lia. }
  split; [exact Hsp|]. split; [lia|]. split; [exact Hsl|]. split; [rewrite Hf, Hu; reflexivity|]. split; [exact Hds|].
  split. { rewrite Hend, Hj1, chain_end_ctx. reflexivity. }
  split; [lia|]. split; [intros H; specialize (Hj3 H); lia|]. split; [rewrite Hep in Hj4; exact Hj4|].
  split. { intros i Hij. specialize (Hj5 (i - k)%nat ltac:(lia)). rewrite ctx_end_skipn in Hj5. replace (k + (i - k))%nat with i in Hj5 by lia. rewrite Hep in Hj5. exact Hj5. }
  split; [rewrite <- Hj1; exact Hlk|]. split; [lia|]. split; [exact Hki|]. split; [rewrite Hf; exact Hkk|]. split; [exact Hal|]. exact Hvs.
Qed.

Lemma find_next_sound E junk file start orig upper0 allow k r : bytes_ok file -> zlen junk = 16 -> bytes_ok junk -> 0 <= start ->
  small_file file start -> open_ctx orig start k -> ctx_end orig k = -1 \/ start <= ctx_end orig k ->
  find_next E junk file start orig upper0 allow = Some r ->
  match r with
  | FElt h u q => sound_element E file start orig upper0 allow k h u q /\ (ctx_end orig k = -1 \/ q <= ctx_end orig k)
  | FNull u q => start <= q /\ (ctx_end orig k = -1 \/ q <= ctx_end orig k)
  | FBad => False
  end.
Proof.
  intros Hok H1 H2 H3 Hsm Hopen Hin Hr.
  set (P := fun s => ctx_end orig k = -1 \/ f_pos s <= ctx_end orig k).
  set (Q := fun r => match r with
    | FElt h u q => sound_element E file start orig upper0 allow k h u q /\ (ctx_end orig k = -1 \/ q <= ctx_end orig k)
    | FNull u q => start <= q /\ (ctx_end orig k = -1 \/ q <= ctx_end orig k)
    | FBad => False
    end).
  destruct (find_ind E file start orig upper0 allow k Hok Hopen P Q) with (junk := junk) as (r' & Er & HQ & _); auto.
  2:{ rewrite Er in Hr. apply some_inj in Hr. subst r'. exact HQ. }
  intros s He HP. unfold P in HP. pose proof (turn_ok E file start orig upper0 allow s (skipn k orig) (upper0 + Z.of_nat k) Hok He) as Ht.
  assert (Hss : start <= f_pos s) by (destruct He as ((_ & _ & ? & ? & _) & _); lia).
  destruct (turn _ _ _ _ _ _ _ _ _) as [[u q|h u q|]|s'|]; [| |contradiction| |exact I].
  - destruct Ht as [Hp Hw]. unfold Q. split; [lia|]. unfold within in Hw. rewrite chain_end_ctx in Hw. destruct HP as [|HP]; [auto|]. right. auto.
  - unfold Q. destruct Ht as [Ht|Ht]; [exact (elt_from_sound _ _ _ _ _ _ _ _ _ _ _ Hsm He HP Ht)|exfalso].
    destruct Ht as (_ & s2 & id & _ & Hw & Hne & Hlt & _). unfold within in Hw. rewrite chain_end_ctx in *. unfold INVALID_FILEPOS in *.
    destruct HP as [|HP]; [contradiction|]. specialize (Hw Hsm HP). lia.
  - destruct Ht as (_ & _ & _ & Hw & _). unfold P, within in *. rewrite chain_end_ctx in Hw. destruct HP as [|HP]; [auto|]. right. auto.
Qed.

(** ** Bytes after the end of the context are not looked at *)
Section ni.
Context (e : Z) (f g : list Z) (start : Z) (Hokf : bytes_ok f) (Hsm : small_file f start) (Hs : same_before e f g).

Lemma same_rd p : 0 <= p < e -> rd_byte f p = rd_byte g p.
Proof. intros H. destruct Hs as [_ H2]. apply H2. lia. Qed.

Lemma id_loop_ni fuel : forall s, inv f start s -> f_ri s <= 11 -> f_pos s <= e -> id_loop fuel f start e s = id_loop fuel g start e s.
Proof.
  induction fuel as [|n IH]; intros s Hinv Hri Hle; cbn [id_loop]; [reflexivity|].
  destruct (rd (f_buf s) 0); [|reflexivity]. destruct (scan_id _ _ _); [reflexivity|].
  destruct (e =? start + f_rs s) eqn:El; [reflexivity|]. rewrite (inv_rs _ _ _ Hinv Hsm) in El.
  assert (H0 : 0 <= f_pos s) by (destruct Hinv as (_ & _ & ? & ? & _); lia).
  rewrite <- (same_rd (f_pos s)) by lia.
  destruct (4 <=? f_ri s) eqn:E4.
  - destruct (shift_ok f start s Hinv ltac:(lia)) as (buf & Hsh & Hinv1). rewrite Hsh.
    destruct (rd_byte f (f_pos s)) as [b|] eqn:Eb; [|reflexivity].
    destruct (push_ok f start _ b Hokf Hinv1 ltac:(cbn [f_ri]; lia) Eb) as (buf2 & Hp & Hinv2). cbn [f_buf f_ri f_rs f_pidl f_pos] in Hp, Hinv2. rewrite Hp.
    apply IH; [exact Hinv2| |]; cbn [f_ri f_pos]; lia.
  - destruct (rd_byte f (f_pos s)) as [b|] eqn:Eb; [|reflexivity].
    destruct (push_ok f start _ b Hokf Hinv ltac:(lia) Eb) as (buf2 & Hp & Hinv2). rewrite Hp.
    apply IH; [exact Hinv2| |]; cbn [f_ri f_pos]; lia.
Qed.

Lemma size_loop_ni fuel : forall s psl, inv f start s -> f_pidl s + psl = f_ri s -> f_pos s <= e ->
  size_loop fuel f start e s psl = size_loop fuel g start e s psl.
Proof.
  induction fuel as [|n IH]; intros s psl Hinv Hpsl Hle; cbn [size_loop]; [reflexivity|].
  destruct (read_coded_size _ _); [|reflexivity]. destruct (negb _); [reflexivity|]. destruct (8 <=? psl) eqn:E8; [reflexivity|].
  destruct (rd _ _); [|reflexivity]. destruct (_ && _); [reflexivity|].
  destruct (e =? start + f_rs s) eqn:El; [reflexivity|]. rewrite (inv_rs _ _ _ Hinv Hsm) in El.
  assert (H0 : 0 <= f_pos s) by (destruct Hinv as (_ & _ & ? & ? & _); lia).
  assert (H4 : 0 <= f_pidl s <= 4) by apply Hinv.
  rewrite <- (same_rd (f_pos s)) by lia.
  destruct (rd_byte f (f_pos s)) as [b|] eqn:Eb; [|reflexivity].
  destruct (push_ok f start _ b Hokf Hinv ltac:(lia) Eb) as (buf2 & Hp & Hinv2). rewrite Hp.
  apply IH; [exact Hinv2| |]; cbn [f_ri f_pos f_pidl]; lia.
Qed.

Lemma turn_ni E orig upper0 allow s chain upper : chain_end chain = e -> ent f start s -> f_pos s <= e ->
  turn E f start orig upper0 allow s chain upper = turn E g start orig upper0 allow s chain upper.
Proof.
  intros He (Hinv & Hri & Hpi & _) Hle. unfold turn. rewrite He. destruct Hs as [Hl _]. rewrite <- Hl.
  rewrite <- (id_loop_ni _ s Hinv Hri Hle).
  assert (Hpos0 : 0 <= f_pos s) by (destruct Hinv as (_ & _ & ? & ? & _); lia).
  destruct (id_loop_ok f start e Hokf (S (length f)) s Hinv Hri ltac:(unfold zlen; lia)) as (ri & Eri & Hr).
  pose proof (id_loop_bound f start e Hokf Hsm (S (length f)) s Hinv Hri Hle) as Hbd.
  rewrite Eri in *. destruct ri as [s1|s1|p|]; cbn beta iota in Hr, Hbd; [| |reflexivity|reflexivity].
  - destruct Hr as (Hi1 & _). rewrite <- (size_loop_ni 9 s1 (f_ri s1 - f_pidl s1) Hi1) by lia. reflexivity.
  - destruct Hr as (Hi1 & _). rewrite <- (size_loop_ni 9 s1 (f_ri s1 - f_pidl s1) Hi1) by lia. reflexivity.
Qed.
End ni.

Lemma find_next_local E junk f g start orig upper0 allow k : bytes_ok f -> zlen junk = 16 -> bytes_ok junk -> 0 <= start ->
  small_file f start -> open_ctx orig start k -> start <= ctx_end orig k -> same_before (ctx_end orig k) f g ->
  find_next E junk f start orig upper0 allow = find_next E junk g start orig upper0 allow.
Proof.
  intros Hok H1 H2 H3 Hsm Hopen Hin Hsame. unfold find_next. rewrite (adjust_open orig start upper0 k Hopen).
  assert (Hlen : length f = length g) by apply Hsame. rewrite <- Hlen.
  assert (Hgen : forall n s, ent f start s -> f_pos s <= ctx_end orig k ->
     fne_loop (2 * n) E f start orig upper0 allow s (skipn k orig) (upper0 + Z.of_nat k) =
     fne_loop (2 * n) E g start orig upper0 allow s (skipn k orig) (upper0 + Z.of_nat k)).
  { induction n as [|n IH]; intros s He Hle; [reflexivity|].
    replace (2 * S n)%nat with (S (S (2 * n))) by lia. rewrite !fne_loop_turn.
    rewrite <- (turn_ni (ctx_end orig k) f g start Hok Hsm Hsame E orig upper0 allow s (skipn k orig) _ (chain_end_ctx orig k) He Hle).
    pose proof (turn_ok E f start orig upper0 allow s (skipn k orig) (upper0 + Z.of_nat k) Hok He) as Ht.
    destruct (turn E f start orig upper0 allow s (skipn k orig) (upper0 + Z.of_nat k)) as [r|s'|] eqn:Et; try reflexivity.
    assert (Hk0 : k = O) by exact (live_orig E f start orig upper0 allow k Hok Hopen s s' He Et).
    destruct Ht as (He' & _ & _ & Hw & _). unfold within in Hw. rewrite chain_end_ctx in Hw.
    rewrite Hk0 in *. cbn [skipn] in *. change (Z.of_nat 0) with 0 in *. rewrite Z.add_0_r in *. apply IH; auto. }
  replace (2 * length f + 4)%nat with (2 * (length f + 2))%nat by lia. apply Hgen; [apply init_ent; auto|exact Hin].
Qed.

(** ** Nothing acceptable is skipped *)
Lemma find_next_first E junk file start orig upper0 allow k p id n v m res : bytes_ok file -> zlen junk = 16 -> bytes_ok junk -> 0 <= start ->
  small_file file start -> open_ctx orig start k -> ctx_end orig k = -1 \/ start <= ctx_end orig k ->
  start <= p -> header_at file p id n v m -> ctx_end orig k = -1 \/ p + n + m <= ctx_end orig k ->
  judge E (skipn k orig) allow (upper0 + Z.of_nat k) p id n v m = Some res ->
  exists r, find_next E junk file start orig upper0 allow = Some r /\
  match r with
  | FElt h u q => h_epos h < p \/ res = r
  | FNull _ _ => start < p /\ ~ (k = O /\ p + 12 <= zlen file /\ encloses orig (p + 12))
  | FBad => False
  end.
Proof.
  intros Hok H1 H2 H3 Hsm Hopen Hin Hsp Hh Hroom Hj.
  set (P := fun s => base s <= p /\ (ctx_end orig k = -1 \/ f_pos s <= ctx_end orig k)).
  set (Q := fun r => match r with
    | FElt h u q => h_epos h < p \/ res = r
    | FNull _ _ => start < p /\ ~ (k = O /\ p + 12 <= zlen file /\ encloses orig (p + 12))
    | FBad => False
    end).
  destruct (find_ind E file start orig upper0 allow k Hok Hopen P Q) with (junk := junk) as (r' & Er & HQ & _); auto.
  3:{ exists r'. split; [exact Er|exact HQ]. }
  2:{ unfold P, base; cbn [f_pos f_ri]. split; [lia|exact Hin]. }
  intros s He [Hb HP].
  assert (Hle : chain_end (skipn k orig) <> INVALID_FILEPOS -> f_pos s <= chain_end (skipn k orig)).
  { rewrite chain_end_ctx. unfold INVALID_FILEPOS. lia. }
  pose proof (turn_before E file start orig upper0 allow s (skipn k orig) (upper0 + Z.of_nat k) p id n v m res Hok Hsm He ltac:(lia) Hh) as Ht.
  unfold room in Ht. rewrite !chain_end_ctx in Ht. specialize (Ht Hroom ltac:(unfold INVALID_FILEPOS; lia) Hj Hb).
  pose proof (turn_ok E file start orig upper0 allow s (skipn k orig) (upper0 + Z.of_nat k) Hok He) as Hok2.
  destruct (turn _ _ _ _ _ _ _ _ _) as [[u q|h u q|]|s'|]; [| |contradiction| |exact I].
  - unfold Q. destruct Ht as [Hx Hn]. split; [destruct He as ((_ & _ & ? & _) & _); unfold base in *; lia|].
    intros (Hk & Hz & Henc). apply Hn. subst k. split; [exact Hz|].
    assert (H0 : ctx_end orig 0 = -1 \/ p + 12 <= ctx_end orig 0) by (apply Henc; destruct Hopen as (? & _); lia).
    split; [pose proof (chain_end_ctx orig 0) as Hc; cbn [skipn] in Hc; rewrite Hc; exact H0|].
    cbn [skipn]. unfold nested_from. rewrite Forall_forall. intros [c x] Hin'. apply In_nth_error in Hin' as (i & Hi). change (nth_error (A:=pctx) orig i = Some (c, x)) in Hi.
    assert (Hil : (i < length orig)%nat) by (apply nth_error_Some; intros Hnn; rewrite Hnn in Hi; discriminate Hi). specialize (Henc i Hil). unfold ctx_end in Henc. rewrite Hi in Henc.
    exact Henc.
  - unfold Q. destruct Ht as [?| ->]; auto.
  - unfold P. split; [exact Ht|]. destruct Hok2 as (_ & _ & _ & Hw & _). unfold within in Hw. rewrite chain_end_ctx in Hw. destruct HP as [|HP]; [auto|]. right; auto.
Qed.

Lemma names_find E c id s0 : names E c id s0 -> forall e up idlen allow low, exists s lv, names E c id s /\ lv <= low /\
  create_using E (@cons pctx (c, e) up) id idlen allow low = Some (Known (s_ctx s), lv).
Proof.
  intros (l & Hl & Hid & Hin) e up idlen allow low. cbn [create_using]. rewrite Hl. destruct (find_sem E id l) as [s|] eqn:Ef.
  - destruct (find_sem_some _ _ _ _ Ef) as [Hi Hd]. exists s, low. split; [exists l; auto|]. split; [lia|reflexivity].
  - apply find_sem_none in Ef. destruct Hin as [Hin|[_ Hin]]; [exfalso; exact (Ef s0 Hin Hid)|].
    destruct (find_sem E id (c_glob (E c))) as [s|] eqn:Eg; [|apply find_sem_none in Eg; exfalso; exact (Eg s0 Hin Hid)].
    destruct (find_sem_some _ _ _ _ Eg) as [Hi Hd]. exists s, (low - 1). split; [exists l; auto|]. split; [lia|reflexivity].
Qed.

Lemma validate_legal k v m : validate_size k (negb (v =? vint_reserved m)) v = true <-> legal_size k (size_of_vint v m).
Proof.
  unfold validate_size, legal_size, size_of_vint. destruct (v =? vint_reserved m); cbn [negb andb].
  - destruct k; split; intros H; solve [discriminate|reflexivity].
  - destruct k; split; intros H; solve [reflexivity|exact I|lia].
Qed.

Lemma judge_child E file orig k allow upper p id n v m : child_at E file orig k p id n v m ->
  exists s c e, nth_error orig k = Some (c, e) /\ names E c id s /\
    let fin := negb (v =? vint_reserved m) in
    judge E (skipn k orig) allow upper p id n v m =
    Some (FElt (mkHdr (Known (s_ctx s)) m (if fin then v else -1) fin p (p + n) (if fin then p + n + m + v else e)) upper (p + n + m)).
Proof.
  intros (Hh & c & e & Hn & (s0 & Hs0) & Hval & Hin). setoid_rewrite <- validate_legal in Hval.
  assert (Hsk : exists up, skipn k orig = @cons pctx (c, e) up).
  { clear - Hn. revert orig Hn. induction k as [|k IH]; intros [|x o] H; try discriminate; cbn in H |- *; [injection H as ->; eauto|auto]. }
  destruct Hsk as (up & Hup). rewrite Hup. destruct (names_find E c id s0 Hs0 e up n allow 0) as (s & lv & Hs & Hlv & Hcr).
  exists s, c, e. split; [exact Hn|]. split; [exact Hs|]. cbv zeta. unfold judge.
  assert (Hc : (if v =? vint_reserved m then (true, @cons pctx (c, e) up, upper) else contain (@cons pctx (c, e) up) allow (p + v) upper) = (true, @cons pctx (c, e) up, upper)).
  { destruct (v =? vint_reserved m) eqn:Ev; [reflexivity|]. cbn [contain]. replace (negb (e =? INVALID_FILEPOS) && (e <? p + v)) with false; [reflexivity|].
    unfold INVALID_FILEPOS. symmetry. destruct Hin as [->|[_ H]]; [reflexivity|]. specialize (H ltac:(lia)). lia. }
  rewrite Hc. unfold accept. cbn [f_pidl f_pos f_ri sz_val sz_unk sz_len]. rewrite Hcr. cbv zeta. cbn [kind_class].
  rewrite (Hval s Hs). rewrite Bool.orb_true_r. cbn [negb]. rewrite Bool.andb_false_r. cbn [andb kind_class]. rewrite (Hval s Hs).
  replace (0 <? lv) with false by lia. cbv iota. cbn [chain_end].
  replace (p - 0 + n - n) with p by lia. replace (p - 0 + n) with (p + n) by lia. reflexivity.
Qed.

Lemma child_first E junk file start orig upper0 allow k p id n v m : bytes_ok file -> zlen junk = 16 -> bytes_ok junk -> 0 <= start ->
  small_file file start -> open_ctx orig start k -> ctx_end orig k = -1 \/ start <= ctx_end orig k ->
  start <= p -> child_at E file orig k p id n v m ->
  exists r, find_next E junk file start orig upper0 allow = Some r /\
  match r with
  | FElt h u q => start <= h_epos h /\ (h_epos h < p \/
      exists s c e, nth_error orig k = Some (c, e) /\ names E c id s /\
       let fin := negb (v =? vint_reserved m) in
       h = mkHdr (Known (s_ctx s)) m (if fin then v else -1) fin p (p + n) (if fin then p + n + m + v else e) /\
       u = upper0 + Z.of_nat k /\ q = p + n + m)
  | FNull _ _ => start < p /\ ~ (k = O /\ p + 12 <= zlen file /\ encloses orig (p + 12))
  | FBad => False
  end.
Proof.
  intros Hok H1 H2 H3 Hsm Hopen Hin Hsp Hc.
  destruct (judge_child E file orig k allow (upper0 + Z.of_nat k) p id n v m Hc) as (s & c & e & Hn & Hi & Hj). cbv zeta in Hj.
  pose proof Hc as (Hh & c' & e' & Hn' & _ & _ & Hroom). rewrite Hn in Hn'. injection Hn' as <- <-.
  assert (He : ctx_end orig k = e) by (unfold ctx_end; rewrite Hn; reflexivity).
  destruct (find_next_first E junk file start orig upper0 allow k p id n v m _ Hok H1 H2 H3 Hsm Hopen Hin Hsp Hh ltac:(lia) Hj) as (r & Er & Hr).
  exists r. split; [exact Er|]. destruct r as [u q|h u q|]; [exact Hr| |exact Hr].
  pose proof (find_next_sound E junk file start orig upper0 allow k _ Hok H1 H2 H3 Hsm Hopen Hin Er) as [(? & ? & ? & ? & ? & ? & ? & Hs & _) _].
  split; [exact Hs|]. destruct Hr as [Hr|Hr]; [left; exact Hr|right]. injection Hr as <- <- <-. exists s, c, e. cbv zeta. auto 10.
Qed.
