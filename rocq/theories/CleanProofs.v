(** Proofs about the pieces of mkclean. *)
From Verif Require Import Base BaseProofs Tree Stream Frame BlockTime IntEltProofs BlockTimeProofs Clean CleanSpec.

Lemma s16_small' x : 0 <= x < 2 ^ 15 -> s16 x = x.
Proof. intros H. unfold s16. apply s_wrap_small; [lia|change (16 - 1) with 15; lia]. Qed.

(** Common header. *)
Lemma common_l h f : begins (common h f) h.
Proof.
  revert f. induction h as [|x h IH]; intros [|y f]; cbn [common]; try (eexists; reflexivity).
  destruct (Z.eqb_spec x y); [|eexists; reflexivity]. destruct (IH f) as [r E]. exists r. cbn [app]. f_equal. exact E.
Qed.
Lemma common_r h f : begins (common h f) f.
Proof.
  revert f. induction h as [|x h IH]; intros [|y f]; cbn [common]; try (eexists; reflexivity).
  destruct (Z.eqb_spec x y); [|eexists; reflexivity]. destruct (IH f) as [r E]. exists r. cbn [app]. subst y. f_equal. exact E.
Qed.
Lemma common_max h f : forall p, begins p h -> begins p f -> begins p (common h f).
Proof.
  revert f. induction h as [|x h IH]; intros f p [r1 E1] [r2 E2].
  - destruct p; [|discriminate]. eexists. reflexivity.
  - destruct p as [|z p]; [eexists; reflexivity|]. cbn [app] in *. injection E1 as <- E1. destruct f as [|y f]; [discriminate|]. injection E2 as <- E2.
    cbn [common]. rewrite Z.eqb_refl. destruct (IH f p ltac:(exists r1; exact E1) ltac:(exists r2; exact E2)) as [r E].
    exists r. cbn [app]. f_equal. exact E.
Qed.
Lemma begins_trans a b c : begins a b -> begins b c -> begins a c.
Proof. intros [r ->] [q ->]. exists (r ++ q). rewrite app_assoc. reflexivity. Qed.
Lemma begins_nil f : begins [] f.
Proof. exists f. reflexivity. Qed.
Lemma begins_in_nil a : begins a [] -> a = [].
Proof. intros [r E]. destruct a; [reflexivity|discriminate]. Qed.
Lemma shrink_frames_spec l : forall h, begins (shrink_frames h l) h /\ Forall (begins (shrink_frames h l)) l /\
  (forall p, begins p h -> Forall (begins p) l -> begins p (shrink_frames h l)).
Proof.
  induction l as [|f l IH]; intros h; cbn [shrink_frames].
  - split; [exists []; rewrite app_nil_r; reflexivity|]. split; [constructor|]. auto.
  - destruct (common h f) as [|x c] eqn:E.
    + split; [apply begins_nil|]. split; [apply Forall_forall; intros; apply begins_nil|]. intros p H1 H2. apply Forall_cons_iff in H2.
      rewrite <- E. apply common_max; tauto.
    + rewrite <- E. destruct (IH (common h f)) as (A1 & A2 & A3). split; [eapply begins_trans; [exact A1|apply common_l]|]. split.
      * constructor; [eapply begins_trans; [exact A1|apply common_r]|exact A2].
      * intros p H1 H2. apply Forall_cons_iff in H2. apply A3; [apply common_max; tauto|tauto].
Qed.
(** The state after some blocks. *)
Definition hdr_ok (t : hdr) (seen : list (list Z)) : Prop := match t with HNew => seen = [] | HVal h => seen <> [] /\ shared h seen end.
Lemma shared_more h seen l : shared h seen -> shared (shrink_frames h l) (seen ++ l).
Proof.
  intros [H1 H2]. destruct (shrink_frames_spec l h) as (A1 & A2 & A3). split.
  - apply Forall_app. split; [|exact A2]. revert H1. apply Forall_impl. intros f. apply begins_trans. exact A1.
  - intros p Hp. apply Forall_app in Hp. apply A3; [apply H2|]; tauto.
Qed.
Lemma shrink_ok t seen b : hdr_ok t seen -> hdr_ok (shrink t b) (seen ++ (if hb_read b && negb (hb_comp b) then hb_frames b else [])).
Proof.
  intros H. unfold shrink.
  assert (N : forall x, hdr_ok x seen -> hdr_ok x (seen ++ [])) by (intros x Hx; rewrite app_nil_r; exact Hx).
  assert (Z0 : hdr_ok (HVal []) seen -> forall l, hdr_ok (HVal []) (seen ++ l)).
  { intros [Hn [_ Hm]] l. split; [destruct seen; [contradiction|discriminate]|]. split; [apply Forall_forall; intros; apply begins_nil|].
    intros p Hp. apply Forall_app in Hp. apply Hm, Hp. }
  destruct t as [|[|x h]].
  - destruct (hb_read b); cbn [negb andb]; [|apply N, H]. destruct (hb_comp b); cbn [negb]; [apply N, H|]. cbn [hdr_ok] in H. subst seen. cbn [app].
    destruct (hb_frames b) as [|f l]; [reflexivity|]. split; [discriminate|]. change (f :: l) with ([f] ++ l). apply shared_more.
    split; [constructor; [exists []; rewrite app_nil_r; reflexivity|constructor]|]. intros p Hp. apply Forall_cons_iff in Hp. apply Hp.
  - apply Z0, H.
  - destruct (hb_read b); cbn [negb andb]; [|apply N, H]. destruct (hb_comp b); cbn [negb]; [apply N, H|]. destruct H as [Hn H].
    split; [destruct seen; [contradiction|discriminate]|]. apply shared_more, H.
Qed.
Lemma fold_ok l : forall t seen, hdr_ok t seen -> hdr_ok (fold_left shrink l t) (seen ++ frames_seen l).
Proof.
  induction l as [|b l IH]; intros t seen H; cbn [fold_left].
  - unfold frames_seen. cbn. rewrite app_nil_r. exact H.
  - specialize (IH _ _ (shrink_ok t seen b H)). unfold frames_seen in *. cbn [filter]. destruct (hb_read b && negb (hb_comp b)).
    + cbn [map concat]. rewrite app_assoc. exact IH.
    + rewrite app_nil_r in IH. exact IH.
Qed.
Lemma header_spec l : match frames_seen l with [] => header_of l = [] | _ => shared (header_of l) (frames_seen l) end.
Proof.
  pose proof (fold_ok l HNew [] eq_refl) as H. cbn [app] in H. unfold header_of. destruct (fold_left shrink l HNew) as [|h]; cbn [hdr_ok] in H.
  - rewrite H. reflexivity.
  - destruct H as [Hn H]. destruct (frames_seen l); [contradiction|exact H].
Qed.
Lemma begins_back h f : begins h f -> h ++ skipn (length h) f = f.
Proof. intros [r ->]. f_equal. rewrite skipn_app, skipn_all, Nat.sub_diag. reflexivity. Qed.

(** Main track. *)
Lemma first_type_spec ty l : Forall (fun p => snd p <> None) l ->
  exists o, first_type ty l = Ok o /\ match o with Some n => first_of_type ty l n (order_but (place_type ty l) l) | None => none_of_type ty l end.
Proof.
  induction 1 as [|[n [t|]] l H HF IH]; cbn [first_type].
  - eexists. split; [reflexivity|constructor].
  - cbn [place_type]. destruct (Z.eqb_spec t ty) as [->|Ht].
    + eexists. split; [reflexivity|]. exists [], l. split; [reflexivity|]. split; [constructor|reflexivity].
    + destruct IH as (o & E & IH). rewrite E. exists o. split; [reflexivity|].
      assert (N : Some t <> Some ty) by (intros e; injection e as e; contradiction). destruct o as [m|].
      * destruct IH as (l1 & l2 & E1 & E2 & E3). exists ((n, Some t) :: l1), l2. split; [rewrite E1; reflexivity|]. split; [constructor; [exact N|exact E2]|].
        cbn [order_but map fst app]. f_equal. exact E3.
      * constructor; [exact N|exact IH].
  - cbn [snd] in H. contradiction.
Qed.

(** Cue points. *)
Lemma has_ref_in l : has_ref l = false <-> ~ In GRef l.
Proof.
  induction l as [|g l IH]; cbn [has_ref In]; [tauto|]. destruct g as [n t| |]; [rewrite IH| |rewrite IH].
  - split; [intros H [E|E]; [discriminate|tauto]|tauto].
  - split; [discriminate|intros H; exfalso; apply H; left; reflexivity].
  - split; [intros H [E|E]; [discriminate|tauto]|tauto].
Qed.
Definition noblk (g : gin) : Prop := match g with GBlock _ _ => False | _ => True end.
Lemma last_block_spec l : forall b, (Forall noblk l /\ last_block l b = b) \/
  exists l1 n t l2, l = l1 ++ GBlock n t :: l2 /\ Forall noblk l2 /\ last_block l b = Some (n, t).
Proof.
  induction l as [|g l IH]; intros b; cbn [last_block]; [left; auto|].
  destruct g as [n t| |].
  - destruct (IH (Some (n, t))) as [[H1 H2]|(l1 & m & u & l2 & H1 & H2 & H3)].
    + right. exists [], n, t, l. auto.
    + right. exists (GBlock n t :: l1), m, u, l2. subst l. auto.
  - destruct (IH b) as [[H1 H2]|(l1 & m & u & l2 & H1 & H2 & H3)]; [left; split; [constructor; [exact I|exact H1]|exact H2]|].
    right. exists (GRef :: l1), m, u, l2. subst l. auto.
  - destruct (IH b) as [[H1 H2]|(l1 & m & u & l2 & H1 & H2 & H3)]; [left; split; [constructor; [exact I|exact H1]|exact H2]|].
    right. exists (GElse :: l1), m, u, l2. subst l. auto.
Qed.
Lemma last_block_app l1 n t l2 b : Forall noblk l2 -> last_block (l1 ++ GBlock n t :: l2) b = Some (n, t).
Proof.
  intros H. revert b. induction l1 as [|g l1 IH]; intros b; cbn [app last_block].
  - generalize (Some (n, t)). induction H as [|g l2 Hg H IH]; intros o; [reflexivity|]. cbn [last_block]. destruct g; [destruct Hg|apply IH|apply IH].
  - destruct g; apply IH.
Qed.
Lemma key_block_spec c n t : key_block c = Some (n, t) <-> is_key n t c.
Proof.
  split.
  - destruct c as [m k u|l|]; cbn [key_block]; [destruct k; [|discriminate]; intros [= -> ->]; constructor| |discriminate].
    destruct (has_ref l) eqn:E; [discriminate|]. intros H. apply has_ref_in in E.
    destruct (last_block_spec l None) as [[_ H2]|(l1 & m & u & l2 & H1 & H2 & H3)]; [congruence|]. rewrite H in H3. injection H3 as -> ->. subst l.
    apply key_group; [|exact H2]. intros Hin. apply E. apply in_or_app. apply in_app_or in Hin. destruct Hin; [left|right; right]; assumption.
  - intros H. destruct H as [|l1 l2 H1 H2]; [reflexivity|]. cbn [key_block]. destruct (has_ref (l1 ++ GBlock n t :: l2)) eqn:E.
    + exfalso. assert (F : ~ In GRef (l1 ++ GBlock n t :: l2)); [|apply has_ref_in in F; congruence].
      intros Hin. apply H1. apply in_or_app. apply in_app_or in Hin. destruct Hin as [Hin|[Hin|Hin]]; [left; exact Hin|discriminate|right; exact Hin].
    + apply last_block_app, H2.
Qed.
Lemma key_ok c n t : gchild_ok c -> is_key n t c -> 0 <= n < 32768 /\ - 2 ^ 60 < t < 2 ^ 60.
Proof.
  intros H K. destruct K as [|l1 l2 H1 H2]; cbn [gchild_ok] in H; [exact H|]. apply Forall_app in H. destruct H as [_ H]. apply Forall_cons_iff in H. apply H.
Qed.
Lemma first_key_spec main c : 0 <= main < 32768 -> Forall gchild_ok c ->
  match first_key main c with Some t => first_key_at main t c /\ - 2 ^ 60 < t < 2 ^ 60 | None => Forall (fun k => forall t, ~ is_key main t k) c end.
Proof.
  intros Hm. induction 1 as [|k c Hk HF IH]; cbn [first_key]; [constructor|].
  destruct (key_block k) as [[n t]|] eqn:E.
  - apply key_block_spec in E. destruct (key_ok _ _ _ Hk E) as [B1 B2]. rewrite (s16_small' n) by lia.
    destruct (Z.eqb_spec n main) as [->|Hn].
    + split; [|exact B2]. exists [], k, c. split; [reflexivity|]. split; [exact E|constructor].
    + assert (N : forall u, ~ is_key main u k).
      { intros u Hu. apply key_block_spec in Hu. apply key_block_spec in E. congruence. }
      destruct (first_key main c) as [u|].
      * destruct IH as [(c1 & k' & c2 & E1 & E2 & E3) E4]. split; [|exact E4]. exists (k :: c1), k', c2. rewrite E1. auto.
      * constructor; assumption.
  - assert (N : forall u, ~ is_key main u k) by (intros u Hu; apply key_block_spec in Hu; congruence).
    destruct (first_key main c) as [u|].
    * destruct IH as [(c1 & k' & c2 & E1 & E2 & E3) E4]. split; [|exact E4]. exists (k :: c1), k', c2. rewrite E1. auto.
    * constructor; assumption.
Qed.
Lemma first_key_at_fun n t u c : first_key_at n t c -> first_key_at n u c -> t = u.
Proof.
  intros (c1 & k & c2 & E1 & K1 & F1) (d1 & k' & d2 & E2 & K2 & F2). subst c. revert d1 E2 F2. induction c1 as [|x c1 IH]; intros d1 E2 F2; destruct d1 as [|y d1]; cbn [app] in E2; injection E2 as E3 E4.
  - subst k'. apply key_block_spec in K1. apply key_block_spec in K2. congruence.
  - subst y. apply Forall_cons_iff in F2. destruct F2 as [F2 _]. exfalso. exact (F2 _ K1).
  - subst x. apply Forall_cons_iff in F1. destruct F1 as [F1 _]. exfalso. exact (F1 _ K2).
  - subst y. apply Forall_cons_iff in F1. apply Forall_cons_iff in F2. eapply IH; [apply F1|exact E4|apply F2].
Qed.
Lemma gen_spec main cl : 0 <= main < 32768 -> Forall (Forall gchild_ok) cl -> forall i prev, (prev = INVALID_TIMESTAMP \/ - 2 ^ 60 < prev < 2 ^ 60) ->
  let q := gen_cues main i prev cl in
  apart q /\ match q with [] => True | (j, t) :: _ => (i <= j)%nat /\ (prev = INVALID_TIMESTAMP \/ prev + 800000000 <= t) end /\
  (forall j t, In (j, t) q -> (i <= j)%nat /\ exists c, nth_error cl (j - i) = Some c /\ first_key_at main t c) /\
  (forall k c t, nth_error cl k = Some c -> first_key_at main t c ->
     In ((i + k)%nat, t) q \/ (prev <> INVALID_TIMESTAMP /\ t < prev + 800000000) \/ exists j u, In (j, u) q /\ (j < i + k)%nat /\ t < u + 800000000).
Proof.
  intros Hm. induction 1 as [|c cl Hc HF IH]; intros i prev Hp; cbn zeta; cbn [gen_cues].
  - split; [exact I|]. split; [exact I|]. split; [intros j t []|]. intros k c t H. destruct k; discriminate.
  - pose proof (first_key_spec main c Hm Hc) as K.
    assert (SKIP : forall t0, (first_key main c = Some t0 -> prev <> INVALID_TIMESTAMP /\ t0 < prev + 800000000) ->
      (first_key main c = None \/ first_key main c = Some t0) ->
      let q := gen_cues main (S i) prev cl in
      apart q /\ match q with [] => True | (j, t) :: _ => (i <= j)%nat /\ (prev = INVALID_TIMESTAMP \/ prev + 800000000 <= t) end /\
      (forall j t, In (j, t) q -> (i <= j)%nat /\ exists c', nth_error (c :: cl) (j - i) = Some c' /\ first_key_at main t c') /\
      (forall k c' t, nth_error (c :: cl) k = Some c' -> first_key_at main t c' ->
         In ((i + k)%nat, t) q \/ (prev <> INVALID_TIMESTAMP /\ t < prev + 800000000) \/ exists j u, In (j, u) q /\ (j < i + k)%nat /\ t < u + 800000000)).
    { intros t0 H1 H2. destruct (IH (S i) prev Hp) as (A1 & A2 & A3 & A4). cbn zeta. split; [exact A1|]. split; [|split].
      - destruct (gen_cues main (S i) prev cl) as [|[j t] q]; [exact I|]. split; [lia|apply A2].
      - intros j t Hin. destruct (A3 j t Hin) as (B1 & c' & B2 & B3). split; [lia|]. exists c'. split; [|exact B3].
        replace (j - i)%nat with (S (j - S i)) by lia. exact B2.
      - intros k c' t Hk Hf. destruct k as [|k]; cbn [nth_error] in Hk.
        + injection Hk as <-. right. left. destruct H2 as [H2|H2].
          * rewrite H2 in K. exfalso. destruct Hf as (c1 & k0 & c2 & E & K0 & _). subst c. apply Forall_app in K. destruct K as [_ K]. apply Forall_cons_iff in K. eapply (proj1 K), K0.
          * rewrite H2 in K. destruct K as [K _]. rewrite <- (first_key_at_fun _ _ _ _ K Hf). apply H1, H2.
        + replace (i + S k)%nat with (S i + k)%nat by lia. apply (A4 k c' t Hk Hf). }
    destruct (first_key main c) as [t0|] eqn:E0; [|apply (SKIP 0); [discriminate|auto]].
    destruct ((s64 (t0 - prev) <? 800000000) && negb (prev =? INVALID_TIMESTAMP)) eqn:C.
    + apply (SKIP t0); [|auto]. intros _. apply andb_true_iff in C. destruct C as [C1 C2]. apply negb_true_iff, Z.eqb_neq in C2.
      destruct Hp as [Hp|Hp]; [contradiction|]. rewrite s64_small in C1 by lia. split; [exact C2|lia].
    + assert (D : prev = INVALID_TIMESTAMP \/ prev + 800000000 <= t0).
      { destruct Hp as [Hp|Hp]; [left; exact Hp|]. apply andb_false_iff in C. destruct C as [C|C].
        - rewrite s64_small in C by lia. right. lia.
        - apply negb_false_iff, Z.eqb_eq in C. left. exact C. }
      destruct K as [K1 K2]. assert (K2' : t0 <> INVALID_TIMESTAMP) by (unfold INVALID_TIMESTAMP; lia).
      destruct (IH (S i) t0 (or_intror K2)) as (A1 & A2 & A3 & A4). cbn zeta.
      split; [|split; [split; [lia|exact D]|split]].
      * destruct (gen_cues main (S i) t0 cl) as [|[j u] q]; [exact I|]. cbn [apart]. destruct A2 as [A2 [A5|A5]]; [contradiction|].
        split; [lia|]. split; [exact A5|exact A1].
      * intros j t [Hin|Hin].
        -- injection Hin as <- <-. split; [lia|]. exists c. rewrite Nat.sub_diag. split; [reflexivity|exact K1].
        -- destruct (A3 j t Hin) as (B1 & c' & B2 & B3). split; [lia|]. exists c'. split; [|exact B3].
           replace (j - i)%nat with (S (j - S i)) by lia. exact B2.
      * intros k c' t Hk Hf. destruct k as [|k]; cbn [nth_error] in Hk.
        -- injection Hk as <-. left. left. rewrite Nat.add_0_r. rewrite (first_key_at_fun _ _ _ _ K1 Hf). reflexivity.
        -- replace (i + S k)%nat with (S i + k)%nat by lia. destruct (A4 k c' t Hk Hf) as [B|[[B1 B2]|(j & u & B1 & B2 & B3)]].
           ++ left. right. exact B.
           ++ right. right. exists i, t0. split; [left; reflexivity|]. split; [lia|exact B2].
           ++ right. right. exists j, u. split; [right; exact B1|auto].
Qed.

(** Looking for the block of a cue point. *)
Lemma find_from_spec {C} (has : C -> bool) l : forall n i,
  match find_from has n i l with
  | Some j => exists k c, j = (i + k)%nat /\ (k < n)%nat /\ nth_error l k = Some c /\ has c = true /\ forall k' c', (k' < k)%nat -> nth_error l k' = Some c' -> has c' = false
  | None => forall k c, (k < n)%nat -> nth_error l k = Some c -> has c = false
  end.
Proof.
  induction l as [|c l IH]; intros n i; cbn [find_from].
  - destruct n; intros k c _ H; destruct k; discriminate.
  - destruct n as [|n]; [intros k c' H; lia|]. cbn [find_from]. destruct (has c) eqn:E.
    + exists O, c. split; [lia|]. split; [lia|]. split; [reflexivity|]. split; [exact E|]. intros; lia.
    + specialize (IH n (S i)). destruct (find_from has n (S i) l) as [j|].
      * destruct IH as (k & c' & H1 & H2 & H3 & H4 & H5). exists (S k), c'. split; [lia|]. split; [lia|]. split; [exact H3|]. split; [exact H4|].
        intros k' c'' Hk Hc. destruct k' as [|k']; cbn [nth_error] in Hc; [injection Hc as <-; exact E|]. apply (H5 k' c''); [lia|exact Hc].
      * intros k c' Hk Hc. destruct k as [|k]; cbn [nth_error] in Hc; [injection Hc as <-; exact E|]. apply (IH k c'); [lia|exact Hc].
Qed.
Lemma nth_error_skipn {A} (l : list A) k j : nth_error (skipn k l) j = nth_error l (k + j).
Proof. revert l. induction k as [|k IH]; intros l; [reflexivity|]. destruct l as [|x l]; [destruct j; reflexivity|]. cbn [skipn Nat.add nth_error]. apply IH. Qed.
Lemma link_cue_spec {C} (has : C -> bool) cl start :
  match link_cue has cl start with
  | Some i => exists c, nth_error cl i = Some c /\ has c = true
  | None => Forall (fun c => has c = false) cl
  end /\ (start = None -> forall i c j, link_cue has cl start = Some i -> (j < i)%nat -> nth_error cl j = Some c -> has c = false).
Proof.
  unfold link_cue. pose proof (find_from_spec has cl (length cl) 0) as F.
  assert (G : match find_from has (length cl) 0 cl with Some i => exists c, nth_error cl i = Some c /\ has c = true | None => Forall (fun c => has c = false) cl end).
  { destruct (find_from has (length cl) 0 cl) as [i|].
    - destruct F as (k & c & -> & _ & H3 & H4 & _). exists c. auto.
    - apply Forall_forall. intros c Hc. apply In_nth_error in Hc. destruct Hc as [k Hk]. apply (F k c); [|exact Hk]. apply nth_error_Some. congruence. }
  destruct start as [k|].
  - split; [|discriminate]. pose proof (find_from_spec has (skipn k cl) 7 k) as F2. destruct (find_from has 7 k (skipn k cl)) as [j|]; [|exact G].
    destruct F2 as (m & c & -> & _ & H3 & H4 & _). exists c. rewrite nth_error_skipn in H3. auto.
  - split; [exact G|]. intros _ i c j E Hj Hc. rewrite E in F. destruct F as (k & c' & -> & _ & _ & _ & H5). apply (H5 j c); [lia|exact Hc].
Qed.

(** Scale. *)
Lemma scale_loop_spec fuel : forall s, 0 < s -> s < 2 ^ 62 -> 100000 <= s * 2 ^ Z.of_nat fuel ->
  exists k, 0 <= k /\ scale_loop fuel s = Some (s * 2 ^ k) /\ 100000 <= s * 2 ^ k /\ (k = 0 \/ 0 < k /\ s * 2 ^ (k - 1) < 100000).
Proof.
  induction fuel as [|f IH]; intros s H1 H2 H3; cbn [scale_loop].
  - change (2 ^ Z.of_nat 0) with 1 in H3. replace (s <? 100000) with false by lia. exists 0. change (2 ^ 0) with 1. rewrite Z.mul_1_r. split; [lia|]. split; [reflexivity|]. split; [lia|]. left. reflexivity.
  - destruct (Z.ltb_spec s 100000) as [C|C].
    + rewrite s64_small by lia. rewrite Nat2Z.inj_succ, Z.pow_succ_r in H3 by lia.
      destruct (IH (2 * s)) as (k & K1 & K2 & K3 & K4); [lia|lia|lia|].
      exists (k + 1). rewrite Z.add_1_r, Z.pow_succ_r by lia. split; [lia|]. split; [rewrite K2; f_equal; lia|]. split; [lia|].
      right. replace (Z.succ k - 1) with k by lia. split; [lia|]. destruct K4 as [->|[K4 K5]]; [change (2 ^ 0) with 1; lia|].
      replace (2 ^ k) with (2 * 2 ^ (k - 1)) by (rewrite <- Z.pow_succ_r by lia; f_equal; lia). lia.
    + exists 0. change (2 ^ 0) with 1. rewrite Z.mul_1_r. split; [lia|]. split; [reflexivity|]. split; [lia|]. left. reflexivity.
Qed.
