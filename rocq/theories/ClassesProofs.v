(** Proofs about node classes: one class is initialised, then all that wait for it. *)
From Verif Require Import Base BaseProofs Arr ArrSpec ArrProofs ArrProofs2 Ebml Tree Classes ClassesSpec.

Lemma zsub_pre : total_preorder Z.sub.
Proof. split; intros; lia. Qed.
Lemma deref_set r id c x : deref (set_mem r id c) x = if x =? id then Ok c else deref r x.
Proof. unfold deref, set_mem. cbn [r_mem]. destruct (x =? id); reflexivity. Qed.
Lemma deref_cache r k x : deref (set_cache r k) x = deref r x.
Proof. reflexivity. Qed.
Lemma deref_ok r id c : r_mem r id = Some c -> deref r id = Ok c.
Proof. intros H. unfold deref. rewrite H. reflexivity. Qed.

(** ** Method tables *)
Lemma aget_set {A} (v : list A) s f : 0 <= s < zlen v -> exists v', aset v s f = Some v' /\ zlen v' = zlen v /\ forall t, aget v' t = if t =? s then Some f else aget v t.
Proof.
  intros H. destruct (aget_split v s H) as (p & x & q & -> & <-). rewrite aset_mid. eexists. split; [reflexivity|]. split; [rewrite !zlen_app, !zlen_cons; reflexivity|].
  intros t. destruct (Z.eqb_spec t (zlen p)) as [->|N]; [apply aget_mid|]. unfold aget. destruct (Z.ltb_spec t 0); [reflexivity|].
  destruct (Z.ltb_spec t (zlen p)).
  - rewrite !nth_error_app1 by (unfold zlen in *; lia). reflexivity.
  - rewrite !nth_error_app2 by (unfold zlen in *; lia). destruct (Z.to_nat t - length p)%nat as [|k] eqn:E; [unfold zlen in *; lia|reflexivity].
Qed.
Lemma write_ok : forall l v, Forall (fun e => 2 <= fst e < zlen v) l -> exists v', write_vmt v l = Some v' /\ zlen v' = zlen v /\
  forall s, (exists f l1 l2, l = l1 ++ (s, f) :: l2 /\ Forall (fun e => fst e <> s) l2 /\ aget v' s = Some f) \/ (Forall (fun e => fst e <> s) l /\ aget v' s = aget v s).
Proof.
  induction l as [|[s f] l IH]; intros v H; cbn [write_vmt]; [exists v; split; [reflexivity|]; split; [reflexivity|]; intros t; right; split; [constructor|reflexivity]|].
  apply Forall_cons_iff in H. destruct H as [Hs H]. cbn [fst] in Hs. destruct (aget_set v s f ltac:(lia)) as (v1 & -> & L1 & G1).
  destruct (IH v1) as (v2 & E & L2 & G2); [rewrite L1; exact H|]. exists v2. split; [exact E|]. split; [lia|]. intros t. destruct (G2 t) as [(g & l1 & l2 & -> & N & A)|[N A]].
  - left. exists g, ((s, f) :: l1), l2. split; [reflexivity|]. split; [exact N|exact A].
  - destruct (Z.eqb_spec t s) as [->|Ne].
    + left. exists f, [], l. split; [reflexivity|]. split; [exact N|]. rewrite A, G1, Z.eqb_refl. reflexivity.
    + right. split; [constructor; [cbn [fst]; lia|exact N]|]. rewrite A, G1, (proj2 (Z.eqb_neq t s) Ne). reflexivity.
Qed.
Lemma aget_firstn {A} (v : list A) n s : 0 <= s < n -> aget (firstn (Z.to_nat n) v) s = aget v s.
Proof.
  intros H. unfold aget. destruct (s <? 0); [reflexivity|]. rewrite <- (firstn_skipn (Z.to_nat n) v) at 2.
  destruct (Z.ltb_spec s (zlen (firstn (Z.to_nat n) v))) as [L|L].
  - rewrite nth_error_app1 by (unfold zlen in L; lia). reflexivity.
  - unfold zlen in L. rewrite firstn_length in L. rewrite (skipn_all2 (n := Z.to_nat n) v) by lia. rewrite app_nil_r. reflexivity.
Qed.
Lemma aget_skip {A} (v : list A) n s : 0 <= s -> 0 <= n -> aget (skipn (Z.to_nat n) v) s = aget v (n + s).
Proof.
  intros Hs Hn. unfold aget. replace (s <? 0) with false by lia. replace (n + s <? 0) with false by lia. replace (Z.to_nat (n + s)) with (Z.to_nat n + Z.to_nat s)%nat by lia.
  clear. revert v. induction (Z.to_nat n) as [|k IH]; intros v; [reflexivity|]. destruct v as [|x v]; cbn [skipn Nat.add nth_error]; [destruct (Z.to_nat s); reflexivity|apply IH].
Qed.
Lemma aget_app_r {A} (p q : list A) i : zlen p <= i -> aget (p ++ q) i = aget q (i - zlen p).
Proof.
  intros H. pose proof (zlen_nonneg p). unfold aget. replace (i <? 0) with false by lia. replace (i - zlen p <? 0) with false by lia. rewrite nth_error_app2 by (unfold zlen in *; lia). f_equal. unfold zlen. lia.
Qed.
(** The parent's table copied over one's own, behind the two fields. *)
Lemma copy_ok (c p : list Z) : 2 <= zlen p <= zlen c ->
  let n := Z.to_nat (Z.min (zlen c) (zlen p)) in let v := firstn 2 c ++ skipn 2 (firstn n p) ++ skipn n c in
  zlen v = zlen c /\ forall s, 2 <= s -> aget v s = if s <? zlen p then aget p s else aget c s.
Proof.
  intros H n v. assert (Hn : n = Z.to_nat (zlen p)) by (unfold n; f_equal; lia).
  assert (L1 : zlen (firstn 2 c) = 2) by (unfold zlen in *; rewrite firstn_length; lia).
  assert (L2 : zlen (skipn 2 (firstn n p)) = zlen p - 2) by (unfold zlen in *; rewrite skipn_length, firstn_length; lia).
  assert (L3 : zlen (skipn n c) = zlen c - zlen p) by (unfold zlen in *; rewrite skipn_length; lia).
  split; [unfold v; rewrite !zlen_app, L1, L2, L3; lia|].
  intros s Hs. unfold v. rewrite (aget_app_r (firstn 2 c)) by lia. rewrite L1. destruct (Z.ltb_spec s (zlen p)) as [Q|Q].
  - rewrite aget_app_l by lia. change 2%nat with (Z.to_nat 2). rewrite aget_skip by lia. replace (2 + (s - 2)) with s by lia. rewrite Hn. rewrite aget_firstn by lia. reflexivity.
  - rewrite aget_app_r by lia. rewrite L2, Hn. rewrite aget_skip by lia. f_equal. lia.
Qed.
Lemma aget_zero n s : 0 <= s < n -> aget (repeat 0 (Z.to_nat n)) s = Some 0.
Proof.
  intros H. unfold aget. replace (s <? 0) with false by lia. destruct (nth_error (repeat 0 (Z.to_nat n)) (Z.to_nat s)) as [x|] eqn:E.
  - apply nth_error_In in E. apply repeat_spec in E. congruence.
  - apply nth_error_None in E. rewrite repeat_length in E. lia.
Qed.
Lemma zlen_zero n : 0 <= n -> zlen (repeat 0 (Z.to_nat n)) = n.
Proof. intros H. unfold zlen. rewrite repeat_length. lia. Qed.

Section Init.
Context (mk : Z -> bool) (G : list cdef) (HG : good_defs G).

Lemma size_least id n : vmt_size G id n -> DEFAULT_VMT <= n.
Proof.
  destruct HG as (_ & H & _). rewrite Forall_forall in H. induction 1 as [d Hd N|d Hd E P|d n Hd E _ IH]; [|lia|exact IH]. apply (H d Hd).
Qed.
Lemma def_unique d d' : In d G -> In d' G -> d_id d = d_id d' -> d = d'.
Proof.
  destruct HG as (H & _ & _). clear -H. induction G as [|x l IH]; intros Hd Hd' E; [contradiction|]. cbn [map] in H. apply NoDup_cons_iff in H. destruct H as [Nx H].
  destruct Hd as [<-|Hd], Hd' as [<-|Hd']; [reflexivity| | |exact (IH H Hd Hd' E)].
  - elim Nx. rewrite E. apply in_map. exact Hd'.
  - elim Nx. rewrite <- E. apply in_map. exact Hd.
Qed.

(** ** What holds of a registry at any moment *)
Definition table_ok (id : Z) (c : class) (d : cdef) : Prop :=
  vmt_size G id (k_vsize c) /\ (forall s, 2 <= s < k_vsize c -> exists f, aget (k_vmt c) s = Some f /\ method G id s f) /\ k_flags c = d_flags d /\ k_pri c = d_pri d.
Record class_ok (r : reg) (id : Z) (c : class) (d : cdef) : Prop := {
  co_def : k_def c = Some d; co_in : In d G; co_id : d_id d = id; co_pid : k_pid c = d_parent d;
  co_link : match k_parent c with
            | Some p => p = d_parent d /\ In p (r_arr r) /\ p <> 0
            | None => d_parent d = 0 \/ ~ In (d_parent d) (r_arr r) \/ exists q, r_mem r (d_parent d) = Some q /\ k_state q = -2
            end;
  co_state : (k_state c = 1 /\ ready mk G id /\ table_ok id c d) \/ (k_state c = -2 /\ ~ works mk d /\ (d_parent d = 0 \/ ready mk G (d_parent d))) \/ (k_state c = 0 /\ k_vmt c = repeat 0 (Z.to_nat (k_vsize c)));
  co_len : zlen (k_vmt c) = k_vsize c; co_min : DEFAULT_VMT <= k_vsize c; co_given : d_vsize d <> DEFAULT_VMT -> k_vsize c = d_vsize d;
  co_size : k_vsize c = DEFAULT_VMT \/ vmt_size G id (k_vsize c) }.
Record Inv (r : reg) : Prop := {
  in_sorted : strictly_sorted_by Z.sub (r_arr r);
  in_each : forall id, In id (r_arr r) -> exists c d, r_mem r id = Some c /\ class_ok r id c d;
  in_cache : match r_cache r with None => True | Some (x, b) => b = true /\ In x (r_arr r) /\ exists c, r_mem r x = Some c /\ 0 <= k_state c end }.
(** Classes waiting although their parent is ready; later registries; classes not yet initialised. *)
Definition pending (r : reg) (x : Z) : Prop := In x (r_arr r) /\ exists c, r_mem r x = Some c /\ k_state c = 0 /\
  (k_pid c = 0 \/ exists p q, k_parent c = Some p /\ r_mem r p = Some q /\ k_state q = 1).
Definition later (r r' : reg) : Prop := r_arr r' = r_arr r /\ forall x c, In x (r_arr r) -> r_mem r x = Some c ->
  exists c', r_mem r' x = Some c' /\ k_def c' = k_def c /\ k_pid c' = k_pid c /\ k_parent c' = k_parent c /\ (k_state c <> 0 -> c' = c).
Definition waits (r : reg) (x : Z) : bool := match r_mem r x with Some c => k_state c =? 0 | None => false end.
Definition count0 (r : reg) : nat := length (filter (waits r) (r_arr r)).

Lemma later_refl r : later r r.
Proof. split; [reflexivity|]. intros x c _ H. exists c. split; [exact H|]. do 3 (split; [reflexivity|]). reflexivity. Qed.
Lemma later_trans r1 r2 r3 : later r1 r2 -> later r2 r3 -> later r1 r3.
Proof.
  intros [A1 H1] [A2 H2]. split; [congruence|]. intros x c Hx Hc. destruct (H1 x c Hx Hc) as (c2 & Hc2 & E1 & E2 & E3 & E4).
  rewrite <- A1 in Hx. destruct (H2 x c2 Hx Hc2) as (c3 & Hc3 & F1 & F2 & F3 & F4). exists c3. split; [exact Hc3|]. split; [congruence|]. split; [congruence|]. split; [congruence|].
  intros N. rewrite F4; [apply E4; exact N|]. rewrite (E4 N). exact N.
Qed.
Lemma count_le (f g : Z -> bool) l : (forall x, In x l -> f x = true -> g x = true) -> (length (filter f l) <= length (filter g l))%nat.
Proof.
  induction l as [|x l IH]; intros H; cbn [filter]; [lia|]. assert (IHl : (length (filter f l) <= length (filter g l))%nat) by (apply IH; intros y Hy; apply H; right; exact Hy).
  destruct (f x) eqn:Ef; [rewrite (H x (or_introl eq_refl) Ef); cbn [length]; lia|]. destruct (g x); cbn [length]; lia.
Qed.
Lemma count_lt (f g : Z -> bool) l y : (forall x, In x l -> f x = true -> g x = true) -> In y l -> f y = false -> g y = true -> (length (filter f l) < length (filter g l))%nat.
Proof.
  induction l as [|x l IH]; intros H Hy Fy Gy; [contradiction|]. cbn [filter]. destruct Hy as [->|Hy].
  - rewrite Fy, Gy. cbn [length]. pose proof (count_le f g l (fun z Hz => H z (or_intror Hz))). lia.
  - assert (IHl : (length (filter f l) < length (filter g l))%nat) by (apply IH; [intros z Hz; apply H; right; exact Hz|assumption..]).
    destruct (f x) eqn:Ef; [rewrite (H x (or_introl eq_refl) Ef); cbn [length]; lia|]. destruct (g x); cbn [length]; lia.
Qed.
Lemma later_count r r' : Inv r -> later r r' -> (count0 r' <= count0 r)%nat.
Proof.
  intros I [A H]. unfold count0. rewrite A. apply count_le. intros x Hx W. destruct (in_each r I x Hx) as (c & d & Hc & _). destruct (H x c Hx Hc) as (c' & Hc' & _ & _ & _ & E).
  unfold waits in *. rewrite Hc' in W. rewrite Hc. destruct (Z.eqb_spec (k_state c) 0) as [|N]; [reflexivity|]. rewrite (E N) in W. apply Z.eqb_eq in W. contradiction.
Qed.

(** ** One class *)
(** Changing one waiting class keeps everything else right. *)
Lemma change_one r id c d c' k : Inv r -> In id (r_arr r) -> r_mem r id = Some c -> k_state c = 0 -> k_def c' = k_def c -> k_pid c' = k_pid c -> k_parent c' = k_parent c ->
  class_ok r id c d -> (k_state c' = 1 \/ k_state c' = -2) ->
  ((k_state c' = 1 /\ ready mk G id /\ table_ok id c' d) \/ (k_state c' = -2 /\ ~ works mk d /\ (d_parent d = 0 \/ ready mk G (d_parent d)))) -> zlen (k_vmt c') = k_vsize c' -> DEFAULT_VMT <= k_vsize c' ->
  (d_vsize d <> DEFAULT_VMT -> k_vsize c' = d_vsize d) -> (k_vsize c' = DEFAULT_VMT \/ vmt_size G id (k_vsize c')) ->
  (k = None \/ (k = r_cache r /\ 0 <= k_state c')) ->
  let r' := set_mem (set_cache r k) id c' in Inv r' /\ later r r' /\ (count0 r' < count0 r)%nat.
Proof.
  intros I Hid Hc H0 E1 E2 E3 CO S1 S2 Hl Hm Hg Hs Hk r'.
  assert (F : forall x q, In x (r_arr r) -> r_mem r x = Some q -> x <> id -> r_mem r' x = Some q).
  { intros x q _ Hq N. unfold r', set_mem. cbn [r_mem set_cache]. rewrite (proj2 (Z.eqb_neq x id) N). exact Hq. }
  assert (Fid : r_mem r' id = Some c') by (unfold r', set_mem; cbn [r_mem]; rewrite Z.eqb_refl; reflexivity).
  assert (LA : later r r').
  { split; [reflexivity|]. intros x q Hx Hq. destruct (Z.eq_dec x id) as [->|N].
    - rewrite Hc in Hq. injection Hq as <-. exists c'. split; [exact Fid|]. split; [exact E1|]. split; [exact E2|]. split; [exact E3|]. congruence.
    - exists q. split; [exact (F x q Hx Hq N)|]. repeat (split; [reflexivity|]). reflexivity. }
  split; [|split; [exact LA|]].
  - split; [exact (in_sorted r I)| |].
    + intros x Hx. change (r_arr r') with (r_arr r) in Hx. destruct (Z.eq_dec x id) as [->|N].
      * exists c', d. split; [exact Fid|]. destruct CO as [C1 C2 C3 C4 C5 C6 C7 C8 C9 C10].
        assert (Npar : d_parent d <> id) by (destruct HG as (_ & HH & _); rewrite Forall_forall in HH; destruct (HH d C2) as (_ & Q & _); congruence).
        split; [congruence|exact C2|exact C3|congruence| |destruct S2 as [S2|S2]; [left; exact S2|right; left; exact S2]|exact Hl|exact Hm|exact Hg|exact Hs].
        rewrite E3. change (r_arr r') with (r_arr r). destruct (k_parent c); [exact C5|]. destruct C5 as [C5|[C5|(q & Q1 & Q2)]]; [left; exact C5|right; left; exact C5|right; right]. exists q. split; [|exact Q2].
        unfold r', set_mem. cbn [r_mem set_cache]. rewrite (proj2 (Z.eqb_neq _ _) Npar). exact Q1.
      * destruct (in_each r I x Hx) as (q & dq & Hq & Cq). exists q, dq. split; [exact (F x q Hx Hq N)|]. destruct Cq as [C1 C2 C3 C4 C5 C6 C7 C8 C9 C10].
        split; try assumption. change (r_arr r') with (r_arr r). destruct (k_parent q); [exact C5|]. destruct C5 as [C5|[C5|(p & Q1 & Q2)]]; [left; exact C5|right; left; exact C5|right; right].
        destruct (Z.eq_dec (d_parent dq) id) as [Ep|Ep]; [rewrite Ep, Hc in Q1; injection Q1 as <-; lia|].
        exists p. split; [|exact Q2]. unfold r', set_mem. cbn [r_mem set_cache]. rewrite (proj2 (Z.eqb_neq _ _) Ep). exact Q1.
    + unfold r', set_mem. cbn [r_cache set_cache]. destruct Hk as [->|[-> Hk]]; [exact Logic.I|]. 1: {
      pose proof (in_cache r I) as J. destruct (r_cache r) as [[x b]|]; [|exact Logic.I]. destruct J as (-> & Jx & q & Jq & Js). split; [reflexivity|]. split; [exact Jx|].
      destruct (Z.eqb_spec x id) as [->|N]; [exists c'|exists q]; cbn [r_mem set_cache].
      - rewrite Z.eqb_refl. split; [reflexivity|exact Hk].
      - rewrite (proj2 (Z.eqb_neq x id) N). split; [exact Jq|exact Js]. }
  - unfold count0. change (r_arr r') with (r_arr r). apply (count_lt _ _ _ id); [| exact Hid| |].
    + intros x Hx W. unfold waits in *. destruct (Z.eq_dec x id) as [->|N]; [rewrite Hc, H0; reflexivity|]. destruct (in_each r I x Hx) as (q & dq & Hq & _). rewrite (F x q Hx Hq N) in W. rewrite Hq. exact W.
    + unfold waits. rewrite Fid. apply Z.eqb_neq. destruct S1; lia.
    + unfold waits. rewrite Hc, H0. reflexivity.
Qed.

(** ** Sizes and methods of ready classes *)
Lemma size_unique id n : vmt_size G id n -> forall m, vmt_size G id m -> n = m.
Proof.
  induction 1 as [d Hd N|d Hd E P|d n Hd E S IH]; intros m Hm; inversion Hm as [d' Hd' N' E1 E2|d' Hd' E' P' E1 E2|d' n' Hd' E' S' E1 E2]; subst; pose proof (def_unique d' d Hd' Hd E1) as ->; try congruence; try reflexivity.
  - inversion S' as [e He Q1 Q2|e He Q1 Q3 Q2|e k He Q1 Q3 Q2]; exfalso; rewrite P in Q2; destruct HG as (_ & HH & _); rewrite Forall_forall in HH; destruct (HH e He) as [Z0 _]; contradiction.
  - inversion S as [e He Q1 Q2|e He Q1 Q3 Q2|e k He Q1 Q3 Q2]; exfalso; rewrite P' in Q2; destruct HG as (_ & HH & _); rewrite Forall_forall in HH; destruct (HH e He) as [Z0 _]; contradiction.
  - exact (IH _ S').
Qed.
Lemma ready_size id : ready mk G id -> (exists m, vmt_size G id m) /\ forall m s, vmt_size G id m -> m <= s -> method G id s 0.
Proof.
  revert id. fix IH 2. intros id H. destruct H as [d Hd W P].
  assert (OWN : forall m s, vmt_size G (d_id d) m -> m <= s -> Forall (fun e => fst e <> s) (d_vmt d)).
  { intros m s Hm Hs. destruct HG as (_ & _ & HH). destruct (HH d m Hd Hm) as [F _]. eapply Forall_impl; [|exact F]. cbv beta. intros a Ha. lia. }
  destruct P as [P|P].
  - split; [destruct (Z.eq_dec (d_vsize d) DEFAULT_VMT) as [E|E]; [exists DEFAULT_VMT; apply size_root; assumption|exists (d_vsize d); apply size_given; assumption]|].
    intros m s Hm Hs. apply method_null; [exact Hd|exact (OWN m s Hm Hs)|exact P].
  - destruct (IH _ P) as [[m Hm] Hnull]. split; [destruct (Z.eq_dec (d_vsize d) DEFAULT_VMT) as [E|E]; [exists m; apply size_parent; assumption|exists (d_vsize d); apply size_given; assumption]|].
    intros m' s Hm' Hs. apply method_parent; [exact Hd|exact (OWN m' s Hm' Hs)|]. apply (Hnull m); [exact Hm|]. destruct HG as (_ & _ & HH). destruct (HH d m' Hd Hm') as [_ F]. specialize (F m Hm). lia.
Qed.
Lemma works_b d : (d_create d && (negb (is_single d) || mk (d_id d)) = true) <-> works mk d.
Proof.
  unfold works, is_single. change (Z.lor CFLAG_SINGLETON CFLAG_OWN_MEMORY) with 33. change CFLAG_SINGLETON with 1. rewrite andb_true_iff, orb_true_iff, negb_true_iff, Z.eqb_neq.
  split; intros [H1 H2]; (split; [exact H1|]); [intros E; destruct H2 as [H2|H2]; [contradiction|exact H2]|]. destruct (Z.eq_dec (Z.land (d_flags d) 33) 1) as [E|E]; [right; exact (H2 E)|left; exact E].
Qed.

(** ** Initialising one class *)
Definition parent_ok (r : reg) (c : class) (par : option class) : Prop :=
  (k_pid c = 0 /\ k_parent c = None /\ par = None) \/ exists p q, k_parent c = Some p /\ In p (r_arr r) /\ r_mem r p = Some q /\ k_state q = 1 /\ par = Some q.
Lemma init_self_ok r id c d par : Inv r -> r_cache r = None -> In id (r_arr r) -> r_mem r id = Some c -> class_ok r id c d -> k_state c = 0 -> parent_ok r c par ->
  exists r' b c', init_self mk r id c d par = Ok (r', b) /\ Inv r' /\ later r r' /\ (count0 r' < count0 r)%nat /\ r_cache r' = None /\ r_mem r' id = Some c' /\
    k_state c' = (if b then 1 else -2) /\ (forall x, x <> id -> r_mem r' x = r_mem r x) /\ (b = true <-> works mk d).
Proof.
  intros I HK Hid Hc CO H0 HP. pose proof CO as [C1 C2 C3 C4 C5 C6 C7 C8 C9 C10].
  assert (Hz : k_vmt c = repeat 0 (Z.to_nat (k_vsize c))) by (destruct C6 as [[? _]|[[? _]|[_ ?]]]; [lia|lia|assumption]).
  pose proof HG as (_ & _ & HG3).
  (* the size *)
  set (n := match par with Some p => if (k_vsize c =? DEFAULT_VMT) && (DEFAULT_VMT <? k_vsize p) then k_vsize p else k_vsize c | None => k_vsize c end).
  assert (HQ : forall p q, k_parent c = Some p -> In p (r_arr r) -> r_mem r p = Some q -> k_state q = 1 -> p = d_parent d /\ ready mk G p /\ (exists dq, table_ok p q dq) /\ zlen (k_vmt q) = k_vsize q).
  { intros p q E Hp Hq Sq. rewrite E in C5. destruct C5 as [C5 _]. split; [exact C5|]. destruct (in_each r I p Hp) as (q' & dq & Hq' & Cq). rewrite Hq in Hq'. injection Hq' as <-.
    destruct Cq as [_ _ _ _ _ Sq' Lq _ _ _]. destruct Sq' as [(_ & Rq & Tq)|[[? _]|[? _]]]; [|lia|lia]. split; [exact Rq|]. split; [exists dq; exact Tq|exact Lq]. }
  assert (Hn : vmt_size G id n).
  { destruct HP as [(P0 & P1 & ->)|(p & q & P1 & P2 & P3 & P4 & ->)]; unfold n.
    - destruct (Z.eq_dec (d_vsize d) DEFAULT_VMT) as [E|E]; [|rewrite (C9 E), <- C3; apply size_given; assumption].
      destruct C10 as [C10|C10]; [|exact C10]. rewrite C10, <- C3. apply size_root; [exact C2|exact E|congruence].
    - destruct (HQ p q P1 P2 P3 P4) as (-> & Rq & (dq & Tq & _) & Lq). pose proof (size_least _ _ Tq) as Hmin.
      destruct (Z.eq_dec (d_vsize d) DEFAULT_VMT) as [E|E].
      + assert (Hs : vmt_size G id (k_vsize q)) by (rewrite <- C3; apply size_parent; assumption).
        destruct (Z.eqb_spec (k_vsize c) DEFAULT_VMT) as [E2|E2]; cbn [andb].
        * destruct (Z.ltb_spec DEFAULT_VMT (k_vsize q)); [exact Hs|]. replace (k_vsize c) with (k_vsize q) by lia. exact Hs.
        * destruct C10 as [C10|C10]; [contradiction|exact C10].
      + rewrite (C9 E). rewrite (proj2 (Z.eqb_neq _ _) E). cbn [andb]. rewrite <- C3. apply size_given; assumption. }
  assert (Hn9 : DEFAULT_VMT <= n) by (apply (size_least id n Hn)). assert (P9 : DEFAULT_VMT = 9) by reflexivity.
  destruct (HG3 d n C2 ltac:(rewrite C3; exact Hn)) as [Hplaces Hparent].
  (* the class when it has that size *)
  assert (H1 : exists c1 r1, (match par with Some p => if (k_vsize c =? DEFAULT_VMT) && (DEFAULT_VMT <? k_vsize p) then resize r id (k_vsize p) else Ok r | None => Ok r end) = Ok r1 /\
    (forall x, r_mem r1 x = if x =? id then Some c1 else r_mem r x) /\ r_arr r1 = r_arr r /\ r_cache r1 = None /\ k_def c1 = k_def c /\ k_pid c1 = k_pid c /\ k_parent c1 = k_parent c /\ k_vsize c1 = n /\
    zlen (k_vmt c1) = n /\ forall s, 0 <= s < n -> aget (k_vmt c1) s = Some 0).
  { assert (SAME : n = k_vsize c -> exists c1 r1, Ok r = Ok r1 /\ (forall x, r_mem r1 x = if x =? id then Some c1 else r_mem r x) /\ r_arr r1 = r_arr r /\ r_cache r1 = None /\ k_def c1 = k_def c /\ k_pid c1 = k_pid c /\
      k_parent c1 = k_parent c /\ k_vsize c1 = n /\ zlen (k_vmt c1) = n /\ forall s, 0 <= s < n -> aget (k_vmt c1) s = Some 0).
    { intros E. exists c, r. split; [reflexivity|]. split; [intros x; destruct (Z.eqb_spec x id) as [->|]; [exact Hc|reflexivity]|]. split; [reflexivity|]. split; [exact HK|]. do 3 (split; [reflexivity|]). split; [congruence|]. split; [congruence|].
      intros s Hs. rewrite Hz. apply aget_zero. lia. }
    destruct par as [p|]; [|apply SAME; reflexivity]. destruct ((k_vsize c =? DEFAULT_VMT) && (DEFAULT_VMT <? k_vsize p)) eqn:E; [|apply SAME; unfold n; reflexivity].
    assert (En : n = k_vsize p) by (unfold n; reflexivity). apply andb_true_iff in E. destruct E as [E1 E2]. apply Z.eqb_eq in E1. apply Z.ltb_lt in E2.
    unfold resize. rewrite (deref_ok r id c Hc). cbn [bind]. rewrite <- En in *. rewrite C7, E1. rewrite Hz, E1. rewrite firstn_all2 by (rewrite repeat_length; lia). rewrite <- repeat_app.
    replace (Z.to_nat DEFAULT_VMT + Z.to_nat (n - DEFAULT_VMT))%nat with (Z.to_nat n) by lia.
    eexists _, _. split; [cbn [r_cache set_mem]; rewrite HK; reflexivity|]. split; [intros x; cbn [r_mem set_mem]; reflexivity|]. cbn [r_arr r_cache set_mem k_def k_pid k_parent k_vsize k_vmt].
    split; [reflexivity|]. split; [exact HK|]. do 4 (split; [reflexivity|]). split; [apply zlen_zero; lia|]. intros s Hs. apply aget_zero. exact Hs. }
  destruct H1 as (c1 & r1 & E1 & M1 & A1 & K1 & D1 & D2 & D3 & D4 & D5 & D6).
  (* its table *)
  set (v0 := match par with Some p => let k := Z.to_nat (Z.min (k_vsize c1) (k_vsize p)) in firstn 2 (k_vmt c1) ++ skipn 2 (firstn k (k_vmt p)) ++ skipn k (k_vmt c1) | None => k_vmt c1 end).
  assert (HV : zlen v0 = n /\ forall s, 2 <= s < n -> Forall (fun e => fst e <> s) (d_vmt d) -> exists f, aget v0 s = Some f /\ method G id s f).
  { destruct HP as [(P0 & P1 & ->)|(p & q & P1 & P2 & P3 & P4 & ->)]; unfold v0.
    - split; [exact D5|]. intros s Hs F. exists 0. split; [apply D6; lia|]. rewrite <- C3. apply method_null; [exact C2|exact F|congruence].
    - destruct (HQ p q P1 P2 P3 P4) as (Ep & Rq & (dq & Tq & Mq & _) & Lq). rewrite Ep in Tq. pose proof (size_least _ _ Tq) as Hmin. pose proof (Hparent _ Tq) as Hle.
      destruct (copy_ok (k_vmt c1) (k_vmt q)) as [CL CG]; [rewrite D5, Lq; lia|]. rewrite D5, Lq in CL, CG. cbv zeta in CL, CG. rewrite D4. split; [exact CL|].
      intros s Hs F. rewrite (CG s) by lia. destruct (Z.ltb_spec s (k_vsize q)) as [Q|Q].
      + destruct (Mq s) as (f & Gf & Mf); [lia|]. exists f. split; [exact Gf|]. rewrite <- C3. apply method_parent; [exact C2|exact F|]. rewrite <- Ep. exact Mf.
      + exists 0. split; [apply D6; lia|]. rewrite <- C3. apply method_parent; [exact C2|exact F|]. rewrite <- Ep. apply (proj2 (ready_size p Rq) (k_vsize q)); [rewrite Ep; exact Tq|lia]. }
  destruct HV as [LV GV]. destruct (write_ok (d_vmt d) v0) as (v & Ev & Lv & Gv); [rewrite LV; exact Hplaces|].
  set (ok2 := d_create d && (negb (is_single d) || mk id)).
  set (c' := mkK (k_def c1) (k_pid c1) (k_parent c1) (if ok2 then CLASS_INITED else CLASS_FAILED) (d_flags d) (d_pri d) (k_vsize c1) v).
  assert (WB : ok2 = true <-> works mk d) by (rewrite <- works_b, C3; reflexivity).
  assert (RUN : exists r2, init_self mk r id c d par = Ok (set_mem r2 id c', ok2) /\ r_arr r2 = r_arr r /\ r_cache r2 = None /\ r_mem r2 = r_mem r1).
  { unfold init_self. rewrite E1. cbn [bind]. rewrite (deref_ok r1 id c1) by (rewrite M1, Z.eqb_refl; reflexivity). cbn [bind]. fold v0. rewrite Ev. cbn [opt_res bind]. fold ok2. fold c'.
    assert (W : forall b1 b2 : bool, let r2 := (if b2 then set_cache (if b1 then r1 else set_cache r1 None) None else (if b1 then r1 else set_cache r1 None)) in r_arr r2 = r_arr r /\ r_cache r2 = None /\ r_mem r2 = r_mem r1)
      by (intros [|] [|]; cbn [set_cache r_arr r_cache r_mem]; split; try exact A1; split; try exact K1; reflexivity).
    eexists. split; [reflexivity|]. apply W. }
  destruct RUN as (r2 & ER & A2 & K2 & M2).
  assert (SM : set_mem r2 id c' = mkReg (r_arr r) (fun x => if x =? id then Some c' else r_mem r1 x) None) by (unfold set_mem; rewrite A2, K2, M2; reflexivity).
  assert (KS : k_state c' = if ok2 then 1 else -2) by (unfold c'; cbn [k_state]; destruct ok2; reflexivity).
  assert (KD : k_def c' = k_def c) by exact D1. assert (KP : k_pid c' = k_pid c) by exact D2. assert (KQ : k_parent c' = k_parent c) by exact D3.
  assert (KV : k_vsize c' = n) by exact D4. assert (KT : k_vmt c' = v) by reflexivity. assert (KF : k_flags c' = d_flags d) by reflexivity. assert (KI : k_pri c' = d_pri d) by reflexivity.
  assert (PAR : d_parent d = 0 \/ ready mk G (d_parent d)).
  { destruct HP as [(P0 & P1 & _)|(p & q & P1 & P2 & P3 & P4 & _)]; [left; congruence|right]. destruct (HQ p q P1 P2 P3 P4) as (<- & Rq & _). exact Rq. }
  clearbody c' ok2 v0 n.
  destruct (change_one r id c d c' None I Hid Hc H0 KD KP KQ CO) as (J1 & J2 & J3).
  - rewrite KS. destruct ok2; [left|right]; reflexivity.
  - rewrite KS. destruct ok2.
    + left. split; [reflexivity|]. split.
      * rewrite <- C3. apply ready_intro; [exact C2|apply WB; reflexivity|exact PAR].
      * unfold table_ok. rewrite KV, KT. split; [exact Hn|]. split; [|split; assumption]. intros s Hs. destruct (Gv s) as [(f & l1 & l2 & El & F & A)|[F A]].
        -- exists f. split; [exact A|]. rewrite <- C3. apply (method_own G d s f l1 l2); assumption.
        -- rewrite A. apply GV; assumption.
    + right. split; [reflexivity|]. split; [|exact PAR]. intros W. apply WB in W. discriminate.
  - congruence.
  - lia.
  - intros E. rewrite KV. rewrite <- (size_unique id n Hn (d_vsize d)); [reflexivity|]. rewrite <- C3. apply size_given; assumption.
  - right. rewrite KV. exact Hn.
  - left. reflexivity.
  - assert (LATE : forall rr, r_arr rr = r_arr r -> r_cache rr = None -> (forall x, r_mem rr x = r_mem (set_mem (set_cache r None) id c') x) -> Inv rr /\ later r rr /\ (count0 rr < count0 r)%nat).
    { intros rr QA QC QM. split; [|split].
      - destruct J1 as [a1 a2 a3]. split; [rewrite QA; exact a1| |rewrite QC; exact Logic.I]. intros x Hx. rewrite QA in Hx. destruct (a2 x Hx) as (z & dz & Hz' & Cz). exists z, dz. split; [rewrite QM; exact Hz'|].
        destruct Cz as [z1 z2 z3 z4 z5 z6 z7 z8 z9 z10]. split; try assumption. rewrite QA. destruct (k_parent z); [exact z5|]. rewrite QM. exact z5.
      - destruct J2 as [b1 b2]. split; [exact QA|]. intros x z Hx Hz'. rewrite QM. exact (b2 x z Hx Hz').
      - replace (count0 rr) with (count0 (set_mem (set_cache r None) id c')); [exact J3|]. unfold count0. rewrite QA. cbn [r_arr set_mem set_cache]. f_equal. apply filter_ext. intros x. unfold waits. rewrite QM. reflexivity. }
    destruct (LATE (set_mem r2 id c')) as (T1 & T2 & T3).
    { rewrite SM. reflexivity. } { rewrite SM. reflexivity. }
    { intros x. rewrite SM. cbn [r_mem set_mem set_cache]. rewrite M1. destruct (x =? id); reflexivity. }
    exists (set_mem r2 id c'), ok2, c'. split; [exact ER|]. split; [exact T1|]. split; [exact T2|]. split; [exact T3|]. split; [exact K2|]. split; [unfold set_mem; cbn [r_mem]; rewrite Z.eqb_refl; reflexivity|].
    split; [exact KS|]. split; [|exact WB]. intros x N. rewrite SM. cbn [r_mem]. rewrite M1, (proj2 (Z.eqb_neq x id) N). reflexivity.
Qed.

(** ** A class and those that wait for it *)
Lemma init_class_ok : forall fuel r id, Inv r -> r_cache r = None -> In id (r_arr r) -> (count0 r < fuel)%nat ->
  exists r', init_class mk fuel r id = Ok r' /\ Inv r' /\ r_cache r' = None /\ later r r' /\ forall x, pending r' x -> pending r x /\ x <> id.
Proof.
  induction fuel as [|fuel IH]; intros r id I HK Hid HF; [lia|]. destruct (in_each r I id Hid) as (c & d & Hc & CO). pose proof CO as [C1 C2 C3 C4 C5 C6 C7 C8 C9 C10].
  cbn [init_class]. rewrite (deref_ok r id c Hc). cbn [bind]. rewrite C1.
  assert (STOP : ~ pending r id -> exists r', Ok r = Ok r' /\ Inv r' /\ r_cache r' = None /\ later r r' /\ forall x, pending r' x -> pending r x /\ x <> id).
  { intros NP. exists r. split; [reflexivity|]. split; [exact I|]. split; [exact HK|]. split; [apply later_refl|]. intros x Px. split; [exact Px|]. intros ->. contradiction. }
  destruct (Z.eqb_spec (k_state c) CLASS_REGISTERED) as [H0|H0]; cbn [negb].
  2: { apply STOP. intros (_ & c2 & Q & Q0 & _). rewrite Hc in Q. injection Q as <-. unfold CLASS_REGISTERED in H0. contradiction. }
  unfold CLASS_REGISTERED in H0.
  assert (PQ : exists par, (match k_parent c with None => Ok None | Some p => do p <- deref r p; Ok (Some p) end) = Ok par /\
    match k_parent c with None => par = None | Some p => exists q, r_mem r p = Some q /\ In p (r_arr r) /\ par = Some q end).
  { destruct (k_parent c) as [p|]; [|exists None; split; reflexivity]. destruct C5 as (_ & Hp & _). destruct (in_each r I p Hp) as (q & dq & Hq & _). rewrite (deref_ok r p q Hq). exists (Some q). split; [reflexivity|]. exists q. split; [exact Hq|]. split; [exact Hp|reflexivity]. }
  destruct PQ as (par & -> & PQ). cbn [bind].
  destruct ((k_pid c =? 0) || (match par with Some p => CLASS_INITED <=? k_state p | None => false end)) eqn:EP.
  2: { apply orb_false_iff in EP. destruct EP as [EP1 EP2]. apply Z.eqb_neq in EP1. apply STOP. intros (_ & c2 & Q & _ & Q1). rewrite Hc in Q. injection Q as <-. destruct Q1 as [Q1|(p & q & Q1 & Q2 & Q3)]; [contradiction|].
       rewrite Q1 in PQ. destruct PQ as (q' & Q4 & _ & ->). rewrite Q2 in Q4. injection Q4 as <-. unfold CLASS_INITED in EP2. lia. }
  assert (HP : parent_ok r c par).
  { unfold parent_ok. destruct (Z.eq_dec (k_pid c) 0) as [E|E].
    - left. split; [exact E|]. destruct (k_parent c) as [p|]; [|split; [reflexivity|exact PQ]]. destruct C5 as (-> & _ & N). congruence.
    - right. rewrite (proj2 (Z.eqb_neq _ _) E) in EP. cbn [orb] in EP. destruct par as [q|]; [|discriminate]. destruct (k_parent c) as [p|]; [|discriminate]. destruct PQ as (q' & Q1 & Q2 & Q3). injection Q3 as <-.
      exists p, q. split; [reflexivity|]. split; [exact Q2|]. split; [exact Q1|]. split; [|reflexivity]. unfold CLASS_INITED in EP. destruct (in_each r I p Q2) as (q2 & dq & Q4 & Cq). rewrite Q1 in Q4. injection Q4 as <-.
      destruct (co_state _ _ _ _ Cq) as [[? _]|[[? _]|[? _]]]; lia. }
  destruct (init_self_ok r id c d par I HK Hid Hc CO H0 HP) as (r1 & b & c' & -> & I1 & L1 & N1 & K1 & M1 & S1 & O1 & _). cbn [bind fst snd].
  assert (PEND : forall x, pending r1 x -> (pending r x /\ x <> id) \/ (b = true /\ exists k, r_mem r1 x = Some k /\ k_parent k = Some id)).
  { intros x (Hx & k & Q1 & Q2 & Q3). assert (Nx : x <> id) by (intros ->; rewrite M1 in Q1; injection Q1 as <-; destruct b; lia). pose proof Q1 as Q1'. rewrite (O1 x Nx) in Q1.
    assert (Hx' : In x (r_arr r)) by (rewrite <- (proj1 L1); exact Hx). destruct Q3 as [Q3|(p & q & Q3 & Q4 & Q5)].
    - left. split; [|exact Nx]. split; [exact Hx'|]. exists k. split; [exact Q1|]. split; [exact Q2|]. left. exact Q3.
    - destruct (Z.eq_dec p id) as [->|Np].
      + right. split; [rewrite M1 in Q4; injection Q4 as <-; destruct b; [reflexivity|lia]|]. exists k. split; [exact Q1'|exact Q3].
      + left. split; [|exact Nx]. split; [exact Hx'|]. exists k. split; [exact Q1|]. split; [exact Q2|]. right. exists p, q. split; [exact Q3|]. split; [rewrite <- (O1 p Np); exact Q4|exact Q5]. }
  destruct b.
  2: { exists r1. split; [reflexivity|]. split; [exact I1|]. split; [exact K1|]. split; [exact L1|]. intros x Px. destruct (PEND x Px) as [H|[H _]]; [exact H|discriminate]. }
  match goal with |- context [?f (r_arr r1) r1] => set (each := f) end.
  assert (EACH : forall l r2, incl l (r_arr r2) -> Inv r2 -> r_cache r2 = None -> (count0 r2 < fuel)%nat ->
    exists r3, each l r2 = Ok r3 /\ Inv r3 /\ r_cache r3 = None /\ later r2 r3 /\ forall x, pending r3 x -> pending r2 x /\ (In x l -> forall k, r_mem r2 x = Some k -> k_parent k <> Some id)).
  { clear -IH. induction l as [|x l IHl]; intros r2 Hl I2 K2 F2.
    - exists r2. split; [reflexivity|]. split; [exact I2|]. split; [exact K2|]. split; [apply later_refl|]. intros x Px. split; [exact Px|]. intros [].
    - assert (Hx : In x (r_arr r2)) by (apply Hl; left; reflexivity). destruct (in_each r2 I2 x Hx) as (k & dk & Hk & Ck).
      assert (ST : exists r2', (match k_parent k with Some p => if p =? id then init_class mk fuel r2 x else Ok r2 | None => Ok r2 end) = Ok r2' /\ Inv r2' /\ r_cache r2' = None /\ later r2 r2' /\
        forall y, pending r2' y -> pending r2 y /\ (y = x -> k_parent k <> Some id)).
      { assert (SK : k_parent k <> Some id -> exists r2', Ok r2 = Ok r2' /\ Inv r2' /\ r_cache r2' = None /\ later r2 r2' /\ forall y, pending r2' y -> pending r2 y /\ (y = x -> k_parent k <> Some id)).
        { intros N. exists r2. split; [reflexivity|]. split; [exact I2|]. split; [exact K2|]. split; [apply later_refl|]. intros y Py. split; [exact Py|]. intros _. exact N. }
        destruct (k_parent k) as [p|] eqn:Ekp; [|apply SK; discriminate]. destruct (Z.eqb_spec p id) as [->|Np]; [|apply SK; congruence].
        destruct (IH r2 x I2 K2 Hx F2) as (r2' & Q1 & Q2 & Q3 & Q4 & Q5). exists r2'. split; [exact Q1|]. split; [exact Q2|]. split; [exact Q3|]. split; [exact Q4|].
        intros y Py. destruct (Q5 y Py) as [Q6 Q7]. split; [exact Q6|]. intros ->. contradiction. }
      destruct ST as (r2' & E2 & I2' & K2' & L2 & P2). destruct (IHl r2') as (r3 & E3 & I3 & K3 & L3 & P3).
      { intros y Hy. rewrite (proj1 L2). apply Hl. right. exact Hy. } { exact I2'. } { exact K2'. } { pose proof (later_count r2 r2' I2 L2). lia. }
      exists r3. split; [cbn [each]; rewrite (deref_ok r2 x k Hk); cbn [bind]; rewrite E2; cbn [bind]; exact E3|]. split; [exact I3|]. split; [exact K3|]. split; [exact (later_trans _ _ _ L2 L3)|].
      intros y Py. destruct (P3 y Py) as [P3a P3b]. destruct (P2 y P3a) as [P2a P2b]. split; [exact P2a|]. intros Hy kk Hkk. destruct (Z.eq_dec y x) as [->|Ny]; [rewrite Hk in Hkk; injection Hkk as <-; exact (P2b eq_refl)|].
      destruct Hy as [Hy|Hy]; [congruence|]. destruct (proj2 L2 y kk (Hl y (or_intror Hy)) Hkk) as (k2 & Q1 & _ & _ & Q2 & _). rewrite <- Q2. exact (P3b Hy k2 Q1). }
  destruct (EACH (r_arr r1) r1 (incl_refl _) I1 K1 ltac:(lia)) as (r3 & E3 & I3 & K3 & L3 & P3). exists r3. split; [exact E3|]. split; [exact I3|]. split; [exact K3|]. split; [exact (later_trans _ _ _ L1 L3)|].
  intros x Px. destruct (P3 x Px) as [P3a P3b]. destruct (PEND x P3a) as [H|(_ & k & Q1 & Q2)]; [exact H|]. destruct (P3b (proj1 P3a) k Q1 Q2).
Qed.

(** ** Finding classes *)
Definition found (r : reg) (id : Z) : Prop := In id (r_arr r) /\ exists c, r_mem r id = Some c /\ 0 <= k_state c.
Lemma arr_nonzero r id : Inv r -> In id (r_arr r) -> id <> 0.
Proof.
  intros I Hid. destruct (in_each r I id Hid) as (c & d & _ & CO). destruct HG as (_ & H & _). rewrite Forall_forall in H. destruct (H d (co_in _ _ _ _ CO)) as [N _]. rewrite (co_id _ _ _ _ CO) in N. exact N.
Qed.
Lemma set_cache_inv r k : Inv r -> match k with None => True | Some (x, b) => b = true /\ found r x end -> Inv (set_cache r k).
Proof.
  intros [a1 a2 a3] Hk. split; [exact a1| |exact Hk]. intros id Hid. destruct (a2 id Hid) as (c & d & Hc & CO). exists c, d. split; [exact Hc|]. destruct CO as [C1 C2 C3 C4 C5 C6 C7 C8 C9 C10]. split; assumption.
Qed.
Lemma find_module_ok r id : Inv r -> forall l, incl l (r_arr r) -> exists o, find_module_class r l id = Ok o /\ (o = Some id /\ found r id \/ o = None /\ ~ (In id l /\ found r id)).
Proof.
  intros I. induction l as [|x l IH]; intros Hl; cbn [find_module_class]; [exists None; split; [reflexivity|]; right; split; [reflexivity|]; intros [[] _]|].
  destruct (IH (fun y Hy => Hl y (or_intror Hy))) as (o & E & IHo). destruct (Z.eqb_spec x id) as [->|N].
  - assert (Hid : In id (r_arr r)) by (apply Hl; left; reflexivity). destruct (in_each r I id Hid) as (c & d & Hc & CO). rewrite (deref_ok r id c Hc). cbn [bind]. unfold CLASS_REGISTERED.
    destruct (Z.leb_spec 0 (k_state c)) as [S|S].
    + exists (Some id). split; [reflexivity|]. left. split; [reflexivity|]. split; [exact Hid|]. exists c. split; assumption.
    + exists o. split; [exact E|]. destruct IHo as [IHo|[-> IHo]]; [left; exact IHo|right]. split; [reflexivity|]. intros (_ & _ & c2 & Q & Qs). rewrite Hc in Q. injection Q as <-. lia.
  - exists o. split; [exact E|]. destruct IHo as [IHo|[-> IHo]]; [left; exact IHo|right]. split; [reflexivity|]. intros ([Q|Q] & F); [contradiction|]. apply IHo. split; assumption.
Qed.
Definition find_post (r : reg) (id : Z) (x : res (option Z * reg)) : Prop :=
  exists o r', x = Ok (o, r') /\ Inv r' /\ r_arr r' = r_arr r /\ r_mem r' = r_mem r /\ (o = Some id /\ found r id \/ o = None /\ ~ found r id).
Lemma search_ok r id : Inv r -> find_post r id (search r id).
Proof.
  intros I. unfold search.
  destruct (array_find_spec (fun y => y - id) (r_arr r) (sorted_search_ready Z.sub (r_arr r) id zsub_pre (strict_sorted Z.sub (r_arr r) (in_sorted r I)))) as [(p & x & s & -> & E & Hz)|(p & s & -> & E & Hlo & Hhi)].
  - replace x with id in E by lia. assert (Hid : In id (r_arr r)) by (rewrite E; apply in_or_app; right; left; reflexivity). destruct (in_each r I id Hid) as (c & d & Hc & CO).
    assert (Eg : aget (r_arr r) (zlen p) = Some id) by (rewrite E; apply aget_mid). rewrite Eg. cbn [opt_res bind]. rewrite (deref_ok r id c Hc). cbn [bind]. unfold CLASS_REGISTERED.
    destruct (Z.ltb_spec (k_state c) 0) as [S|S]; eexists _, _; (split; [reflexivity|]).
    + split; [apply set_cache_inv; [exact I|exact Logic.I]|]. split; [reflexivity|]. split; [reflexivity|]. right. split; [reflexivity|]. intros (_ & c2 & Q & Qs). rewrite Hc in Q. injection Q as <-. lia.
    + assert (F : found r id) by (split; [exact Hid|]; exists c; split; assumption). split; [apply set_cache_inv; [exact I|]; split; [reflexivity|exact F]|]. split; [reflexivity|]. split; [reflexivity|]. left. split; [reflexivity|exact F].
  - exists None, r. split; [reflexivity|]. split; [exact I|]. split; [reflexivity|]. split; [reflexivity|]. right. split; [reflexivity|]. intros [Hid _]. rewrite E in Hid. apply in_app_or in Hid. rewrite Forall_forall in Hlo, Hhi.
    destruct Hid as [Hid|Hid]; [specialize (Hlo id Hid)|specialize (Hhi id Hid)]; cbv beta in *; lia.
Qed.
Lemma find_class_ok r id : Inv r -> find_post r id (find_class r id).
Proof.
  intros I. unfold find_class. destruct (Z.eqb_spec id 0) as [->|N].
  - exists None, r. split; [reflexivity|]. split; [exact I|]. split; [reflexivity|]. split; [reflexivity|]. right. split; [reflexivity|]. intros [Hid _]. exact (arr_nonzero r 0 I Hid eq_refl).
  - pose proof (in_cache r I) as K. destruct (r_cache r) as [[x b]|] eqn:EK; [|apply search_ok; exact I]. destruct K as (-> & Kx). destruct (Z.eqb_spec x id) as [->|Nx]; [|apply search_ok; exact I].
    exists (Some id), r. split; [reflexivity|]. split; [exact I|]. split; [reflexivity|]. split; [reflexivity|]. left. split; [reflexivity|exact Kx].
Qed.
Lemma find_class_ex_ok r id : Inv r -> find_post r id (find_class_ex r id).
Proof.
  intros I. unfold find_class_ex. destruct (Z.eqb_spec id 0) as [->|N].
  - exists None, r. split; [reflexivity|]. split; [exact I|]. split; [reflexivity|]. split; [reflexivity|]. right. split; [reflexivity|]. intros [Hid _]. exact (arr_nonzero r 0 I Hid eq_refl).
  - destruct (find_module_ok r id I (r_arr r) (incl_refl _)) as (o & -> & H). cbn [bind]. destruct H as [[-> F]|[-> F]]; [|apply find_class_ok; exact I].
    exists (Some id), r. split; [reflexivity|]. split; [exact I|]. split; [reflexivity|]. split; [reflexivity|]. left. split; [reflexivity|exact F].
Qed.

(** ** Registering a class *)
Definition adopt (id : Z) (k : class) : class := mkK (k_def k) (k_pid k) (Some id) (k_state k) (k_flags k) (k_pri k) (k_vsize k) (k_vmt k).
Lemma link_ok id : forall l r, (forall x, In x l -> r_mem r x <> None) -> exists r', link_children l id r = Ok r' /\ r_arr r' = r_arr r /\ r_cache r' = r_cache r /\
  forall x, r_mem r' x = match r_mem r x with Some k => if existsb (Z.eqb x) l && (k_pid k =? id) then Some (adopt id k) else Some k | None => None end.
Proof.
  induction l as [|y l IH]; intros r H; cbn [link_children].
  - exists r. split; [reflexivity|]. split; [reflexivity|]. split; [reflexivity|]. intros x. cbn [existsb andb]. destruct (r_mem r x); reflexivity.
  - destruct (r_mem r y) as [k|] eqn:Ey; [|elim (H y (or_introl eq_refl)); exact Ey]. rewrite (deref_ok r y k Ey). cbn [bind]. fold (adopt id k).
    set (r1 := if k_pid k =? id then set_mem r y (adopt id k) else r).
    assert (M1 : forall x, r_mem r1 x = if (x =? y) && (k_pid k =? id) then Some (adopt id k) else r_mem r x).
    { intros x. unfold r1. destruct (k_pid k =? id); [|rewrite andb_false_r; reflexivity]. rewrite andb_true_r. reflexivity. }
    destruct (IH r1) as (r' & E & A & K & M). { intros x Hx. rewrite M1. destruct ((x =? y) && (k_pid k =? id)); [discriminate|]. apply H. right. exact Hx. }
    exists r'. split; [exact E|]. split; [rewrite A; unfold r1; destruct (k_pid k =? id); reflexivity|]. split; [rewrite K; unfold r1; destruct (k_pid k =? id); reflexivity|].
    intros x. rewrite M, M1. cbn [existsb]. destruct (Z.eqb_spec x y) as [->|N]; cbn [andb orb].
    + rewrite Ey. destruct (k_pid k =? id) eqn:Ep; [cbn [adopt k_pid]; rewrite Ep, andb_true_r; destruct (existsb (Z.eqb y) l); reflexivity|rewrite Ep; rewrite ?andb_false_r; reflexivity].
    + reflexivity.
Qed.
Definition quiet (r : reg) : Prop := forall x, ~ pending r x.
Lemma register_known r d : Inv r -> In (d_id d) (r_arr r) -> exists r', register mk r d = Ok r' /\ Inv r' /\ r_arr r' = r_arr r /\ r_mem r' = r_mem r.
Proof.
  intros I Hid. unfold register. destruct (find_class_ex_ok r (d_parent d) I) as (o & r1 & -> & I1 & A1 & M1 & Ho). cbn [bind].
  assert (V : exists v, (if d_vsize d =? DEFAULT_VMT then match o with Some p => do p <- deref r1 p; Ok (k_vsize p) | None => Ok DEFAULT_VMT end else Ok (d_vsize d)) = Ok v).
  { destruct (d_vsize d =? DEFAULT_VMT); [|eexists; reflexivity]. destruct Ho as [[-> (_ & c & Hc & _)]|[-> _]]; [|eexists; reflexivity]. rewrite <- M1 in Hc. rewrite (deref_ok _ _ _ Hc). eexists. reflexivity. }
  destruct V as [v ->]. cbn [bind]. unfold create_class. cbn [set_cache r_arr]. replace (existsb (Z.eqb (d_id d)) (r_arr r1)) with true; [|symmetry; apply existsb_exists; exists (d_id d); split; [rewrite A1; exact Hid|apply Z.eqb_refl]].
  cbn [bind]. exists (set_cache r1 None). split; [reflexivity|]. split; [apply set_cache_inv; [exact I1|exact Logic.I]|]. split; [exact A1|exact M1].
Qed.
Lemma register_new r d : Inv r -> quiet r -> In d G -> ~ In (d_id d) (r_arr r) -> exists r', register mk r d = Ok r' /\ Inv r' /\ quiet r' /\ forall x, In x (r_arr r') <-> x = d_id d \/ In x (r_arr r).
Proof.
  intros I Q Hd Hid. unfold register. destruct (find_class_ex_ok r (d_parent d) I) as (o & r1 & -> & I1 & A1 & M1 & Ho). cbn [bind].
  pose proof HG as (_ & HG2 & _). rewrite Forall_forall in HG2. destruct (HG2 d Hd) as (D0 & Dp & Dv).
  assert (V : exists v, (if d_vsize d =? DEFAULT_VMT then match o with Some p => do p <- deref r1 p; Ok (k_vsize p) | None => Ok DEFAULT_VMT end else Ok (d_vsize d)) = Ok v /\
    DEFAULT_VMT <= v /\ (d_vsize d <> DEFAULT_VMT -> v = d_vsize d) /\ (v = DEFAULT_VMT \/ vmt_size G (d_id d) v)).
  { destruct (Z.eqb_spec (d_vsize d) DEFAULT_VMT) as [E|E].
    - destruct Ho as [[-> (Hp & c & Hc & _)]|[-> _]].
      + rewrite (deref_ok r1 (d_parent d) c) by (rewrite M1; exact Hc). cbn [bind]. exists (k_vsize c). split; [reflexivity|]. destruct (in_each r I _ Hp) as (c2 & d2 & Hc2 & C2). rewrite Hc in Hc2. injection Hc2 as <-.
        split; [exact (co_min _ _ _ _ C2)|]. split; [contradiction|]. destruct (co_size _ _ _ _ C2) as [S|S]; [left; exact S|right]. apply size_parent; assumption.
      + exists DEFAULT_VMT. split; [reflexivity|]. split; [lia|]. split; [contradiction|]. left. reflexivity.
    - exists (d_vsize d). split; [reflexivity|]. split; [exact Dv|]. split; [reflexivity|]. right. apply size_given; assumption. }
  destruct V as (v & -> & V1 & V2 & V3). cbn [bind]. unfold create_class. cbn [set_cache r_arr r_mem].
  replace (existsb (Z.eqb (d_id d)) (r_arr r1)) with false.
  2: { symmetry. apply not_true_iff_false. intros T. apply existsb_exists in T. destruct T as (x & Hx & E). apply Z.eqb_eq in E. subst x. apply Hid. rewrite <- A1. exact Hx. }
  destruct (array_add_spec Z.sub zsub_pre (r_arr r1) (d_id d) (in_sorted r1 I1)) as (a & pos & -> & Sa & _ & Ha). cbn [opt_res bind fst].
  assert (Ha' : forall x, In x a <-> x = d_id d \/ In x (r_arr r)).
  { intros x. rewrite Ha, A1. split; [intros [H|[H _]]; [left; exact H|right; exact H]|intros [H|H]; [left; exact H|right]]. split; [exact H|]. intros E. apply Hid. replace (d_id d) with x by lia. exact H. }
  set (c0 := mkK None 0 None 0 0 0 v (repeat 0 (Z.to_nat v))). set (ra := set_mem (mkReg a (r_mem r1) None) (d_id d) c0).
  assert (Mra : forall x, r_mem ra x = if x =? d_id d then Some c0 else r_mem r x) by (intros x; unfold ra; cbn [set_mem r_mem]; rewrite M1; reflexivity).
  destruct (link_ok (d_id d) a ra) as (rb & E & Ab & Kb & Mb).
  { intros x Hx. rewrite Mra. destruct (Z.eqb_spec x (d_id d)) as [|N]; [discriminate|]. apply Ha' in Hx. destruct Hx as [Hx|Hx]; [contradiction|]. destruct (in_each r I x Hx) as (c & dd & Hc & _). rewrite Hc. discriminate. }
  change (r_arr ra) with a in E, Ab. change (r_cache ra) with (@None (Z * bool)) in Kb. change (r_arr ra) with a. rewrite E. cbn [bind].
  assert (Mb' : forall x, r_mem rb x = if x =? d_id d then Some c0 else match r_mem r x with Some k => if existsb (Z.eqb x) a && (k_pid k =? d_id d) then Some (adopt (d_id d) k) else Some k | None => None end).
  { intros x. rewrite Mb, Mra. destruct (x =? d_id d); [|reflexivity]. cbn [c0 k_pid]. replace (0 =? d_id d) with false by (symmetry; apply Z.eqb_neq; intros Ez; apply D0; symmetry; exact Ez). rewrite andb_false_r. reflexivity. }
  rewrite (deref_ok rb (d_id d) c0) by (rewrite Mb', Z.eqb_refl; reflexivity). cbn [bind c0 k_state k_flags k_pri k_vsize k_vmt].
  set (c := mkK (Some d) (d_parent d) o 0 0 0 v (repeat 0 (Z.to_nat v))). set (rc := set_mem rb (d_id d) c).
  assert (Arc : r_arr rc = a) by exact Ab. assert (Krc : r_cache rc = None) by exact Kb.
  assert (Mid : r_mem rc (d_id d) = Some c) by (unfold rc; cbn [set_mem r_mem]; rewrite Z.eqb_refl; reflexivity).
  assert (Mold : forall x k, In x (r_arr r) -> r_mem r x = Some k -> r_mem rc x = Some (if k_pid k =? d_id d then adopt (d_id d) k else k)).
  { intros x k Hx Hk. assert (N : x <> d_id d) by (intros ->; contradiction). unfold rc. cbn [set_mem r_mem]. rewrite (proj2 (Z.eqb_neq _ _) N), Mb', (proj2 (Z.eqb_neq _ _) N), Hk.
    replace (existsb (Z.eqb x) a) with true; [cbn [andb]; destruct (k_pid k =? d_id d); reflexivity|]. symmetry. apply existsb_exists. exists x. split; [apply Ha'; right; exact Hx|apply Z.eqb_refl]. }
  assert (Irc : Inv rc).
  { split; [rewrite Arc; exact Sa| |rewrite Krc; exact Logic.I]. intros x Hx. rewrite Arc in Hx. apply Ha' in Hx. destruct (Z.eq_dec x (d_id d)) as [->|N].
    - exists c, d. split; [exact Mid|]. split; [reflexivity|exact Hd|reflexivity|reflexivity| | |cbn [c k_vmt k_vsize]; apply zlen_zero; unfold DEFAULT_VMT in V1; lia|exact V1|exact V2|exact V3].
      + cbn [c k_parent]. rewrite Arc. destruct Ho as [[-> (Hp & cp & Hcp & _)]|[-> NF]].
        * split; [reflexivity|]. split; [apply Ha'; right; exact Hp|exact (arr_nonzero r _ I Hp)].
        * destruct (in_dec Z.eq_dec (d_parent d) (r_arr r)) as [Hp|Hp].
          -- right. right. destruct (in_each r I _ Hp) as (q & dq & Hq & Cq). pose proof (Mold _ _ Hp Hq) as Hq2. eexists. split; [exact Hq2|].
             assert (Sq : k_state q = -2). { destruct (co_state _ _ _ _ Cq) as [[S _]|[[S _]|[S _]]]; [elim NF|exact S|elim NF]; (split; [exact Hp|]; exists q; split; [exact Hq|lia]). }
             destruct (k_pid q =? d_id d); exact Sq.
          -- right. left. intros Hp2. apply Ha' in Hp2. destruct Hp2 as [Hp2|Hp2]; contradiction.
      + right. right. split; reflexivity.
    - destruct Hx as [Hx|Hx]; [contradiction|]. destruct (in_each r I x Hx) as (k & dk & Hk & Ck). pose proof (Mold x k Hx Hk) as Hk2. eexists _, dk. split; [exact Hk2|]. destruct Ck as [C1 C2 C3 C4 C5 C6 C7 C8 C9 C10].
      destruct (Z.eqb_spec (k_pid k) (d_id d)) as [Ep|Ep].
      + split; cbn [adopt k_def k_pid k_parent k_state k_vsize k_vmt]; try assumption. split; [congruence|]. split; [rewrite Arc; apply Ha'; left; reflexivity|exact D0].
      + split; try assumption. rewrite Arc. destruct (k_parent k) as [p|].
        * destruct C5 as (Q1 & Q2 & Q3). split; [exact Q1|]. split; [apply Ha'; right; exact Q2|exact Q3].
        * destruct C5 as [C5|[C5|(q & Q1 & Q2)]]; [left; exact C5| |].
          -- right. left. intros Hp. apply Ha' in Hp. destruct Hp as [Hp|Hp]; [congruence|contradiction].
          -- destruct (in_dec Z.eq_dec (d_parent dk) (r_arr r)) as [Hp|Hp].
             ++ right. right. pose proof (Mold _ _ Hp Q1) as Hq2. eexists. split; [exact Hq2|]. destruct (k_pid q =? d_id d); exact Q2.
             ++ right. left. intros Hp2. apply Ha' in Hp2. destruct Hp2 as [Hp2|Hp2]; [congruence|contradiction]. }
  assert (Pend : forall x, pending rc x -> x = d_id d).
  { intros x (Hx & k & K1 & K2 & K3). destruct (Z.eq_dec x (d_id d)) as [|N]; [assumption|]. exfalso. apply (Q x). rewrite Arc in Hx. apply Ha' in Hx. destruct Hx as [Hx|Hx]; [contradiction|].
    destruct (in_each r I x Hx) as (k' & dk & Hk & Ck). rewrite (Mold x k' Hx Hk) in K1. split; [exact Hx|]. exists k'. split; [exact Hk|]. destruct (Z.eqb_spec (k_pid k') (d_id d)) as [Ep|Ep]; injection K1 as <-.
    - exfalso. destruct K3 as [K3|(p & q & K3 & K4 & K5)]; [cbn [adopt k_pid] in K3; congruence|]. cbn [adopt k_parent] in K3. injection K3 as <-. rewrite Mid in K4. injection K4 as <-. cbn [c k_state] in K5. discriminate.
    - split; [exact K2|]. destruct K3 as [K3|(p & q & K3 & K4 & K5)]; [left; exact K3|right]. exists p. pose proof (co_link _ _ _ _ Ck) as CL. rewrite K3 in CL. destruct CL as (_ & Hp & _). destruct (in_each r I p Hp) as (q' & dq & Hq & _).
      exists q'. split; [exact K3|]. split; [exact Hq|]. rewrite (Mold p q' Hp Hq) in K4. injection K4 as <-. destruct (k_pid q' =? d_id d); exact K5. }
  destruct (init_class_ok (S (length (r_arr rc))) rc (d_id d) Irc Krc) as (r' & Er & Ir & Kr & Lr & Pr).
  { rewrite Arc. apply Ha'. left. reflexivity. }
  { unfold count0. pose proof (count_le (waits rc) (fun _ => true) (r_arr rc) (fun _ _ _ => eq_refl)) as T. replace (filter (fun _ => true) (r_arr rc)) with (r_arr rc) in T; [lia|]. clear. induction (r_arr rc) as [|y l IH]; cbn [filter]; [reflexivity|rewrite <- IH; reflexivity]. }
  exists r'. split; [exact Er|]. split; [exact Ir|]. split; [|intros x; rewrite (proj1 Lr), Arc; apply Ha'].
  intros x Px. destruct (Pr x Px) as [P1 P2]. exact (P2 (Pend x P1)).
Qed.
Lemma register_all_ok : forall L r, Inv r -> quiet r -> incl L G -> NoDup (map d_id L) -> (forall d, In d L -> ~ In (d_id d) (r_arr r)) ->
  exists r', register_all mk r L = Ok r' /\ Inv r' /\ quiet r' /\ forall x, In x (r_arr r') <-> In x (map d_id L) \/ In x (r_arr r).
Proof.
  induction L as [|d L IH]; intros r I Q HL ND HN; cbn [register_all map].
  - exists r. split; [reflexivity|]. split; [exact I|]. split; [exact Q|]. intros x. cbn [In]. split; [intros H; right; exact H|intros [[]|H]; exact H].
  - cbn [map] in ND. apply NoDup_cons_iff in ND. destruct ND as [Nd ND]. destruct (register_new r d I Q (HL d (or_introl eq_refl)) (HN d (or_introl eq_refl))) as (r1 & -> & I1 & Q1 & A1). cbn [bind].
    destruct (IH r1 I1 Q1 (fun y Hy => HL y (or_intror Hy)) ND) as (r2 & E2 & I2 & Q2 & A2).
    { intros e He Hin. apply A1 in Hin. destruct Hin as [Hin|Hin]; [apply Nd; rewrite <- Hin; apply in_map; exact He|]. exact (HN e (or_intror He) Hin). }
    exists r2. split; [exact E2|]. split; [exact I2|]. split; [exact Q2|]. intros x. rewrite A2, A1. cbn [In]. split.
    + intros [H|[H|H]]; [left; right; exact H|left; left; symmetry; exact H|right; exact H].
    + intros [[H|H]|H]; [right; left; symmetry; exact H|left; exact H|right; right; exact H].
Qed.
Lemma register_defs : exists r, register_all mk empty_reg G = Ok r /\ Inv r /\ quiet r /\ forall x, In x (r_arr r) <-> In x (map d_id G).
Proof.
  destruct (register_all_ok G empty_reg) as (r & E & I & Q & A).
  - split; [constructor|intros id []|exact Logic.I].
  - intros x [[] _].
  - apply incl_refl.
  - exact (proj1 HG).
  - intros d _ [].
  - exists r. split; [exact E|]. split; [exact I|]. split; [exact Q|]. intros x. rewrite A. cbn [empty_reg r_arr In]. split; [intros [H|[]]; exact H|intros H; left; exact H].
Qed.

(** ** When all definitions are in *)
Section Done.
Context (r : reg) (I : Inv r) (Q : quiet r) (A : forall x, In x (r_arr r) <-> In x (map d_id G)).
Lemma has_class d : In d G -> exists c, r_mem r (d_id d) = Some c /\ class_ok r (d_id d) c d.
Proof.
  intros Hd. destruct (in_each r I (d_id d)) as (c & d' & Hc & C); [apply A; apply in_map; exact Hd|]. exists c. split; [exact Hc|]. replace d with d' at 2; [exact C|]. apply def_unique; [exact (co_in _ _ _ _ C)|exact Hd|exact (co_id _ _ _ _ C)].
Qed.
Lemma ready_in id : ready mk G id -> In id (r_arr r).
Proof. intros H. destruct H as [d Hd _ _]. apply A. apply in_map. exact Hd. Qed.
Lemma parent_ready_inited d : In d G -> (forall c, ready mk G (d_parent d) -> r_mem r (d_parent d) = Some c -> k_state c = 1) -> d_parent d = 0 \/ ready mk G (d_parent d) ->
  forall c, r_mem r (d_id d) = Some c -> k_state c <> 0.
Proof.
  intros Hd HP PAR c Hc S. destruct (has_class d Hd) as (c' & Hc' & C). rewrite Hc in Hc'. injection Hc' as <-. apply (Q (d_id d)). split; [apply A; apply in_map; exact Hd|]. exists c. split; [exact Hc|]. split; [exact S|].
  destruct C as [C1 C2 C3 C4 C5 _ _ _ _ _]. destruct PAR as [P|P]; [left; congruence|]. pose proof (ready_in _ P) as Hp. destruct (in_each r I _ Hp) as (q & dq & Hq & Cq). specialize (HP q P Hq).
  destruct (k_parent c) as [p|].
  - destruct C5 as (-> & _ & _). right. exists (d_parent d), q. split; [reflexivity|]. split; [exact Hq|exact HP].
  - destruct C5 as [C5|[C5|(q2 & Q1 & Q2)]]; [left; congruence|contradiction|]. rewrite Hq in Q1. injection Q1 as <-. lia.
Qed.
Lemma ready_inited : forall id, ready mk G id -> forall c, r_mem r id = Some c -> k_state c = 1.
Proof.
  fix IH 2. intros id H. destruct H as [d Hd W P]. intros c Hc. assert (N : k_state c <> 0).
  { apply (parent_ready_inited d Hd); [|exact P|exact Hc]. intros q Rq Hq. destruct P as [P|P]; [|exact (IH _ P q Hq)]. exfalso. inversion Rq as [e He _ _ Ee]. destruct HG as (_ & HH & _). rewrite Forall_forall in HH. destruct (HH e He) as [Z0 _]. congruence. }
  destruct (has_class d Hd) as (c' & Hc' & C). rewrite Hc in Hc'. injection Hc' as <-. destruct (co_state _ _ _ _ C) as [[S _]|[[_ [S _]]|[S _]]]; [exact S|contradiction|contradiction].
Qed.
Lemma state_ready d c : In d G -> r_mem r (d_id d) = Some c -> (k_state c = 1 <-> ready mk G (d_id d)).
Proof.
  intros Hd Hc. split; [|intros R; exact (ready_inited _ R c Hc)]. intros S. destruct (has_class d Hd) as (c' & Hc' & C). rewrite Hc in Hc'. injection Hc' as <-. destruct (co_state _ _ _ _ C) as [(_ & R & _)|[[? _]|[? _]]]; [exact R|lia|lia].
Qed.
Lemma state_failed d c : In d G -> r_mem r (d_id d) = Some c -> (k_state c = -2 <-> ~ works mk d /\ (d_parent d = 0 \/ ready mk G (d_parent d))).
Proof.
  intros Hd Hc. destruct (has_class d Hd) as (c' & Hc' & C). rewrite Hc in Hc'. injection Hc' as <-. split.
  - intros S. destruct (co_state _ _ _ _ C) as [[? _]|[(_ & W)|[? _]]]; [lia|exact W|lia].
  - intros [W P]. assert (N : k_state c <> 0) by (apply (parent_ready_inited d Hd); [intros q Rq; apply ready_inited; exact Rq|exact P|exact Hc]).
    destruct (co_state _ _ _ _ C) as [(_ & R & _)|[(S & _)|[S _]]]; [|exact S|contradiction]. inversion R as [e He We _ Ee]. rewrite (def_unique e d He Hd Ee) in We. contradiction.
Qed.
(** The chain of a ready class leads to its root. *)
Lemma part_ok : forall id, ready mk G id -> forall x, exists k b, (b = true <-> part_of G id x) /\ forall fuel, (k <= fuel)%nat -> is_part_of fuel r (Some id) x = Ok b.
Proof.
  fix IH 2. intros id H. destruct H as [d Hd W P]. intros x. destruct (has_class d Hd) as (c & Hc & C). destruct (Z.eq_dec (d_id d) x) as [E|E].
  - exists 1%nat, true. split; [split; [intros _; rewrite <- E; apply part_self; exact Hd|reflexivity]|]. intros fuel F. destruct fuel as [|fuel]; [lia|]. cbn [is_part_of]. rewrite (proj2 (Z.eqb_eq _ _) E). reflexivity.
  - assert (STEP : forall fuel, is_part_of (S fuel) r (Some (d_id d)) x = is_part_of fuel r (k_parent c) x) by (intros fuel; cbn [is_part_of]; rewrite (proj2 (Z.eqb_neq _ _) E), (deref_ok _ _ _ Hc); reflexivity).
    assert (INV : part_of G (d_id d) x <-> part_of G (d_parent d) x).
    { split; [|intros H; apply part_parent; assumption]. intros H. inversion H as [e He E1 E2|e y He Hp E1 E2]; subst; [congruence|]. rewrite (def_unique e d He Hd E1) in Hp. exact Hp. }
    destruct P as [P|P].
    + exists 1%nat, false. split.
      * split; [discriminate|]. intros H. apply INV in H. rewrite P in H. exfalso. destruct HG as (_ & HH & _). rewrite Forall_forall in HH. inversion H as [e He E1 E2|e y He Hp E1 E2]; destruct (HH e He) as [Z0 _]; congruence.
      * intros fuel F. destruct fuel as [|fuel]; [lia|]. rewrite STEP. pose proof (co_link _ _ _ _ C) as CL. destruct (k_parent c) as [p|]; [destruct CL as (Q1 & _ & Q2); congruence|]. destruct fuel; reflexivity.
    + destruct (IH _ P x) as (k & b & B & K). exists (S k), b. split; [rewrite B, INV; reflexivity|]. intros fuel F. destruct fuel as [|fuel]; [lia|]. rewrite STEP. pose proof (co_link _ _ _ _ C) as CL.
      pose proof (ready_in _ P) as Hp. destruct (in_each r I _ Hp) as (q & dq & Hq & _).
      destruct (k_parent c) as [p|]; [destruct CL as (-> & _); apply K; lia|]. destruct CL as [CL|[CL|(q2 & Q1 & Q2)]].
      * rewrite CL in Hp. destruct (arr_nonzero r 0 I Hp eq_refl).
      * contradiction.
      * rewrite Hq in Q1. injection Q1 as <-. pose proof (ready_inited _ P q Hq). lia.
Qed.
End Done.
End Init.
