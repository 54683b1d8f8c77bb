From Coq Require Import Sorted.
From Verif Require Import Base BaseProofs Vint VintSpec VintProofs EbmlId EbmlIdSpec Ebml Finder FinderSpec FinderProofs FinderProofs2 FinderProofs3 FinderProofs4 PropFinder MkSchema Tree MkParts MkPartsSpec.
Open Scope Z_scope.

Lemma open0 pos : open_ctx chain pos 0.
Proof. split; [cbn; lia|]. split; [intros i H; lia|left; reflexivity]. Qed.
Lemma end0 : ctx_end chain 0 = -1. Proof. reflexivity. Qed.
Lemma encl pos : encloses chain pos.
Proof. intros i H. destruct i; [left; reflexivity|cbn in H; lia]. Qed.

(** What the top level names. *)
Lemma names_top id s : names mk cStream id s -> top_level id /\ c_id (mk (s_ctx s)) = id /\
  (id = EBML_HEADER -> s_ctx s = cHead) /\ (id = SEGMENT -> s_ctx s = cSegment).
Proof.
  intros (l & E & I & H). vm_compute in E. injection E as <-. destruct H as [H|[_ H]]; cbn [In] in H; destruct H as [H|[H|[]]]; subst s; vm_compute in I; subst id;
    unfold top_level; (split; [vm_compute; auto|split; [reflexivity|split; intros Q; try reflexivity; vm_compute in Q; discriminate]]).
Qed.
Lemma names_seg : exists s, names mk cStream SEGMENT s /\ s_ctx s = cSegment.
Proof. exists (mkSem true false cSegment 0). split; [|reflexivity]. eexists. split; [vm_compute; reflexivity|]. split; [reflexivity|left; vm_compute; auto]. Qed.
Lemma names_head : exists s, names mk cStream EBML_HEADER s /\ s_ctx s = cHead.
Proof. exists (mkSem true false cHead 0). split; [|reflexivity]. eexists. split; [vm_compute; reflexivity|]. split; [reflexivity|left; vm_compute; auto]. Qed.
Lemma lookup_top id kd low : lookup mk id false chain 0 kd low -> top_level id.
Proof.
  intros H. inversion H; subst; try discriminate.
  - apply (proj1 (names_top _ s ltac:(exists l; auto))).
  - apply (proj1 (names_top _ s ltac:(exists l; auto))).
  - match goal with H : lookup _ _ _ [] _ _ _ |- _ => inversion H end.
Qed.

Lemma id_length_ok id n : valid_id_len id n -> id_length id = n.
Proof.
  intros ((A & B) & C). unfold id_length. assert (n = 1 \/ n = 2 \/ n = 3 \/ n = 4) as [->|[->|[->| ->]]] by lia;
    [change (2 ^ (7 * 1)) with 128 in C; change (2 ^ (7 * 1 + 1)) with 256 in C
    |change (2 ^ (7 * 2)) with 16384 in C; change (2 ^ (7 * 2 + 1)) with 32768 in C
    |change (2 ^ (7 * 3)) with 2097152 in C; change (2 ^ (7 * 3 + 1)) with 4194304 in C
    |change (2 ^ (7 * 4)) with 268435456 in C; change (2 ^ (7 * 4 + 1)) with 536870912 in C];
    destruct (id <? 256) eqn:E1; try lia; destruct (id <? 65536) eqn:E2; try lia; destruct (id <? 16777216) eqn:E3; lia.
Qed.
Lemma csl_ok v m : 1 <= m <= 8 -> 0 <= v < vint_reserved m -> coded_size_length v m true = m.
Proof.
  intros M V. rewrite coded_size_length_forced by lia. unfold vint_reserved in V. unfold coded_size_length. cbn [negb Z.eqb andb].
  assert (m = 1 \/ m = 2 \/ m = 3 \/ m = 4 \/ 5 <= m) as [->|[->|[->|[->|Q]]]] by lia;
    [change (2 ^ (7 * 1)) with 128 in V|change (2 ^ (7 * 2)) with 16384 in V|change (2 ^ (7 * 3)) with 2097152 in V|change (2 ^ (7 * 4)) with 268435456 in V|];
    unfold u8; destruct (v <? 127) eqn:E1; cbn; try lia; destruct (v <? 16383) eqn:E2; cbn; try lia; destruct (v <? 2097151) eqn:E3; cbn; try lia; destruct (v <? 268435455) eqn:E4; cbn; lia.
Qed.

Section Scan.
Context (file : list Z) (junk : Z -> list Z) (upper : Z -> Z).
Context (Hok : bytes_ok file) (HJ : forall p, zlen (junk p) = 16 /\ bytes_ok (junk p)) (Hsz : zlen file < 2 ^ 32).

(** The fields of an element and the bytes it was made from. *)
Definition elt_of (h : hdr) (id n v m p : Z) : Prop :=
  header_at file (h_epos h) id n v m /\ p = h_epos h + n + m /\ p <= zlen file /\ kind_id mk (h_kind h) = id /\ h_spos h = h_epos h + n /\ h_szlen h = m /\
  h_fin h = negb (v =? vint_reserved m) /\ h_dsize h = (if h_fin h then v else -1) /\ (h_fin h = true -> h_end h = p + v).

Lemma next_total allow pos : 0 <= pos -> exists r, next_elt file junk upper allow pos = Ok r.
Proof.
  intros P. destruct (C16_terminates_safely mk (junk pos) file pos chain (upper pos) allow Hok (proj1 (HJ pos)) (proj2 (HJ pos)) P ltac:(discriminate)) as (r & E & N).
  unfold next_elt. rewrite E. destruct r; [eauto|eauto|contradiction].
Qed.
Lemma next_elt_of allow pos h p : 0 <= pos -> next_elt file junk upper allow pos = Ok (Some h, p) ->
  pos <= h_epos h /\ exists id n v m, elt_of h id n v m p /\ (allow = false -> top_level id).
Proof.
  intros P E. unfold next_elt in E. destruct (find_next _ _ _ _ _ _ _) as [[u q|h' u q|]|] eqn:F; try discriminate. injection E as <- <-.
  destruct (C17_element_matches_bytes mk (junk pos) file pos chain (upper pos) allow 0 h' u q Hok (proj1 (HJ pos)) (proj2 (HJ pos)) P ltac:(lia) (open0 pos) (or_introl end0) F)
    as (id & n & v & m & j & kd & low & A1 & A2 & A3 & A4 & A5 & A6 & A7 & A8 & A9 & A10 & A11 & A12 & A13 & A14 & A15 & A16 & A17 & A18 & A19 & A20 & A21 & _).
  split; [exact A1|]. exists id, n, v, m. destruct A8 as [A8|(_ & A8 & _)]; [|contradiction (A8 end0)].
  split.
  - unfold elt_of. split; [|split; [lia|split; [exact A2|split; [exact A21|split; [exact A9|split; [exact A11|split; [exact A12|split; [exact A13|]]]]]]]].
    + unfold header_at. split; [|split; [exact A4|split; [exact A6|exact A7]]]. split; [|split; [rewrite A4; exact A8|exact A5]].
      unfold slice. apply Forall_forall. intros x Hx. apply (proj1 (Forall_forall _ _) Hok). rewrite <- (firstn_skipn (Z.to_nat (h_epos h')) file).
      apply in_or_app. right. rewrite <- (firstn_skipn (Z.to_nat n) (skipn (Z.to_nat (h_epos h')) file)). apply in_or_app. left. exact Hx.
    + intros F1. rewrite F1 in A14. exact A14.
  - intros ->. destruct j as [|j]; [exact (lookup_top id kd low A19)|].
    replace (skipn (S j) chain) with (@nil pctx) in A19 by (destruct j; reflexivity). inversion A19.
Qed.
Lemma elt_nm h id n v m p : elt_of h id n v m p -> 1 <= n <= 4 /\ 1 <= m <= 8 /\ 0 <= v < 2 ^ (7 * m) /\ valid_id_len id n.
Proof.
  intros (((_ & V & _) & L & (_ & M & W & _) & L2) & _). rewrite L in V. rewrite L2 in M, W. pose proof (proj1 V). auto.
Qed.
Lemma elt_full h id n v m p : elt_of h id n v m p -> h_fin h = true -> full_size h = n + m + v /\ pos_data h = p /\ h_end h = p + v.
Proof.
  intros H F. destruct (elt_nm _ _ _ _ _ _ H) as (N & M & V & I). destruct H as (_ & Hp & _ & K & S & L & Fi & D & E). unfold full_size, pos_data. rewrite F in *.
  rewrite K, D, S, L, (id_length_ok _ _ I). assert (v <> vint_reserved m) by (intros ->; rewrite Z.eqb_refl in Fi; discriminate).
  rewrite csl_ok by (unfold vint_reserved in *; lia). split; [lia|split; [lia|apply E; reflexivity]].
Qed.
Lemma elt_pos_data h id n v m p : elt_of h id n v m p -> pos_data h = p.
Proof.
  intros H. destruct (h_fin h) eqn:F; [apply (elt_full _ _ _ _ _ _ H F)|]. destruct H as (_ & Hp & _ & K & S & L & _). unfold pos_data. rewrite F. lia.
Qed.
Lemma next_eof allow pos : zlen file <= pos -> next_elt file junk upper allow pos = Ok (None, pos).
Proof.
  intros P. unfold next_elt, find_next. cbn [adjust chain]. destruct (HJ pos) as [HJ1 _].
  replace (2 * length file + 4)%nat with (S (2 * length file + 3)) by lia. cbn [fne_loop].
  assert (E : id_loop (S (length file)) file pos (chain_end [(cStream, INVALID_FILEPOS)]) (mkF (junk pos) 0 0 0 pos) = Some (IdEof pos)).
  { cbn [id_loop f_buf f_ri f_rs f_pos f_pidl]. unfold rd. destruct (junk pos) as [|b l]; [cbn in HJ1; discriminate|]. cbn [nth_error Z.to_nat Z.min Z.compare scan_id chain_end].
    replace (INVALID_FILEPOS =? pos + 0) with false by (unfold INVALID_FILEPOS, zlen in *; lia). cbn [Z.leb Z.compare].
    unfold rd_byte. replace (nth_error file (Z.to_nat pos)) with (@None Z); [reflexivity|]. symmetry. apply nth_error_None. unfold zlen in P. lia. }
  unfold chain. rewrite E. reflexivity.
Qed.

Lemma bind_ok {A B} (r : res A) (f : A -> res B) b : bind r f = Ok b -> exists a, r = Ok a /\ f a = Ok b.
Proof. destruct r as [| | |a]; cbn; intros E; try discriminate. eauto. Qed.

Lemma seek_sound : forall fuel head pos head' seg p, 0 <= pos -> seek_segment file junk upper fuel head pos = Ok (head', seg, p) ->
  pos <= h_epos seg /\ (exists n v m, elt_of seg SEGMENT n v m p) /\
  (head' = head \/ (pos <= h_epos head' /\ exists n v m q, elt_of head' EBML_HEADER n v m q /\ q <= h_epos seg)).
Proof.
  induction fuel as [|fuel IH]; intros head pos head' seg p P E; [discriminate|]. cbn [seek_segment] in E. apply bind_ok in E as ([o q] & E1 & E).
  destruct o as [h|]; [|discriminate]. destruct (next_elt_of false pos h q P E1) as (Le & id & n & v & m & He & Ht).
  pose proof (elt_nm _ _ _ _ _ _ He) as (N & M & _). pose proof He as (_ & Hq & _ & K & _).
  cbv zeta in E. destruct (is_type ID_SEGMENT h) eqn:T.
  - injection E as <- <- <-. unfold is_type in T. apply Z.eqb_eq in T. rewrite K in T. change ID_SEGMENT with SEGMENT in T.
    split; [exact Le|]. split; [exists n, v, m; subst id; exact He|].
    replace (is_type ID_HEAD h) with false; [left; reflexivity|]. unfold is_type. rewrite K, T. reflexivity.
  - apply IH in E; [|lia]. destruct E as (A & B & C). split; [lia|]. split; [exact B|]. destruct C as [C|(C & C2)]; [|right; split; [lia|exact C2]].
    destruct (is_type ID_HEAD h) eqn:T2; [|left; exact C]. subst head'. right. split; [exact Le|]. unfold is_type in T2. apply Z.eqb_eq in T2. rewrite K in T2.
    exists n, v, m, q. split; [|exact A]. rewrite T2 in He. exact He.
Qed.
Lemma seek_total : forall fuel head pos, 0 <= pos -> zlen file - pos < Z.of_nat fuel -> pos <= zlen file ->
  seek_segment file junk upper fuel head pos = Null \/ exists r, seek_segment file junk upper fuel head pos = Ok r.
Proof.
  induction fuel as [|fuel IH]; intros head pos P F G; [lia|].
  cbn [seek_segment]. destruct (next_total false pos P) as ([o q] & E1). rewrite E1. cbn [bind]. destruct o as [h|]; [|left; reflexivity].
  destruct (next_elt_of false pos h q P E1) as (Le & id & n & v & m & He & Ht). pose proof (elt_nm _ _ _ _ _ _ He) as (N & M & _). destruct He as (_ & Hq & Hz & _).
  cbv zeta. destruct (is_type ID_SEGMENT h); [right; eexists; reflexivity|]. apply IH; lia.
Qed.

Definition head_in (head : option hdr) (pos : Z) : Prop :=
  match head with Some h => 0 <= h_epos h /\ pos <= zlen file /\ exists id n v m q, elt_of h id n v m q /\ q <= pos | None => True end.
Definition head_pos (head : option hdr) (pos : Z) : Z := match head with Some h => h_epos h | None => pos end.

Lemma skip_sound seg n v m p next p' : 0 <= h_epos seg -> elt_of seg SEGMENT n v m p -> skip_segment file junk upper seg p = Ok (next, p') ->
  head_in next p' /\ p <= p' /\ h_epos seg + n + m + (if v =? vint_reserved m then 0 else v) <= head_pos next p' /\ (match next with Some h => h_fin seg = false | None => True end).
Proof.
  intros Z0 He E. pose proof (elt_nm _ _ _ _ _ _ He) as (N & M & V & _). pose proof He as (_ & Hp & Hz & _ & _ & _ & Hf & _ & Hend).
  unfold skip_segment in E. destruct (h_fin seg) eqn:F.
  - injection E as <- <-. cbn [head_in head_pos]. rewrite (Hend eq_refl). destruct (v =? vint_reserved m); [discriminate|]. split; [exact I|]. split; [lia|split; [lia|exact I]].
  - destruct (v =? vint_reserved m); [|discriminate]. apply bind_ok in E as ([o q] & E1 & E). destruct o as [h|]; injection E as <- <-.
    + destruct (next_elt_of true p h q ltac:(lia) E1) as (Le & id & n2 & v2 & m2 & He2 & _). rewrite (elt_pos_data _ _ _ _ _ _ He2).
      pose proof (elt_nm _ _ _ _ _ _ He2) as (N2 & M2 & _). pose proof He2 as (_ & Hq & Hz2 & _). cbn [head_in head_pos].
      split; [split; [lia|split; [lia|]]|split; [lia|split; [lia|reflexivity]]]. exists id, n2, v2, m2, q. split; [exact He2|lia].
    + cbn [head_in head_pos]. split; [exact I|]. assert (p <= q); [|split; [lia|split; [lia|exact I]]].
      unfold next_elt in E1. destruct (find_next _ _ _ _ _ _ _) as [[u q'|h' u q'|]|] eqn:F1; try discriminate. injection E1 as ->.
      pose proof (find_next_sound mk (junk p) file p chain (upper p) true 0 _ Hok (proj1 (HJ p)) (proj2 (HJ p)) ltac:(lia) ltac:(unfold small_file; lia) (open0 p) (or_introl end0) F1) as Q. cbv iota in Q. lia.
Qed.

Definition good (s : start) : Prop := cut_at file (st_hpos s) (st_hsize s) (st_spos s) (st_ssize s).
Definition before (a b : start) : Prop := seg_before file (st_spos a) (st_hpos b).
Lemma head_in_next pos o q : 0 <= pos -> next_elt file junk upper false pos = Ok (o, q) -> head_in o q /\ 0 <= q /\ pos <= head_pos o q.
Proof.
  intros P E. destruct o as [h|].
  - destruct (next_elt_of false pos h q P E) as (Le & id & n & v & m & He & Ht). pose proof (elt_nm _ _ _ _ _ _ He) as (N & M & _). pose proof He as (_ & Hq & Hz & _).
    cbn [head_in head_pos]. split; [|lia]. split; [lia|split; [lia|]]. exists id, n, v, m, q. split; [exact He|lia].
  - cbn [head_in head_pos]. assert (pos <= q); [|split; [exact I|lia]].
    unfold next_elt in E. destruct (find_next _ _ _ _ _ _ _) as [[u q'|h' u q'|]|] eqn:F1; try discriminate. injection E as ->.
    pose proof (find_next_sound mk (junk pos) file pos chain (upper pos) false 0 _ Hok (proj1 (HJ pos)) (proj2 (HJ pos)) P ltac:(unfold small_file; lia) (open0 pos) (or_introl end0) F1) as Q. cbv iota in Q. lia.
Qed.
Lemma scan_sound : forall fuel head pos acc r, 0 <= pos -> head_in head pos -> scan file junk upper fuel head pos acc = Ok r ->
  exists l, r = acc ++ l /\ Forall good l /\ StronglySorted before l /\ Forall (fun s => head_pos head pos <= st_hpos s) l.
Proof.
  induction fuel as [|fuel IH]; intros head pos acc r P Hh E.
  { destruct head; [discriminate|]. injection E as <-. exists []. rewrite app_nil_r. repeat split; constructor. }
  destruct head as [head|]; [|injection E as <-; exists []; rewrite app_nil_r; repeat split; constructor].
  cbn [scan] in E. apply bind_ok in E as ([[head' seg] p] & E1 & E). destruct (seek_sound _ _ _ _ _ _ P E1) as (Ls & (n & v & m & He) & C).
  destruct Hh as (H0 & Hz & (id0 & n0 & v0 & m0 & q0 & He0 & Hq0)). pose proof (elt_nm _ _ _ _ _ _ He) as (N & M & V & _). pose proof He as (Hhd & Hp & Hpz & _ & _ & _ & Hf & Hd & _).
  assert (HH : exists n' v' m' q', kind_id mk (h_kind head') = EBML_HEADER -> elt_of head' EBML_HEADER n' v' m' q' /\ q' <= h_epos seg).
  { destruct C as [->|(_ & n' & v' & m' & q' & A & B)]; [|exists n', v', m', q'; auto].
    exists n0, v0, m0, q0. intros K. pose proof He0 as (_ & _ & _ & K0 & _). rewrite <- K, K0. split; [exact He0|lia]. }
  assert (Hpos : h_epos head <= h_epos head' /\ 0 <= h_epos head').
  { destruct C as [->|(C & _)]; [lia|]. pose proof (elt_nm _ _ _ _ _ _ He0) as (? & ? & _). destruct He0 as (_ & Hq & _). lia. }
  destruct (is_type ID_HEAD head') eqn:T.
  - apply bind_ok in E as ([next p'] & E2 & E). assert (Z0 : 0 <= h_epos seg) by lia. destruct (skip_sound _ _ _ _ _ _ _ Z0 He E2) as (S1 & S2 & S3 & S4).
    unfold is_type in T. apply Z.eqb_eq in T. destruct HH as (n' & v' & m' & q' & HH). destruct (HH T) as (He' & Hq'). clear HH.
    set (s := St _ _ _ _) in E.
    assert (G : good s).
    { unfold good, s. cbn [st_hpos st_hsize st_spos st_ssize]. pose proof He' as (Hhd' & Hp' & _ & _ & _ & _ & Hf' & _ & _). exists n', v', m', n, v, m.
      split; [exact Hhd'|]. split; [exact Hhd|]. split; [lia|]. split.
      - unfold head_size. destruct (h_fin head') eqn:F; [|destruct (v' =? vint_reserved m'); [reflexivity|discriminate]].
        destruct (v' =? vint_reserved m'); [discriminate|]. apply (elt_full _ _ _ _ _ _ He' F).
      - intros Hv. unfold segment_size. replace (h_fin seg) with true by (rewrite Hf; lia). apply (elt_full _ _ _ _ _ _ He). rewrite Hf. lia. }
    assert (W : exists o q, 0 <= q /\ head_in o q /\ h_epos seg + n + m + (if v =? vint_reserved m then 0 else v) <= head_pos o q /\ scan file junk upper fuel o q (acc ++ [s]) = Ok r).
    { destruct next as [hn|]; [exists (Some hn), p'; split; [lia|auto]|]. apply bind_ok in E as ([o q] & E3 & E). exists o, q.
      assert (Z1 : 0 <= p') by lia. destruct (head_in_next _ _ _ Z1 E3) as (Q1 & Q2 & Q3). cbn [head_pos] in S3. split; [exact Q2|split; [exact Q1|split; [lia|exact E]]]. }
    destruct W as (o & q & W1 & W2 & W3 & W4). destruct (IH _ _ _ _ W1 W2 W4) as (l & -> & L1 & L2 & L3). exists (s :: l). rewrite <- app_assoc. split; [reflexivity|].
    split; [constructor; assumption|]. assert (B : Forall (before s) l).
    { eapply Forall_impl; [|exact L3]. intros b Hb. unfold before, s. cbn [st_spos]. exists n, v, m. split; [exact Hhd|]. cbn in Hb. lia. }
    split; [constructor; assumption|]. constructor; [cbn [head_pos s st_hpos]; lia|]. eapply Forall_impl; [|exact L3]. intros b Hb. cbn [head_pos]. cbn in Hb.
    assert (h_epos head' <= h_epos seg) by (pose proof He' as (_ & Hp' & _); pose proof (elt_nm _ _ _ _ _ _ He') as (? & ? & _); lia). destruct (v =? vint_reserved m); lia.
  - apply IH in E; [|lia|]. 2:{ split; [lia|split; [lia|]]. destruct C as [->|(_ & n' & v' & m' & q' & A & B)]; [exists id0, n0, v0, m0, q0; split; [exact He0|lia]|exists EBML_HEADER, n', v', m', q'; split; [exact A|lia]]. }
    destruct E as (l & -> & L1 & L2 & L3). exists l. split; [reflexivity|]. split; [exact L1|]. split; [exact L2|]. eapply Forall_impl; [|exact L3]. intros b Hb. cbn [head_pos] in *. lia.
Qed.
Lemma scan_total : forall fuel head pos acc, 0 <= pos -> head_in head pos -> match head with Some _ => zlen file - pos < Z.of_nat fuel | None => True end ->
  scan file junk upper fuel head pos acc = Null \/ exists r, scan file junk upper fuel head pos acc = Ok r.
Proof.
  induction fuel as [|fuel IH]; intros head pos acc P Hh F.
  { destruct head as [h|]; [destruct Hh; lia|right; eexists; reflexivity]. }
  destruct head as [head|]; [|right; eexists; reflexivity]. cbn [scan]. destruct Hh as (H0 & Hz & (id0 & n0 & v0 & m0 & q0 & He0 & Hq0)).
  destruct (seek_total (S (length file)) head pos P ltac:(unfold zlen in *; lia) Hz) as [E1|([[head' seg] p] & E1)]; rewrite E1; cbn [bind]; [left; reflexivity|].
  destruct (seek_sound _ _ _ _ _ _ P E1) as (Ls & (n & v & m & He) & C). pose proof (elt_nm _ _ _ _ _ _ He) as (N & M & V & _). pose proof He as (Hhd & Hp & Hpz & _ & _ & _ & Hf & Hd & _).
  destruct (is_type ID_HEAD head') eqn:T.
  - assert (S0 : exists next p', skip_segment file junk upper seg p = Ok (next, p')).
    { unfold skip_segment. destruct (h_fin seg); [eauto|]. destruct (next_total true p ltac:(lia)) as ([o q] & E3). rewrite E3. cbn [bind]. destruct o; eauto. }
    destruct S0 as (next & p' & E2). rewrite E2. cbn [bind]. assert (Z0 : 0 <= h_epos seg) by lia. destruct (skip_sound _ _ _ _ _ _ _ Z0 He E2) as (S1 & S2 & S3 & S4).
    destruct next as [hn|]; [apply IH; [lia|exact S1|lia]|]. assert (Z1 : 0 <= p') by lia. destruct (next_total false p' Z1) as ([o q] & E3). rewrite E3. cbn [bind fst snd].
    destruct (head_in_next _ _ _ Z1 E3) as (Q1 & Q2 & Q3). apply IH; [exact Q2|exact Q1|]. destruct o as [hn|]; [|exact I].
    destruct (next_elt_of false p' hn q Z1 E3) as (Le & id & n2 & v2 & m2 & He2 & _). pose proof (elt_nm _ _ _ _ _ _ He2) as (N2 & M2 & _). destruct He2 as (_ & Hq & _). lia.
  - apply IH; [lia| |lia]. destruct C as [->|(Cp & n' & v' & m' & q' & A & B)]; [split; [lia|split; [lia|exists id0, n0, v0, m0, q0; split; [exact He0|lia]]]|].
    split; [lia|split; [lia|exists EBML_HEADER, n', v', m', q'; split; [exact A|lia]]].
Qed.
Lemma segments_total : segments file junk upper = Null \/ exists l, segments file junk upper = Ok l /\ Forall good l /\ StronglySorted before l.
Proof.
  unfold segments. destruct (next_total false 0 ltac:(lia)) as ([o q] & E). rewrite E. cbn [bind fst snd]. destruct (head_in_next 0 o q ltac:(lia) E) as (H1 & H2 & H3).
  assert (F : match o with Some _ => zlen file - q < Z.of_nat (S (length file)) | None => True end) by (destruct o; [unfold zlen; lia|exact I]).
  destruct (scan_total _ o q [] H2 H1 F) as [S|(l & S)]; [left; exact S|right]. exists l. split; [exact S|]. destruct (scan_sound _ _ _ _ _ H2 H1 S) as (l' & -> & A & B & _). auto.
Qed.
End Scan.

Lemma slice_app pre x k n : 0 <= k -> slice (pre ++ x) (zlen pre + k) n = slice x k n.
Proof.
  intros K. unfold slice. f_equal. rewrite skipn_app. rewrite skipn_all2 by (unfold zlen; lia). cbn [app]. f_equal. unfold zlen. lia.
Qed.
Lemma slice_prefix a x : slice (a ++ x) 0 (zlen a) = a.
Proof. unfold slice. cbn [Z.to_nat skipn]. rewrite firstn_app. unfold zlen. rewrite Nat2Z.id, Nat.sub_diag, firstn_all. cbn [firstn]. apply app_nil_r. Qed.
Lemma header_app pre x k id n v m : 0 <= k -> 0 <= n -> header_at (pre ++ x) (zlen pre + k) id n v m <-> header_at x k id n v m.
Proof.
  intros K N. unfold header_at. rewrite slice_app by lia. replace (zlen pre + k + n) with (zlen pre + (k + n)) by lia. rewrite slice_app by lia. reflexivity.
Qed.
Lemma head_bytes_at pre bs tail id size : head_bytes id size bs -> exists n m, zlen bs = n + m /\ header_at (pre ++ bs ++ tail) (zlen pre) id n size m /\ size <> vint_reserved m.
Proof.
  intros (i & s & -> & I & S & R). exists (zlen i), (zlen s). rewrite zlen_app. split; [reflexivity|]. split; [|exact R].
  replace (zlen pre) with (zlen pre + 0) by lia. assert (0 <= zlen i) by (unfold zlen; lia). apply header_app; [lia|lia|]. unfold header_at. rewrite <- app_assoc. rewrite slice_prefix.
  replace (0 + zlen i) with (zlen i + 0) by lia. rewrite slice_app by lia. rewrite slice_prefix. auto.
Qed.
