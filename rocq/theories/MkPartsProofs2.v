From Coq Require Import Sorted.
From Verif Require Import Base BaseProofs Vint VintSpec VintProofs EbmlId EbmlIdSpec Ebml Finder FinderSpec FinderProofs FinderProofs2 FinderProofs3 FinderProofs4 PropFinder MkSchema Tree MkParts MkPartsSpec MkPartsProofs.
Open Scope Z_scope.

Lemma slice_short x rest k n : 0 <= k -> 0 <= n -> k + n <= zlen x -> slice (x ++ rest) k n = slice x k n.
Proof.
  intros K N L. unfold slice. unfold zlen in L. rewrite skipn_app, firstn_app. rewrite skipn_length. replace (Z.to_nat n - (length x - Z.to_nat k))%nat with O by lia.
  rewrite firstn_O. apply app_nil_r.
Qed.
Lemma header_short x rest k id n v m : 0 <= k -> k + 12 <= zlen x -> header_at (x ++ rest) k id n v m -> header_at x k id n v m.
Proof.
  intros K L (A & B & C & D). pose proof A as (_ & (N & _) & _). rewrite B in N. pose proof C as (_ & M & _). rewrite D in M.
  unfold header_at. rewrite <- (slice_short x rest k n), <- (slice_short x rest (k + n) m) by lia. auto.
Qed.
Definition ctx_of (id : Z) : Z := if id =? EBML_HEADER then cHead else cSegment.
Definition the_hdr (id n m size pos : Z) : hdr := mkHdr (Known (ctx_of id)) m size true pos (pos + n) (pos + n + m + size).
Lemma child_here pre bs tail id size : id = EBML_HEADER \/ id = SEGMENT -> head_bytes id size bs ->
  exists n m, zlen bs = n + m /\ child_at mk (pre ++ bs ++ tail) chain 0 (zlen pre) id n size m /\ size <> vint_reserved m /\ 1 <= n /\ 1 <= m.
Proof.
  intros Hid Hb. destruct (head_bytes_at pre bs tail id size Hb) as (n & m & L & Hh & R). exists n, m. split; [exact L|].
  assert (NM : 1 <= n /\ 1 <= m).
  { destruct Hh as ((_ & (N & _) & _) & B & (_ & M & _) & D). lia. }
  split; [|split; [exact R|exact NM]]. split; [exact Hh|]. exists cStream, (-1). split; [reflexivity|]. split; [|split; [|left; reflexivity]].
  - destruct Hid as [-> | ->]; [destruct names_head as (s & H & _)|destruct names_seg as (s & H & _)]; exists s; exact H.
  - intros s Hs. destruct (names_top _ _ Hs) as (_ & _ & A & B). unfold size_of_vint. replace (size =? vint_reserved m) with false by lia.
    destruct Hid as [E|E]; [rewrite (A E)|rewrite (B E)]; exact I.
Qed.
Lemma ctx_of_names id s : id = EBML_HEADER \/ id = SEGMENT -> names mk cStream id s -> s_ctx s = ctx_of id.
Proof. intros Hid Hs. destruct (names_top _ _ Hs) as (_ & _ & A & B). destruct Hid as [-> | ->]; [rewrite (A eq_refl)|rewrite (B eq_refl)]; reflexivity. Qed.

Section Concat.
Context (file : list Z) (junk : Z -> list Z) (upper : Z -> Z).
Context (Hok : bytes_ok file) (HJ : forall p, zlen (junk p) = 16 /\ bytes_ok (junk p)) (Hsz : zlen file < 2 ^ 32).

Lemma find_here pre bs tail id size : file = pre ++ bs ++ tail -> id = EBML_HEADER \/ id = SEGMENT -> head_bytes id size bs ->
  exists n m, zlen bs = n + m /\ size <> vint_reserved m /\ next_elt file junk upper false (zlen pre) = Ok (Some (the_hdr id n m size (zlen pre)), zlen pre + zlen bs).
Proof.
  intros F Hid Hb. destruct (child_here pre bs tail id size Hid Hb) as (n & m & L & Hc & R & NM). rewrite <- F in Hc. exists n, m. split; [exact L|]. split; [exact R|].
  assert (P : 0 <= zlen pre) by (unfold zlen; lia).
  destruct (C17_finds_element_at_position mk (junk (zlen pre)) file (zlen pre) chain (upper (zlen pre)) false 0 id n size m Hok (proj1 (HJ _)) (proj2 (HJ _)) P ltac:(lia) (open0 _) Hc)
    as (s & c & e & Hn & Hs & E). injection Hn as <- <-. rewrite (ctx_of_names id s Hid Hs) in E. replace (size =? vint_reserved m) with false in E by lia.
  unfold next_elt. rewrite E. unfold the_hdr. f_equal. f_equal. lia.
Qed.

Lemma seek_body : forall k fuel pre f rest head pos, file = pre ++ m_body f ++ m_seg f ++ m_data f ++ rest -> mkv_ok f ->
  zlen pre <= pos <= zlen pre + zlen (m_body f) -> zlen pre + zlen (m_body f) - pos <= Z.of_nat k -> (k < fuel)%nat ->
  exists n m, zlen (m_seg f) = n + m /\ zlen (m_data f) <> vint_reserved m /\
   seek_segment file junk upper fuel head pos = Ok (head, the_hdr SEGMENT n m (zlen (m_data f)) (zlen pre + zlen (m_body f)), zlen pre + zlen (m_body f) + zlen (m_seg f)).
Proof.
  induction k as [|k IH]; intros fuel pre f rest head pos F Ho Hp Hk Hf; (destruct fuel as [|fuel]; [lia|]); cbn [seek_segment];
    set (sp := zlen pre + zlen (m_body f)) in *;
    pose proof Ho as (H1 & H2 & H3 & H4 & Hq & H12);
    destruct (child_here (pre ++ m_body f) (m_seg f) (m_data f ++ rest) SEGMENT (zlen (m_data f)) (or_intror eq_refl) H2) as (n & m & L & Hc & R & NM);
    rewrite <- app_assoc, <- F, zlen_app in Hc; fold sp in Hc;
    assert (P : 0 <= pos) by (unfold zlen in *; lia);
    assert (P12 : sp + 12 <= zlen file) by (rewrite F, !zlen_app; unfold sp; assert (0 <= zlen rest) by (unfold zlen; lia); lia);
    destruct (child_first mk (junk pos) file pos chain (upper pos) false 0 sp SEGMENT n (zlen (m_data f)) m Hok (proj1 (HJ _)) (proj2 (HJ _)) P ltac:(unfold small_file; lia) (open0 _) (or_introl end0) ltac:(lia) Hc) as (r & Er & Hr);
    (destruct r as [u q|h u q|]; [exfalso; destruct Hr as (_ & Hr); apply Hr; split; [reflexivity|split; [exact P12|apply encl]]| |contradiction]);
    assert (En : next_elt file junk upper false pos = Ok (Some h, q)) by (unfold next_elt; rewrite Er; reflexivity);
    rewrite En; cbn [bind]; destruct Hr as (Hle & [Hlt|(s & c & e & Hn & Hs & Hh & _ & Hqq)]).
  - exfalso. lia.
  - exists n, m. split; [exact L|]. split; [exact R|]. injection Hn as <- <-. cbv zeta in Hh. replace (zlen (m_data f) =? vint_reserved m) with false in Hh by lia. cbn [negb] in Hh.
    rewrite (ctx_of_names _ s (or_intror eq_refl) Hs) in Hh. subst h q. cbv zeta.
    replace (is_type ID_SEGMENT _) with true by reflexivity. replace (is_type ID_HEAD _) with false by reflexivity. unfold the_hdr. do 2 f_equal. lia.
  - destruct (next_elt_of file junk upper Hok HJ Hsz false pos h q P En) as (_ & id & n2 & v2 & m2 & He & Ht). specialize (Ht eq_refl).
    pose proof (elt_nm file _ _ _ _ _ _ He) as (N2 & M2 & _). pose proof He as (Hh & Hqe & _ & K & _).
    assert (Hh2 : header_at (m_body f ++ m_seg f ++ m_data f) (h_epos h - zlen pre) id n2 v2 m2).
    { apply (header_short _ rest); [lia|rewrite !zlen_app; unfold sp in *; lia|]. apply (header_app pre); [lia|lia|]. rewrite <- !app_assoc, <- F. replace (zlen pre + (h_epos h - zlen pre)) with (h_epos h) by lia. exact Hh. }
    destruct (Hq (h_epos h - zlen pre) id n2 v2 m2 ltac:(unfold sp in *; lia) Hh2 Ht) as (Q1 & Q2 & Q3).
    unfold is_type. rewrite K. change ID_HEAD with EBML_HEADER. change ID_SEGMENT with SEGMENT. replace (id =? EBML_HEADER) with false by lia. replace (id =? SEGMENT) with false by lia. cbv zeta.
    apply (IH fuel pre f rest head q F Ho); unfold sp in *; lia.
  - exists n, m. split; [exact L|]. split; [exact R|]. injection Hn as <- <-. cbv zeta in Hh. replace (zlen (m_data f) =? vint_reserved m) with false in Hh by lia. cbn [negb] in Hh.
    rewrite (ctx_of_names _ s (or_intror eq_refl) Hs) in Hh. subst h q. cbv zeta.
    replace (is_type ID_SEGMENT _) with true by reflexivity. replace (is_type ID_HEAD _) with false by reflexivity. unfold the_hdr. do 2 f_equal. lia.
Qed.

Fixpoint starts (pos : Z) (fs : list mkv) : list start :=
  match fs with
  | [] => []
  | f :: fs => St pos (zlen (m_head f) + zlen (m_body f)) (pos + zlen (m_head f) + zlen (m_body f)) (zlen (m_seg f) + zlen (m_data f)) :: starts (pos + zlen (mkv_bytes f)) fs
  end.
Lemma full_of id n m size pos bs : id = EBML_HEADER \/ id = SEGMENT -> head_bytes id size bs -> zlen bs = n + m -> 1 <= m <= 8 -> n = 4 -> 0 <= size < vint_reserved m -> full_size (the_hdr id n m size pos) = zlen bs + size.
Proof.
  intros Hid Hb L M N R. unfold full_size, the_hdr. cbn [h_kind h_dsize h_szlen h_fin].
  assert (K : kind_id mk (Known (ctx_of id)) = id) by (destruct Hid as [-> | ->]; reflexivity). rewrite K.
  assert (I4 : id_length id = 4) by (destruct Hid as [-> | ->]; reflexivity). rewrite I4, csl_ok by lia. lia.
Qed.
Lemma hd4 id n v m bs pos : id = EBML_HEADER \/ id = SEGMENT -> header_at bs pos id n v m -> n = 4 /\ 1 <= m <= 8 /\ 0 <= v <= vint_reserved m.
Proof.
  intros Hid ((_ & V & _) & B & (_ & M & W & _) & D). rewrite B in V. rewrite D in M, W.
  pose proof (id_length_ok _ _ V) as I. assert (I4 : id_length id = 4) by (destruct Hid as [-> | ->]; reflexivity).
  split; [lia|]. split; [lia|]. unfold vint_reserved in *. lia.
Qed.

Lemma scan_concat : forall fs pre acc fuel, file = pre ++ concat (map mkv_bytes fs) -> Forall mkv_ok fs -> (length fs <= fuel)%nat ->
  (do r <- next_elt file junk upper false (zlen pre); scan file junk upper fuel (fst r) (snd r) acc) = Ok (acc ++ starts (zlen pre) fs).
Proof.
  induction fs as [|f fs IH]; intros pre acc fuel F Ho Hf; cbn [map concat] in F.
  - rewrite app_nil_r in F. rewrite (next_eof file junk upper HJ) by (rewrite F; lia). cbn [bind fst snd starts]. rewrite app_nil_r. destruct fuel; reflexivity.
  - apply Forall_inv in Ho as O1. apply Forall_inv_tail in Ho as O2. destruct fuel as [|fuel]; [cbn [length] in Hf; lia|].
    pose proof O1 as (H1 & H2 & H3 & H4 & Hq & H12). set (rest := concat (map mkv_bytes fs)) in *.
    assert (F1 : file = pre ++ m_head f ++ (m_body f ++ m_seg f ++ m_data f ++ rest)) by (rewrite F; unfold mkv_bytes; rewrite <- !app_assoc; reflexivity).
    destruct (find_here pre (m_head f) _ EBML_HEADER (zlen (m_body f)) F1 (or_introl eq_refl) H1) as (n & m & L & R & En). rewrite En. cbn [bind fst snd scan].
    assert (F2 : file = (pre ++ m_head f) ++ m_body f ++ m_seg f ++ m_data f ++ rest) by (rewrite F1, <- !app_assoc; reflexivity).
    assert (Lb : 0 <= zlen (m_body f) /\ 0 <= zlen pre /\ 0 <= zlen (m_head f) /\ 0 <= zlen rest /\ 0 <= zlen (m_data f) /\ 0 <= zlen (m_seg f)) by (unfold zlen; lia).
    assert (Lf : zlen file = zlen pre + zlen (m_head f) + zlen (m_body f) + zlen (m_seg f) + zlen (m_data f) + zlen rest) by (rewrite F1, !zlen_app; lia).
    destruct (seek_body (length (m_body f)) (S (length file)) (pre ++ m_head f) f rest (the_hdr EBML_HEADER n m (zlen (m_body f)) (zlen pre)) (zlen pre + zlen (m_head f)) F2 O1) as (n2 & m2 & L2 & R2 & Es);
      [rewrite zlen_app; lia|rewrite zlen_app; unfold zlen; lia|unfold zlen in *; lia|].
    rewrite Es. cbn [bind]. rewrite zlen_app in *. replace (is_type ID_HEAD _) with true by reflexivity.
    assert (C1 : n = 4 /\ 1 <= m <= 8 /\ 0 <= zlen (m_body f) <= vint_reserved m).
    { destruct (next_elt_of file junk upper Hok HJ Hsz false (zlen pre) _ _ (proj1 (proj2 Lb)) En) as (_ & id & n3 & v3 & m3 & He & _).
      pose proof (elt_nm file _ _ _ _ _ _ He). destruct He as (Hh & Hp & _ & K & S0 & M0 & FF & DD & _). cbn [the_hdr h_epos h_spos h_szlen h_kind h_fin h_dsize] in *. change (kind_id mk (Known (ctx_of EBML_HEADER))) with EBML_HEADER in K. subst id m3.
      destruct (hd4 _ _ _ _ _ _ (or_introl eq_refl) Hh) as (-> & Q1 & Q2). lia. }
    assert (C2 : n2 = 4 /\ 1 <= m2 <= 8 /\ 0 <= zlen (m_data f) <= vint_reserved m2).
    { assert (F3 : file = (pre ++ m_head f ++ m_body f) ++ m_seg f ++ (m_data f ++ rest)) by (rewrite F1, <- !app_assoc; reflexivity).
      destruct (head_bytes_at (pre ++ m_head f ++ m_body f) (m_seg f) (m_data f ++ rest) SEGMENT (zlen (m_data f)) H2) as (n4 & m4 & L4 & Hh4 & R4).
      destruct (hd4 _ _ _ _ _ _ (or_intror eq_refl) Hh4) as (-> & Q1 & Q2).
      destruct (find_here (pre ++ m_head f ++ m_body f) (m_seg f) _ SEGMENT (zlen (m_data f)) F3 (or_intror eq_refl) H2) as (n5 & m5 & L5 & R5 & E5).
      destruct (seek_sound file junk upper Hok HJ Hsz (S (length file)) _ (zlen pre + zlen (m_head f)) _ _ _ ltac:(lia) Es) as (_ & (n6 & v6 & m6 & He) & _).
      pose proof (elt_nm file _ _ _ _ _ _ He). destruct He as (Hh & Hp & _ & K & S0 & M0 & FF & DD & _). cbn [the_hdr h_epos h_spos h_szlen h_kind h_fin h_dsize] in *. subst m6.
      destruct (hd4 _ _ _ _ _ _ (or_intror eq_refl) Hh) as (-> & Q3 & Q4). lia. }
    unfold skip_segment. cbn [the_hdr h_fin h_end bind]. cbv beta iota.
    set (s := St _ _ _ _).
    assert (Es' : s = St (zlen pre) (zlen (m_head f) + zlen (m_body f)) (zlen pre + zlen (m_head f) + zlen (m_body f)) (zlen (m_seg f) + zlen (m_data f))).
    { unfold s, head_size, segment_size. f_equal.
      - apply (full_of EBML_HEADER n m (zlen (m_body f)) (zlen pre) (m_head f) (or_introl eq_refl) H1); lia.
      - apply (full_of SEGMENT n2 m2 (zlen (m_data f)) _ (m_seg f) (or_intror eq_refl) H2); lia. }
    replace (zlen pre + zlen (m_head f) + zlen (m_body f) + n2 + m2 + zlen (m_data f)) with (zlen (pre ++ mkv_bytes f)) by (unfold mkv_bytes; rewrite !zlen_app; lia).
    rewrite (IH (pre ++ mkv_bytes f) (acc ++ [s]) fuel); [|rewrite F, <- app_assoc; reflexivity|exact O2|cbn [length] in Hf; lia].
    rewrite <- app_assoc. cbn [app starts]. rewrite zlen_app, Es'. reflexivity.
Qed.

Lemma segments_concat fs : file = concat (map mkv_bytes fs) -> Forall mkv_ok fs -> segments file junk upper = Ok (starts 0 fs).
Proof.
  intros F Ho. unfold segments. apply (scan_concat fs [] [] (S (length file)) F Ho).
  rewrite F. clear -Ho. induction fs as [|f fs IH]; [cbn; lia|]. pose proof (Forall_inv Ho) as (_ & _ & _ & _ & _ & H). apply Forall_inv_tail in Ho as O2. specialize (IH O2).
  cbn [map concat length]. rewrite app_length. unfold mkv_bytes at 1. rewrite !app_length. unfold zlen in H. lia.
Qed.
End Concat.

Lemma slice_mid (pre x rest : list Z) : slice (pre ++ x ++ rest) (zlen pre) (zlen x) = x.
Proof. replace (zlen pre) with (zlen pre + 0) by lia. rewrite slice_app by (unfold zlen; lia). apply slice_prefix. Qed.
Lemma starts_cut : forall fs pre, 
  map (fun s => slice (pre ++ concat (map mkv_bytes fs)) (st_hpos s) (st_hsize s) ++ slice (pre ++ concat (map mkv_bytes fs)) (st_spos s) (st_ssize s)) (starts (zlen pre) fs) = map mkv_bytes fs.
Proof.
  induction fs as [|f fs IH]; intros pre; [reflexivity|]. cbn [map concat starts st_hpos st_hsize st_spos st_ssize]. f_equal.
  - set (rest := concat _). unfold mkv_bytes.
    replace (slice _ (zlen pre) _) with (m_head f ++ m_body f).
    2: { rewrite <- zlen_app. replace (pre ++ (m_head f ++ m_body f ++ m_seg f ++ m_data f) ++ rest) with (pre ++ (m_head f ++ m_body f) ++ (m_seg f ++ m_data f) ++ rest) by (rewrite <- !app_assoc; reflexivity). symmetry. apply slice_mid. }
    replace (slice _ (zlen pre + _ + _) _) with (m_seg f ++ m_data f).
    2: { rewrite <- !zlen_app. replace (pre ++ (m_head f ++ m_body f ++ m_seg f ++ m_data f) ++ rest) with (((pre ++ m_head f) ++ m_body f) ++ (m_seg f ++ m_data f) ++ rest) by (rewrite <- !app_assoc; reflexivity). symmetry. apply slice_mid. }
    rewrite <- !app_assoc. reflexivity.
  - rewrite <- zlen_app, app_assoc. apply IH.
Qed.
