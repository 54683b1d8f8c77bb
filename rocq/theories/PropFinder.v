(** C16, C17: finding the next element in arbitrary bytes. *)
From Verif Require Import Base BaseProofs Vint VintSpec EbmlId EbmlIdSpec Ebml Finder FinderSpec FinderProofs FinderProofs4.

(** A small schema: context 0 is a master holding a Void (ID EC, context 1), an unsigned integer
    (ID 4286, context 2) and itself (ID 1A45DFA3). *)
Definition ex_schema : schema := fun c =>
  if c =? 0 then mkCtx 440786851 KMaster None (Some [mkSem false true 1 0; mkSem true true 2 0; mkSem false false 0 0]) []
  else if c =? 1 then mkCtx 236 KVoid None (Some []) []
  else mkCtx 17030 KUInt None (Some []) [].
(** Closed comparisons by computation. *)
Ltac zcomp := repeat split; solve [apply Z.leb_le; vm_compute; reflexivity | apply Z.ltb_lt; vm_compute; reflexivity | vm_compute; reflexivity].

Definition ex_junk : list Z := repeat 170 16.

(** ** C16: termination, memory safety, staying inside the context *)
Theorem C16_terminates_safely : forall E junk file start orig upper0 allow,
  bytes_ok file -> zlen junk = 16 -> bytes_ok junk -> 0 <= start -> orig <> [] ->
  exists r, find_next E junk file start orig upper0 allow = Some r /\ r <> FBad.
Proof. exact find_next_total. Qed.
Example C16_terminates_safely_ex :
  find_next ex_schema ex_junk [0; 0; 0; 66; 134; 129; 7] 0 [(0, -1)] 0 false =
  Some (FElt (mkHdr (Known 2) 1 1 true 3 5 7) 0 6).
Proof. vm_compute. reflexivity. Qed.
Print Assumptions C16_terminates_safely.

Theorem C16_stays_in_context : forall E junk file start orig upper0 allow k r,
  bytes_ok file -> zlen junk = 16 -> bytes_ok junk -> 0 <= start -> zlen file - start < 2 ^ 32 ->
  open_ctx orig start k -> start <= ctx_end orig k ->
  find_next E junk file start orig upper0 allow = Some r ->
  match r with FElt _ _ q | FNull _ q => start <= q <= ctx_end orig k | FBad => False end.
Proof.
  intros E junk file start orig upper0 allow k r H1 H2 H3 H4 H5 H6 H7 H8.
  pose proof (find_next_sound E junk file start orig upper0 allow k r H1 H2 H3 H4 H5 H6 (or_intror H7) H8) as H.
  destruct r as [u q|h u q|]; [lia| |exact H].
  destruct H as [(id & n & v & m & j & kd & low & Hs & _ & Hn & _ & _ & _ & Hm & _ & _ & Hq & _) Hle].
  pose proof (zlen_nonneg (slice file (h_epos h + n) m)). lia.
Qed.
Example C16_stays_in_context_ex : open_ctx [(0, 10); (0, -1)] 3 0 /\
  find_next ex_schema ex_junk [0; 0; 0; 1; 2; 3; 66; 134; 129; 7; 236; 128] 3 [(0, 10); (0, -1)] 0 false =
  Some (FElt (mkHdr (Known 2) 1 1 true 6 8 10) 0 9).
Proof. split; [split; [cbn; lia|split; [lia|right; right; cbn; lia]]|vm_compute; reflexivity]. Qed.
Print Assumptions C16_stays_in_context.

(** What lies at or after the end of the context has no influence. *)
Theorem C16_ignores_bytes_after_context : forall E junk f g start orig upper0 allow k,
  bytes_ok f -> zlen junk = 16 -> bytes_ok junk -> 0 <= start -> zlen f - start < 2 ^ 32 ->
  open_ctx orig start k -> start <= ctx_end orig k -> same_before (ctx_end orig k) f g ->
  find_next E junk f start orig upper0 allow = find_next E junk g start orig upper0 allow.
Proof. exact find_next_local. Qed.
Example C16_ignores_bytes_after_context_ex : same_before 3 [66; 134; 129; 7] [66; 134; 129; 200] /\
  find_next ex_schema ex_junk [66; 134; 129; 7] 0 [(0, 3)] 0 false = Some (FElt (mkHdr (Known 2) 1 1 true 0 2 4) 0 3).
Proof.
  split; [|vm_compute; reflexivity]. split; [reflexivity|]. intros [|[|[|i]]] H; try reflexivity. lia.
Qed.
Print Assumptions C16_ignores_bytes_after_context.

(** When the search starts after the end of the outermost context these guarantees are lost: the
    stream is read past the end, then placed before the starting position. *)
Theorem C16_start_after_context_refuted : exists file start orig r,
  bytes_ok file /\ open_ctx orig start 0 /\ ctx_end orig 0 < start /\
  find_next ex_schema ex_junk file start orig 0 true = Some r /\
  match r with FElt _ _ q => q < start | _ => False end.
Proof.
  exists [0; 0; 0; 0; 0; 236; 129; 0], 5, [(0, 3)], (FElt (mkHdr (Dummy 236) (-3) 0 true 5 6 3) 0 3).
  split; [apply bytes_ok_forallb; reflexivity|]. split; [split; [cbn; lia|split; [lia|left; reflexivity]]|].
  split; [cbn; lia|]. split; [vm_compute; reflexivity|]. lia.
Qed.
Print Assumptions C16_start_after_context_refuted.

(** ** C17: position contract *)

(** The element returned is described by the bytes at its position. [j] is the context it fits in. *)
Theorem C17_element_matches_bytes : forall E junk file start orig upper0 allow k h u q,
  bytes_ok file -> zlen junk = 16 -> bytes_ok junk -> 0 <= start -> zlen file - start < 2 ^ 32 ->
  open_ctx orig start k -> ctx_end orig k = -1 \/ start <= ctx_end orig k ->
  find_next E junk file start orig upper0 allow = Some (FElt h u q) ->
  exists id n v m j kd low,
    start <= h_epos h /\ q <= zlen file /\
    1 <= n <= 4 /\ zlen (slice file (h_epos h) n) = n /\ be_val (slice file (h_epos h) n) = id /\
    vint_spec (slice file (h_epos h + n) m) v /\ zlen (slice file (h_epos h + n) m) = m /\
    (valid_id_len id n \/ (id < 2 ^ (7 * n) /\ ctx_end orig k <> -1 /\ q <= ctx_end orig k <= h_epos h + 12)) /\
    h_spos h = h_epos h + n /\ q = h_epos h + n + m /\ h_szlen h = m /\
    h_fin h = negb (v =? vint_reserved m) /\ h_dsize h = (if h_fin h then v else -1) /\
    h_end h = (if h_fin h then q + v else ctx_end orig j) /\
    (k <= j)%nat /\ (allow = true \/ h_fin h = false -> j = k) /\
    (h_fin h = true -> ctx_end orig j = -1 \/ h_epos h + v <= ctx_end orig j) /\
    (forall i, (k <= i < j)%nat -> ctx_end orig i <> -1 /\ ctx_end orig i < h_epos h + v) /\
    lookup E id allow (skipn j orig) 0 kd low /\ u = upper0 + Z.of_nat j + Z.max 0 low /\ kind_id E (h_kind h) = id /\
    (h_kind h = kd \/ (allow = true /\ h_kind h = Dummy id /\ ~ legal_size (kind_class E kd) (size_of_vint v m))) /\
    (allow = false -> is_known (h_kind h) = true) /\
    legal_size (kind_class E (h_kind h)) (size_of_vint v m).
Proof.
  intros E junk file start orig upper0 allow k h u q H1 H2 H3 H4 H5 H6 H7 H8.
  destruct (proj1 (find_next_sound E junk file start orig upper0 allow k _ H1 H2 H3 H4 H5 H6 H7 H8)) as (id & n & v & m & j & kd & low & Hs).
  exists id, n, v, m, j, kd, low. rewrite <- !validate_legal.
  destruct Hs as (A1 & A2 & A3 & A4 & A5 & A6 & A7 & A8 & A9 & A10 & A11 & A12 & Hs). rewrite <- A12.
  destruct Hs as (B1 & B2 & B3 & B4 & B5 & B6 & B7 & B8 & B9 & B10 & B11 & B12).
  rewrite not_true_iff_false. repeat (split; [first [assumption | reflexivity]|]). assumption.
Qed.
Example C17_element_matches_bytes_ex :
  find_next ex_schema ex_junk [7; 7; 7; 236; 68; 0; 9; 9] 0 [(0, -1)] 3 true =
    Some (FElt (mkHdr (Known 1) 2 1024 true 3 4 1030) 3 6) /\
  find_next ex_schema ex_junk [7; 7; 26; 69; 223; 163; 255] 0 [(0, 20); (0, -1)] 3 false =
    Some (FElt (mkHdr (Known 0) 1 (-1) false 2 6 20) 3 7).
Proof. split; vm_compute; reflexivity. Qed.
Print Assumptions C17_element_matches_bytes.

(** An element of the context at the current position is returned, with its exact fields. *)
Theorem C17_finds_element_at_position : forall E junk file start orig upper0 allow k id n v m,
  bytes_ok file -> zlen junk = 16 -> bytes_ok junk -> 0 <= start -> zlen file - start < 2 ^ 32 ->
  open_ctx orig start k -> child_at E file orig k start id n v m ->
  exists s c e, nth_error orig k = Some (c, e) /\ names E c id s /\
    find_next E junk file start orig upper0 allow =
    Some (FElt (if v =? vint_reserved m then mkHdr (Known (s_ctx s)) m (-1) false start (start + n) e
                else mkHdr (Known (s_ctx s)) m v true start (start + n) (start + n + m + v))
           (upper0 + Z.of_nat k) (start + n + m)).
Proof.
  intros E junk file start orig upper0 allow k id n v m H1 H2 H3 H4 H5 H6 H7.
  assert (Hin : ctx_end orig k = -1 \/ start <= ctx_end orig k).
  { destruct H7 as ((_ & Hn & _ & Hm) & c & e & Hnth & _ & _ & He). unfold ctx_end. rewrite Hnth.
    pose proof (zlen_nonneg (slice file start n)). pose proof (zlen_nonneg (slice file (start + n) m)). lia. }
  destruct (child_first E junk file start orig upper0 allow k start id n v m H1 H2 H3 H4 H5 H6 Hin ltac:(lia) H7) as (r & Er & Hr).
  destruct r as [u q|h u q|]; [lia| |contradiction].
  destruct Hr as [Hs [Hlt|(s & c & e & G1 & G2 & G5)]]; [lia|].
  exists s, c, e. repeat (split; [assumption|]). cbv zeta in G5. destruct G5 as (-> & -> & ->). rewrite Er.
  destruct (v =? vint_reserved m); reflexivity.
Qed.
Lemma C17_ex_child : child_at ex_schema [66; 134; 129; 7] [(0, 4)] 0 0 17030 2 1 1.
Proof.
  split.
  - split; [|split; [reflexivity|split; [|reflexivity]]].
    + split; [apply bytes_ok_forallb; reflexivity|]. split; [|reflexivity]. zcomp.
    + split; [apply bytes_ok_forallb; reflexivity|]. zcomp.
  - exists 0, 4. split; [reflexivity|].
    split; [exists (mkSem true true 2 0); eexists; split; [reflexivity|]; split; [reflexivity|left; right; left; reflexivity]|]. split; [|right; lia].
    intros s (l & Hl & H & Hin). injection Hl as <-. destruct Hin as [[<-|[<-|[<-|[]]]]|[_ []]]; try (vm_compute in H; discriminate H). vm_compute; intros Hc; discriminate Hc.
Qed.
Example C17_finds_element_at_position_ex :
  find_next ex_schema ex_junk [66; 134; 129; 7] 0 [(0, 4)] 0 false = Some (FElt (mkHdr (Known 2) 1 1 true 0 2 4) 0 3).
Proof. vm_compute. reflexivity. Qed.
Print Assumptions C17_finds_element_at_position.

(** No element of the context is jumped over. *)
Theorem C17_skips_no_element : forall E junk file start orig upper0 allow k h u q,
  bytes_ok file -> zlen junk = 16 -> bytes_ok junk -> 0 <= start -> zlen file - start < 2 ^ 32 ->
  open_ctx orig start k -> ctx_end orig k = -1 \/ start <= ctx_end orig k ->
  find_next E junk file start orig upper0 allow = Some (FElt h u q) ->
  forall p id n v m, start <= p < h_epos h -> ~ child_at E file orig k p id n v m.
Proof.
  intros E junk file start orig upper0 allow k h u q H1 H2 H3 H4 H5 H6 H7 H8 p id n v m Hp Hc.
  destruct (child_first E junk file start orig upper0 allow k p id n v m H1 H2 H3 H4 H5 H6 H7 ltac:(lia) Hc) as (r & Er & Hr).
  rewrite H8 in Er. apply some_inj in Er. subst r. destruct Hr as [_ [Hr|(s & c & e & _ & _ & G)]]; [lia|].
  cbv zeta in G. destruct G as (-> & _). cbn [h_epos] in Hp. lia.
Qed.
Example C17_skips_no_element_ex :
  find_next ex_schema ex_junk [64; 2; 236; 128; 66; 134; 129; 7] 0 [(0, -1)] 0 false = Some (FElt (mkHdr (Known 1) 1 0 true 2 3 4) 0 4).
Proof. vm_compute. reflexivity. Qed.
Print Assumptions C17_skips_no_element.

(** After arbitrary junk, an element with 12 bytes of room in file and contexts is not missed. *)
Theorem C17_resynchronises : forall E junk file start orig upper0 allow p id n v m,
  bytes_ok file -> zlen junk = 16 -> bytes_ok junk -> 0 <= start -> zlen file - start < 2 ^ 32 ->
  open_ctx orig start 0 -> start <= p -> child_at E file orig 0 p id n v m ->
  p + 12 <= zlen file -> encloses orig (p + 12) ->
  exists h u q, find_next E junk file start orig upper0 allow = Some (FElt h u q) /\ start <= h_epos h <= p.
Proof.
  intros E junk file start orig upper0 allow p id n v m H1 H2 H3 H4 H5 H6 H7 H8 H9 H10.
  assert (Hin : ctx_end orig 0 = -1 \/ start <= ctx_end orig 0) by (destruct H6 as (H6 & _); destruct (H10 O H6); [left|right]; lia).
  destruct (child_first E junk file start orig upper0 allow 0 p id n v m H1 H2 H3 H4 H5 H6 Hin H7 H8) as (r & Er & Hr).
  destruct r as [u q|h u q|]; [|exists h, u, q; split; [exact Er|]|contradiction].
  - exfalso. apply Hr. auto.
  - destruct Hr as [Hs [Hlt|(s & c & e & _ & _ & G)]]; [lia|]. cbv zeta in G. destruct G as (-> & _). cbn [h_epos] in *. lia.
Qed.
Example C17_resynchronises_ex :
  find_next ex_schema ex_junk ([64; 2; 3; 255; 1] ++ [66; 134; 129; 7] ++ repeat 0 20) 0 [(0, 40)] 0 false =
  Some (FElt (mkHdr (Known 2) 1 1 true 5 7 9) 0 8) /\ encloses [(0, 40)] (5 + 12).
Proof. split; [vm_compute; reflexivity|]. intros [|i] Hi; [right; cbn; lia|cbn in Hi; lia]. Qed.
Print Assumptions C17_resynchronises.

(** Without that room an element can be missed: a four-byte ID is assembled from junk and the end of
    the context, and the search stops there. *)
Theorem C17_resynchronises_near_end_refuted : exists file p id n v m u q,
  bytes_ok file /\ child_at ex_schema file [(0, 4)] 0 p id n v m /\ 0 <= p /\
  find_next ex_schema ex_junk file 0 [(0, 4)] 0 false = Some (FNull u q).
Proof.
  exists [31; 0; 236; 128], 2, 236, 1, 0, 1, 0, 4. split; [apply bytes_ok_forallb; reflexivity|].
  split; [|split; [lia|vm_compute; reflexivity]].
  split.
  - split; [|split; [reflexivity|split; [|reflexivity]]].
    + split; [apply bytes_ok_forallb; reflexivity|]. split; [|reflexivity]. zcomp.
    + split; [apply bytes_ok_forallb; reflexivity|]. zcomp.
  - exists 0, 4. split; [reflexivity|].
    split; [exists (mkSem false true 1 0); eexists; split; [reflexivity|]; split; [reflexivity|left; left; reflexivity]|]. split; [|right; lia].
    intros s (l & Hl & H & Hin). injection Hl as <-. destruct Hin as [[<-|[<-|[<-|[]]]]|[_ []]]; try (vm_compute in H; discriminate H). reflexivity.
Qed.
Print Assumptions C17_resynchronises_near_end_refuted.

(** The element may end after its context: the check leaves out the header. *)
Theorem C17_element_inside_context_refuted : exists file h u q,
  bytes_ok file /\ find_next ex_schema ex_junk file 0 [(0, 5)] 0 false = Some (FElt h u q) /\ h_fin h = true /\ u = 0 /\ 5 < h_end h.
Proof.
  exists [236; 132; 1; 2; 3; 4], (mkHdr (Known 1) 1 4 true 0 1 6), 0, 2.
  split; [apply bytes_ok_forallb; reflexivity|]. split; [vm_compute; reflexivity|]. cbn. lia.
Qed.
Print Assumptions C17_element_inside_context_refuted.

(** It does so by less than the length of its header. *)
Theorem C17_element_overhang : forall E junk file start orig upper0 allow k h u q,
  bytes_ok file -> zlen junk = 16 -> bytes_ok junk -> 0 <= start -> zlen file - start < 2 ^ 32 ->
  open_ctx orig start k -> ctx_end orig k = -1 \/ start <= ctx_end orig k ->
  find_next E junk file start orig upper0 allow = Some (FElt h u q) -> h_fin h = true ->
  exists j, (k <= j)%nat /\ (ctx_end orig j = -1 \/ h_end h - (q - h_epos h) <= ctx_end orig j) /\ 2 <= q - h_epos h <= 12.
Proof.
  intros E junk file start orig upper0 allow k h u q H1 H2 H3 H4 H5 H6 H7 H8 Hf.
  destruct (proj1 (find_next_sound E junk file start orig upper0 allow k _ H1 H2 H3 H4 H5 H6 H7 H8)) as
   (id & n & v & m & j & kd & low & _ & _ & Hn & _ & _ & Hv & Hm & _ & _ & Hq & _ & _ & _ & He & Hkj & _ & Hc & _).
  exists j. split; [exact Hkj|]. specialize (Hc Hf). rewrite Hf in He. destruct Hv as (_ & Hv & _). lia.
Qed.
Example C17_element_overhang_ex :
  find_next ex_schema ex_junk [236; 132; 1; 2; 3; 4] 0 [(0, 5)] 0 false = Some (FElt (mkHdr (Known 1) 1 4 true 0 1 6) 0 2).
Proof. vm_compute. reflexivity. Qed.
Print Assumptions C17_element_overhang.

(** At the very end of a context the length of an earlier ID is reused: the element is reported one
    byte too early, at bytes that are no ID at all. *)
Theorem C17_stale_id_length_refuted : exists file h u q,
  bytes_ok file /\ find_next ex_schema ex_junk file 0 [(0, 4)] 0 false = Some (FElt h u q) /\
  ~ exists n, valid_id_len (be_val (slice file (h_epos h) n)) n /\ h_spos h = h_epos h + n.
Proof.
  exists [64; 0; 236; 128], (mkHdr (Known 1) 1 0 true 1 3 4), 0, 4.
  split; [apply bytes_ok_forallb; reflexivity|]. split; [vm_compute; reflexivity|].
  intros (n & (Hn & Hv) & Hs). cbn [h_epos h_spos] in *. replace n with 2 in * by lia.
  change (be_val (slice [64; 0; 236; 128] 1 2)) with 236 in Hv. change (2 ^ (7 * 2)) with 16384 in Hv. lia.
Qed.
Print Assumptions C17_stale_id_length_refuted.
