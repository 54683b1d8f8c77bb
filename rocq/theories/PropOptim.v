(** C141: tracks optimised by their common header. *)
From Verif Require Import Base BaseProofs FinderSpec Tree Stream TreeRead Arr TreeProofs3 Block BlockSpec BlockProofs BlockProofs2 BlockProofs3 Frame BlockProofs4 BlockProofs5 BlockProofs6 Clean CleanSpec CleanProofs Optim OptimSpec OptimProofs PropBlock.

(** The header found is the longest beginning that all frames of the track share, whatever headers were stripped from
    them in the file; without a frame it is empty. *)
Theorem C141_header t h0 moved s bs fss pos : track_header t h0 -> Forall2 (stored s h0) bs fss -> Forall has_bytes fss ->
  exists h, common_header t moved s bs pos = Ok h /\ (fss <> [] -> shared h (concat fss)) /\ (fss = [] -> h = []).
Proof.
  intros T F B. unfold common_header. rewrite (look_all_ok t h0 moved s bs fss T F B). cbn [bind]. eexists. split; [reflexivity|].
  pose proof (header_spec (map (mkHB true false) fss)) as H. rewrite seen_all in H. unfold header_of in H. split.
  - intros N. destruct (concat fss) eqn:E; [|exact H]. exfalso. destruct fss as [|fs fss]; [contradiction|]. inversion B as [|x y (B1 & _) _]; subst.
    cbn [concat] in E. apply app_eq_nil in E as (-> & _). apply B1. reflexivity.
  - intros ->. exact H.
Qed.

(** Every block of the track, written with that header and read again, gives the same frames. *)
Theorem C141_lossless t h0 moved s bs fss pos h scope w fs : track_header t h0 -> Forall2 (stored s h0) bs fss -> Forall has_bytes fss ->
  common_header t moved s bs pos = Ok h -> In fs fss ->
  0 <= b_track w < 16384 -> -32768 <= b_time w < 32768 -> match scope with Some x => Z.odd x = true | None => True end ->
  holds (b_sizes w) (b_data w) fs -> lace_ok (b_lacing w) (without h fs) -> (b_lacing w = 2 -> zlen fs < 256) ->
  map (app h) (without h fs) = fs /\ round_trip w (strip scope h) h (without h fs).
Proof.
  intros T F B E I Ht Hm Hs Hh Hl H2. destruct (C141_header t h0 moved s bs fss pos T F B) as (h' & E' & S & _). rewrite E' in E. injection E as ->.
  assert (N : fss <> []) by (intros ->; destruct I). destruct (S N) as (A & _).
  assert (R : map (app h) (without h fs) = fs).
  { unfold without. rewrite map_map. rewrite <- (map_id fs) at 2. apply map_ext_in. intros f Hf. apply begins_back.
    rewrite Forall_forall in A. apply A. apply in_concat. exists fs. auto. }
  split; [exact R|]. apply C31_lossless; auto; [rewrite R; exact Hh|]. intros L. unfold without. rewrite zlen_map. auto.
Qed.

(** No longer header would do: one that all frames begin with is a beginning of it. *)
Theorem C141_longest t h0 moved s bs fss pos h x : track_header t h0 -> Forall2 (stored s h0) bs fss -> Forall has_bytes fss -> fss <> [] ->
  common_header t moved s bs pos = Ok h -> (forall fs f, In fs fss -> In f fs -> begins x f) -> begins x h.
Proof.
  intros T F B N E H. destruct (C141_header t h0 moved s bs fss pos T F B) as (h' & E' & S & _). rewrite E' in E. injection E as ->.
  apply (S N). apply Forall_forall. intros f Hf. apply in_concat in Hf as (fs & I & J). apply (H fs f I J).
Qed.

(** The test for compressed blocks says no exactly for the tracks whose blocks can be read with no more than a header put
    back: of a block that was read it never says yes, and it fails exactly where reading fails. *)
Theorem C141_test t : (is_compressed t = Ok false <-> exists r, find_header ERR_NOT_SUPPORTED ERR_NOT_SUPPORTED ERR_INVALID_DATA t = Ok (inr r)) /\
  (is_compressed t = Ok true <-> exists e, find_header ERR_NOT_SUPPORTED ERR_NOT_SUPPORTED ERR_INVALID_DATA t = Ok (inl e)) /\
  (is_compressed t = Null <-> t = Some []) /\
  (forall b moved s pos b' q, b_set b = false -> read_data b t moved s pos = Ok (ERR_NONE, b', q) -> is_compressed t = Ok false).
Proof.
  assert (A : (is_compressed t = Ok false <-> exists r, find_header ERR_NOT_SUPPORTED ERR_NOT_SUPPORTED ERR_INVALID_DATA t = Ok (inr r)) /\
    (is_compressed t = Ok true <-> exists e, find_header ERR_NOT_SUPPORTED ERR_NOT_SUPPORTED ERR_INVALID_DATA t = Ok (inl e)) /\ (is_compressed t = Null <-> t = Some [])).
  { unfold is_compressed, find_header. destruct t as [[|e [|f l]]|].
    - repeat split; try discriminate; try (intros (r & H); discriminate).
    - destruct (negb (en_children e)); [repeat split; try discriminate; try (intros (r & H); discriminate); eexists; reflexivity|].
      destruct (en_compr e) as [c|]; [|repeat split; try discriminate; try (intros (r & H); discriminate); eexists; reflexivity].
      destruct (_ =? COMP_HEADERSTRIP); cbn [negb]; repeat split; try discriminate; try (intros (r & H); discriminate); eexists; reflexivity.
    - destruct (negb (en_children e)); repeat split; try discriminate; try (intros (r & H); discriminate); eexists; reflexivity.
    - repeat split; try discriminate; try (intros (r & H); discriminate); eexists; reflexivity. }
  destruct A as (A1 & A2 & A3). repeat (split; [assumption|]). intros b moved s pos b' q N R. apply A1. unfold read_data in R. rewrite N in R.
  destruct (find_header ERR_NOT_SUPPORTED ERR_NOT_SUPPORTED ERR_INVALID_DATA t) as [| | |[e|r]] eqn:E; try discriminate; [|eexists; reflexivity].
  cbn [bind] in R. exfalso. injection R as -> _ _. unfold find_header in E. destruct t as [[|e [|f l]]|]; try discriminate.
  - destruct (negb (en_children e)); [discriminate|]. destruct (en_compr e); [|discriminate]. destruct (_ =? COMP_HEADERSTRIP); discriminate.
  - destruct (negb (en_children e)); discriminate.
Qed.

(** A file with two blocks of a track whose frames 7 7 1 and 7 7 2 3 are stored without the 7 of its header. *)
Definition e_in : ist := mkIn false 0 [129; 0; 0; 128; 7; 1; 129; 0; 1; 128; 7; 2; 3].
Definition e_block (first : Z) (sizes : list Z) : block := mkBlock true false false 0 0 1 0 true true false false 0 first sizes [] [] [].
Example C141_ex : Forall2 (stored e_in [7]) [e_block 4 [3]; e_block 10 [4]] [[[7; 7; 1]]; [[7; 7; 2; 3]]] /\ track_header (strip None [7]) [7] /\
  Forall has_bytes [[[7; 7; 1]]; [[7; 7; 2; 3]]] /\ common_header (strip None [7]) true e_in [e_block 4 [3]; e_block 10 [4]] 0 = Ok [7; 7] /\
  lace_ok 0 (without [7; 7] [[7; 7; 1]]).
Proof.
  split; [|split; [constructor; exact I|split; [|split; [vm_compute; reflexivity|eexists; reflexivity]]]].
  - constructor; [|constructor; [|constructor]].
    + exists [[7; 1]]. repeat split; try (vm_compute; congruence). intros _. eexists. reflexivity.
    + exists [[7; 2; 3]]. repeat split; try (vm_compute; congruence). intros _. eexists. reflexivity.
  - repeat constructor; discriminate.
Qed.

(** A track with one frame, or with frames that are all the same, is left with empty frames; the last block of a file that is
    written like that is not read any more. *)
Theorem C141_same_frames_refuted : ~ forall t h0 moved s bs fss pos h w fs bytes, track_header t h0 -> Forall2 (stored s h0) bs fss -> Forall has_bytes fss ->
  common_header t moved s bs pos = Ok h -> In fs fss -> holds (b_sizes w) (b_data w) fs -> b_lacing w = 0 ->
  render_block w (strip None h) (OFile [] 0) = Ok (ERR_NONE, zlen bytes, OFile bytes (zlen bytes)) ->
  exists r q, read_frames 10 (found true (zlen bytes) 0) (strip None h) false (file bytes) 0 = Ok (ERR_NONE, r, q).
Proof.
  intros H. destruct (H None [] true (mkIn false 0 [129; 0; 0; 128; 7; 8; 9]) [e_block 4 [3]] [[[7; 8; 9]]] 0 [7; 8; 9] (made true 1 0 true false false 0 [[7; 8; 9]]) [[7; 8; 9]] [129; 0; 0; 128]) as (r & q & E).
  - constructor.
  - constructor; [|constructor]. exists [[7; 8; 9]]. repeat split; try (vm_compute; congruence). intros _. eexists. reflexivity.
  - repeat constructor. discriminate.
  - vm_compute. reflexivity.
  - left. reflexivity.
  - split; reflexivity.
  - reflexivity.
  - vm_compute. reflexivity.
  - vm_compute in E. discriminate.
Qed.

(** A block whose frames have no bytes makes the search look at a frame that was never given. *)
Theorem C141_empty_refuted : ~ forall t h0 moved s bs fss pos, track_header t h0 -> Forall2 (stored s h0) bs fss -> exists h, common_header t moved s bs pos = Ok h.
Proof.
  intros H. destruct (H None [] true (mkIn false 0 [129; 0; 0; 128; 9]) [e_block 4 [0]] [[[]]] 0) as (h & E).
  - constructor.
  - constructor; [|constructor]. exists [[]]. repeat split; try (vm_compute; congruence). intros _. eexists. reflexivity.
  - vm_compute in E. discriminate.
Qed.

Print Assumptions C141_header. Print Assumptions C141_lossless. Print Assumptions C141_longest. Print Assumptions C141_test.
Print Assumptions C141_same_frames_refuted. Print Assumptions C141_empty_refuted.
