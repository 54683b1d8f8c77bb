(** Lemmas on layouts. *)
From Verif Require Import Base BaseProofs Vint VintProofs EbmlId IntElt IntEltSpec IntEltProofs EltHead Ebml Tree Layout LayoutSpec.

Lemma usize_eq v : 0 <= v < 2 ^ 63 -> usize v = unat v.
Proof.
  intros H. unfold usize. rewrite update_size_uint_max by lia. unfold u64. rewrite Z.mod_small by (change (2 ^ 64) with (2 * 2 ^ 63); lia).
  unfold unat. repeat match goal with |- context [if ?b then _ else _] => destruct b end; reflexivity.
Qed.
Lemma usize_range v : 1 <= usize v <= 8.
Proof.
  unfold usize, update_size_uint. set (n := if u64 v <=? 255 then _ else _).
  assert (H : 1 <= n <= 8) by (unfold n; repeat match goal with |- context [if ?b then _ else _] => destruct b end; lia).
  destruct (n <? 1) eqn:E; lia.
Qed.
Lemma usize_mono a b : 0 <= a <= b -> b < 2 ^ 63 -> usize a <= usize b.
Proof.
  intros H1 H2. rewrite !usize_eq by lia. unfold unat.
  repeat match goal with |- context [?x <=? ?y] => destruct (Z.leb_spec x y) end; lia.
Qed.
Lemma usize_bytes v : 0 <= v < 2 ^ 63 -> int_bytes v (usize v).
Proof.
  intros H. rewrite usize_eq by exact H. change (2 ^ 63) with 9223372036854775808 in H. unfold int_bytes, unat.
  repeat match goal with |- context [if ?x <=? ?y then _ else _] => destruct (Z.leb_spec x y) end;
  match goal with |- context [256 ^ (?n - 1)] =>
    let a := eval vm_compute in (256 ^ n) in let b := eval vm_compute in (256 ^ (n - 1)) in change (256 ^ n) with a; change (256 ^ (n - 1)) with b end; (split; [lia|]); (split; [lia|]); first [left; reflexivity|right; lia].
Qed.
Lemma int_bytes_fun v a b : int_bytes v a -> int_bytes v b -> a = b.
Proof.
  assert (H : forall a b, int_bytes v a -> int_bytes v b -> ~ a < b).
  { intros x y (X1 & X2 & _) (Y1 & Y2 & Y3) L. destruct Y3 as [Y3|Y3]; [lia|]. assert (256 ^ x <= 256 ^ (y - 1)) by (apply Z.pow_le_mono_r; lia). lia. }
  intros A B. pose proof (H a b A B). pose proof (H b a B A). lia.
Qed.
Lemma csl_range d : 0 <= d -> 1 <= coded_size_length d 0 true <= 5.
Proof. intros H. rewrite coded_size_length_natural by exact H. repeat match goal with |- context [if ?b then _ else _] => destruct b end; lia. Qed.
Lemma csl_mono a b : 0 <= a <= b -> coded_size_length a 0 true <= coded_size_length b 0 true.
Proof. intros H. rewrite !coded_size_length_natural by lia. repeat match goal with |- context [?x <? ?y] => destruct (Z.ltb_spec x y) end; lia. Qed.
Lemma full_mono id a b : 0 <= a <= b -> full id a <= full id b.
Proof. intros H. unfold full, full_size. pose proof (csl_mono a b H). lia. Qed.
Lemma full_short id d : 0 <= d < 127 -> full id d = d + get_id_length id + 1.
Proof. intros H. unfold full, full_size. rewrite coded_size_length_natural by lia. replace (d <? 127) with true by lia. reflexivity. Qed.
Lemma cue_full_eq c p : lc_chk c = 0 \/ lc_chk c = 6 -> cue_full c p = lc_chk c + 10 + usize (lc_time c) + usize (lc_track c) + usize p.
Proof.
  intros H. pose proof (usize_range (lc_time c)). pose proof (usize_range (lc_track c)). pose proof (usize_range p). unfold cue_full.
  rewrite (full_short L_CueTime), (full_short L_CueTrack), (full_short L_CueClusterPosition) by lia.
  change (get_id_length L_CueTime) with 1. change (get_id_length L_CueTrack) with 1. change (get_id_length L_CueClusterPosition) with 1.
  rewrite (full_short L_CueTrackPositions) by lia. change (get_id_length L_CueTrackPositions) with 1.
  rewrite (full_short L_CuePoint) by lia. change (get_id_length L_CuePoint) with 1. lia.
Qed.
Lemma cue_full_size n c p : cue_ok n c -> 0 <= p < 2 ^ 63 -> cue_size c p (cue_full c p).
Proof.
  intros (H1 & H2 & H3 & _) Hp. exists (usize (lc_time c)), (usize (lc_track c)), (usize p). split; [apply usize_bytes, H1|]. split; [apply usize_bytes; lia|].
  split; [apply usize_bytes, Hp|]. apply cue_full_eq, H3.
Qed.

Lemma place_con sizes : forall p, consecutive p sizes (place p sizes).
Proof. induction sizes as [|s l IH]; intros p; constructor. apply IH. Qed.
Definition off (sizes : list Z) (i : nat) : Z := sum (firstn i sizes).
Lemma place_nth sizes : forall p i, (i < length sizes)%nat -> nth_error (place p sizes) i = Some (p + off sizes i).
Proof.
  induction sizes as [|s l IH]; intros p i H; [cbn in H; lia|]. destruct i as [|i]; cbn [place nth_error]; [unfold off; cbn; f_equal; lia|].
  rewrite IH by (cbn in H; lia). unfold off. cbn [firstn sum fold_right]. f_equal. unfold sum. lia.
Qed.
Lemma off_le sizes i : Forall (fun s => 0 <= s) sizes -> 0 <= off sizes i <= sum sizes.
Proof.
  intros H. revert i. induction H as [|s l Hs Hl IH]; intros i; [destruct i; unfold off; cbn; lia|].
  unfold off, sum in *. cbn [fold_right]. destruct i as [|i]; cbn [firstn fold_right]; [specialize (IH O); cbn [firstn fold_right] in IH|specialize (IH i)]; lia.
Qed.
Lemma place_length sizes : forall p, length (place p sizes) = length sizes.
Proof. induction sizes as [|s l IH]; intros p; cbn; [reflexivity|]. f_equal. apply IH. Qed.
Lemma con_nth p sizes pos : consecutive p sizes pos -> pos = place p sizes.
Proof. induction 1 as [|p s sizes pos H IH]; cbn; [reflexivity|]. f_equal. exact IH. Qed.

(** What the cue points come to when the clusters begin at [base]. *)
Definition cpos (segd : Z) (sizes : list Z) (base : Z) (c : lcue) : Z := base + match lc_clus c with Some i => off sizes i | None => 0 end - segd.
Definition csum (segd : Z) (sizes : list Z) (base : Z) (q : list lcue) : Z := sum (map (fun c => cue_full c (cpos segd sizes base c)) q).
Lemma cpos_range n segd sizes base c : length sizes = n -> cue_ok n c -> Forall (fun s => 0 <= s) sizes -> 0 <= segd <= base -> base + sum sizes < 2 ^ 63 ->
  0 <= cpos segd sizes base c < 2 ^ 63.
Proof. intros _ (_ & _ & _ & i & E & _) Hs Hb HB. unfold cpos. rewrite E. pose proof (off_le sizes i Hs). lia. Qed.
Lemma update_cues_eq segd sizes base : Forall (fun s => 0 <= s) sizes -> 0 <= segd <= base -> base + sum sizes < 2 ^ 63 -> forall q,
  Forall (cue_ok (length sizes)) q -> update_cues segd (place base sizes) q = Ok (map (cpos segd sizes base) q, csum segd sizes base q).
Proof.
  intros Hs Hb HB. induction 1 as [|c q Hc Hq IH]; [reflexivity|]. pose proof (cpos_range _ segd sizes base c eq_refl Hc Hs Hb HB) as R.
  destruct Hc as (_ & _ & _ & i & E & Hi). cbn [update_cues]. rewrite E, place_nth by exact Hi. cbn [opt_res bind]. rewrite IH. cbn [bind fst snd map].
  unfold csum. cbn [map sum fold_right]. unfold cpos in R |- *. rewrite E in R |- *. rewrite (IntEltProofs.s64_small) by (unfold is_int64; lia). reflexivity.
Qed.

(** The size of the cue points only grows with the place of the clusters, by at most seven bytes each. *)
Lemma csum_mono segd sizes a b q : Forall (fun s => 0 <= s) sizes -> 0 <= segd <= a -> a <= b -> b + sum sizes < 2 ^ 63 -> Forall (cue_ok (length sizes)) q ->
  csum segd sizes a q <= csum segd sizes b q.
Proof.
  intros Hs Ha Hab HB. unfold csum. induction 1 as [|c q Hc Hq IH]; cbn [map sum fold_right]; [lia|]. unfold sum in *.
  pose proof (cpos_range _ segd sizes a c eq_refl Hc Hs ltac:(lia) ltac:(unfold sum in *; lia)) as Ra. pose proof (cpos_range _ segd sizes b c eq_refl Hc Hs ltac:(lia) HB) as Rb.
  assert (cue_full c (cpos segd sizes a c) <= cue_full c (cpos segd sizes b c)); [|lia].
  rewrite !cue_full_eq by apply Hc. assert (usize (cpos segd sizes a c) <= usize (cpos segd sizes b c)); [|lia].
  apply usize_mono; [|lia]. split; [lia|]. unfold cpos. lia.
Qed.
Definition cbase (q : list lcue) : Z := sum (map (fun c => lc_chk c + 11 + usize (lc_time c) + usize (lc_track c)) q).
Lemma csum_range segd sizes a q n : Forall (cue_ok n) q -> cbase q <= csum segd sizes a q <= cbase q + 7 * zlen q.
Proof.
  unfold cbase, csum. induction 1 as [|c q Hc Hq IH]; cbn [map sum fold_right]; [unfold zlen; cbn; lia|]. rewrite zlen_cons. unfold sum in *.
  rewrite cue_full_eq by apply Hc. pose proof (usize_range (cpos segd sizes a c)). lia.
Qed.
Lemma cbase_pos q n : Forall (cue_ok n) q -> 0 <= cbase q <= 33 * zlen q.
Proof.
  unfold cbase. induction 1 as [|c q Hc Hq IH]; cbn [map sum fold_right]; [unfold zlen; cbn; lia|]. rewrite zlen_cons. unfold sum in *.
  pose proof (usize_range (lc_time c)). pose proof (usize_range (lc_track c)). destruct Hc as (_ & _ & [E|E] & _); rewrite E; lia.
Qed.
Section Settle.
Context (start segd k : Z) (sizes : list Z) (q : list lcue).
Context (Hs : Forall (fun s => 0 <= s) sizes) (Hq : Forall (cue_ok (length sizes)) q) (Hk : k = 0 \/ k = 6) (Hd : 0 <= segd <= start).
Definition at_size (s : Z) : Z := start + full L_Cues s.
Definition next (s : Z) : Z := k + csum segd sizes (at_size s) q.
Definition low_room (s : Z) : Prop := 0 <= s /\ start + s + 9 + sum sizes < 2 ^ 63.
Lemma at_size_range s : 0 <= s -> start <= at_size s <= start + s + 9.
Proof. intros H. unfold at_size, full, full_size. pose proof (csl_range s H). change (get_id_length L_Cues) with 4. lia. Qed.
Lemma settle_step f s : low_room s ->
  settle (S f) start segd sizes k q s = if next s =? s then Ok (next s, place (at_size s) sizes, map (cpos segd sizes (at_size s)) q) else settle f start segd sizes k q (next s).
Proof.
  intros [H0 H1]. pose proof (at_size_range s H0). cbn [settle]. fold (at_size s). rewrite update_cues_eq by (assumption || lia). reflexivity.
Qed.
Lemma next_mono a b : 0 <= a <= b -> low_room b -> next a <= next b.
Proof.
  intros H [H0 H1]. unfold next. pose proof (at_size_range b H0). pose proof (at_size_range a ltac:(lia)).
  assert (csum segd sizes (at_size a) q <= csum segd sizes (at_size b) q); [|lia]. apply csum_mono; try assumption; try lia.
  unfold at_size. pose proof (full_mono L_Cues a b H). lia.
Qed.
Lemma next_range s : k + cbase q <= next s <= k + cbase q + 7 * zlen q.
Proof. unfold next. pose proof (csum_range segd sizes (at_size s) q _ Hq). lia. Qed.
Definition settled (r : res (Z * list Z * list Z)) : Prop :=
  exists s, 0 <= s <= k + cbase q + 7 * zlen q /\ next s = s /\ r = Ok (s, place (at_size s) sizes, map (cpos segd sizes (at_size s)) q).
Context (Hroom : start + (k + cbase q + 7 * zlen q) + 9 + sum sizes < 2 ^ 63).
Lemma settle_up fuel : forall s, 0 <= s <= k + cbase q + 7 * zlen q -> s <= next s -> k + cbase q + 7 * zlen q - s < Z.of_nat fuel -> settled (settle fuel start segd sizes k q s).
Proof.
  induction fuel as [|f IH]; intros s Hr Hu Hf; [lia|]. rewrite settle_step by (split; lia). destruct (Z.eqb_spec (next s) s) as [E|E].
  - exists s. split; [exact Hr|]. split; [exact E|]. rewrite E. reflexivity.
  - pose proof (next_range s). apply IH; [lia| |lia]. apply next_mono; [lia|]. split; lia.
Qed.
Lemma settle_down fuel : forall s, 0 <= s <= k + cbase q + 7 * zlen q -> next s <= s -> s - (k + cbase q) < Z.of_nat fuel -> 0 <= cbase q -> settled (settle fuel start segd sizes k q s).
Proof.
  induction fuel as [|f IH]; intros s Hr Hu Hf Hc; [pose proof (next_range s); lia|]. rewrite settle_step by (split; lia). destruct (Z.eqb_spec (next s) s) as [E|E].
  - exists s. split; [exact Hr|]. split; [exact E|]. rewrite E. reflexivity.
  - pose proof (next_range s). apply IH; [lia| |lia|exact Hc]. apply next_mono; [lia|]. split; lia.
Qed.
Lemma settle_ok s0 fuel : low_room s0 -> (7 * length q + 2 <= fuel)%nat -> settled (settle fuel start segd sizes k q s0).
Proof.
  intros H0 Hf. destruct fuel as [|f]; [lia|]. rewrite settle_step by exact H0. pose proof (cbase_pos q _ Hq) as Hc. pose proof (next_range s0) as R.
  destruct (Z.eqb_spec (next s0) s0) as [E|E].
  - exists s0. split; [lia|]. split; [exact E|]. rewrite E. reflexivity.
  - assert (L : 7 * zlen q < Z.of_nat f) by (unfold zlen in *; lia).
    destruct (Z.le_ge_cases (next s0) (next (next s0))) as [C|C]; [apply settle_up|apply settle_down]; lia.
Qed.
End Settle.
Lemma csum_size segd sizes base q : Forall (fun s => 0 <= s) sizes -> 0 <= segd <= base -> base + sum sizes < 2 ^ 63 -> Forall (cue_ok (length sizes)) q ->
  cues_size q (map (cpos segd sizes base) q) (csum segd sizes base q) /\ Forall2 (leads segd (place base sizes)) q (map (cpos segd sizes base) q).
Proof.
  intros Hs Hb HB. unfold csum. induction 1 as [|c q Hc Hq [IH1 IH2]]; cbn [map sum fold_right]; [split; constructor|].
  pose proof (cpos_range _ segd sizes base c eq_refl Hc Hs Hb HB) as R. split; constructor; try assumption.
  - eapply cue_full_size; eassumption.
  - destruct Hc as (_ & _ & _ & i & E & Hi). exists i, (base + off sizes i). split; [exact E|]. split; [apply place_nth, Hi|]. unfold cpos. rewrite E. lia.
Qed.
