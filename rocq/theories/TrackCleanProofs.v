From Verif Require Import Base BaseProofs Tree BlockTime BlockTimeProofs MkSchema Validator ValidatorProofs3 TrackClean TrackCleanSpec.

Lemma sat_ok x : - 2 ^ 63 <= x < 2 ^ 63 -> sat x = Ok x.
Proof. intros H. unfold sat, fits64. replace (- 2 ^ 63 <=? x) with true by lia. replace (x <? 2 ^ 63) with true by lia. reflexivity. Qed.
Lemma amount_small o b : 0 < b -> small o b -> 0 <= zero_or o < b.
Proof. intros Hb. destruct o; cbn; lia. Qed.
Lemma nonzero_kept o : kept_crop o (nonzero o).
Proof. unfold kept_crop, nonzero, zero_or. destruct o as [[|p|p]|]; reflexivity. Qed.
Lemma crop_ok v w h : small (d_left v) (2 ^ 62) -> small (d_right v) (2 ^ 62) -> small (d_top v) (2 ^ 62) -> small (d_bottom v) (2 ^ 62) ->
  exists l r t b, clean_crop v w h = Ok (set_crop v l r t b) /\ crops v (set_crop v l r t b) w h.
Proof.
  intros Hl Hr Ht Hb. assert (B : 0 < 2 ^ 62) by (vm_compute; reflexivity). apply amount_small in Hl; [|exact B]. apply amount_small in Hr; [|exact B]. apply amount_small in Ht; [|exact B]. apply amount_small in Hb; [|exact B].
  unfold clean_crop. rewrite !sat_ok by lia. cbn [bind]. unfold crops. change amount with zero_or. destruct (h <=? zero_or (d_top v) + zero_or (d_bottom v)) eqn:Q1; cbn [bind].
  - do 4 eexists. split; [reflexivity|]. right. cbn [set_crop d_left d_right d_top d_bottom]. split; [lia|auto].
  - destruct (w <=? zero_or (d_left v) + zero_or (d_right v)) eqn:Q2.
    + do 4 eexists. split; [reflexivity|]. right. cbn [set_crop d_left d_right d_top d_bottom]. split; [lia|auto].
    + do 4 eexists. split; [reflexivity|]. left. cbn [set_crop d_left d_right d_top d_bottom]. split; [lia|]. split; [lia|]. split; [apply nonzero_kept|]. split; [apply nonzero_kept|]. split; apply nonzero_kept.
Qed.
Lemma crop_zero v : small (d_left v) (2 ^ 62) -> small (d_right v) (2 ^ 62) -> small (d_top v) (2 ^ 62) -> small (d_bottom v) (2 ^ 62) ->
  clean_crop v 0 0 = Ok (set_crop v None None None None).
Proof.
  intros Hl Hr Ht Hb. assert (B : 0 < 2 ^ 62) by (vm_compute; reflexivity). apply amount_small in Ht; [|exact B]. apply amount_small in Hb; [|exact B]. clear Hl Hr.
  unfold clean_crop. rewrite !sat_ok by lia. cbn [bind]. replace (0 <=? zero_or (d_top v) + zero_or (d_bottom v)) with true by lia. reflexivity.
Qed.

Lemma serious_ok W H w h : 0 < W < 2 ^ 31 -> 0 < H < 2 ^ 31 -> 0 < w < W -> 0 < h < H ->
  exists s, serious W H w h = Ok s /\ (s <> 0 <-> taken_for_ratio W H w h).
Proof.
  intros HW HH Hw Hh. unfold serious. rewrite (gcd_ok 31 200) by (cbn; lia). cbn [bind]. rewrite !sat_ok by lia. cbn [bind]. eexists. split; [reflexivity|]. unfold taken_for_ratio.
  destruct (Z.gcd w h =? 1) eqn:G; [apply Z.eqb_eq in G|apply Z.eqb_neq in G];
  (destruct ((8 * w <=? W) && (8 * h <=? H)) eqn:A; [apply andb_true_iff in A|apply andb_false_iff in A]);
  try (destruct ((W <=? 2 * w) && (H <=? 2 * h)) eqn:B; [apply andb_true_iff in B|apply andb_false_iff in B]); split; intros K; try lia; (split; [lia|]); (split; [lia|]); lia.
Qed.

Lemma scale_ok v n d : 0 <= v < 2 ^ 31 -> 0 <= n < 2 ^ 31 -> 0 < d -> scale64 v n d = Ok (v * n / d).
Proof.
  intros Hv Hn Hd. unfold scale64. replace (d =? 0) with false by lia. rewrite s64_small by nia. replace (d =? -1) with false by lia. rewrite andb_false_r. f_equal. apply Z.quot_div_nonneg; nia.
Qed.
(** Rescaling keeps the shape: one side becomes that of the pixels, or it becomes a ratio. *)
Lemma rescale_ok v W H w h : 0 < W < 2 ^ 31 -> 0 < H < 2 ^ 31 -> 0 < w < W -> 0 < h < H ->
  rescale v W H w h = Ok (set_size v (Some w) (Some h) (Some 3)) \/
  exists w' h', rescale v W H w h = Ok (set_size v (Some w') (Some h') (d_unit v)) /\ 0 <= w' < 2 ^ 63 /\ 0 <= h' < 2 ^ 63 /\ w' * h = h' * w /\ (w' = W \/ h' = H).
Proof.
  intros HW HH Hw Hh. unfold rescale. destruct (h <? w) eqn:Q.
  - rewrite scale_ok by lia. cbn [bind Datatypes.fst Datatypes.snd]. pose proof (Z.mul_div_le (H * w) h ltac:(lia)) as M. assert (0 <= H * w / h) by (apply Z.div_pos; nia). assert (H * w < 2 ^ 62) by nia.
    rewrite !sat_ok by nia. cbn [bind]. destruct (H * w / h * h =? H * w) eqn:P; [right|left; reflexivity]. apply Z.eqb_eq in P. exists (H * w / h), H. split; [reflexivity|]. split; [split; [lia|nia]|]. split; [lia|]. split; [exact P|]. right. reflexivity.
  - rewrite scale_ok by lia. cbn [bind Datatypes.fst Datatypes.snd]. pose proof (Z.mul_div_le (W * h) w ltac:(lia)) as M. assert (0 <= W * h / w) by (apply Z.div_pos; nia). assert (W * h < 2 ^ 62) by nia.
    rewrite !sat_ok by nia. cbn [bind]. destruct (W * h =? W * h / w * w) eqn:P; [right|left; reflexivity]. apply Z.eqb_eq in P. exists W, (W * h / w). split; [reflexivity|]. split; [lia|]. split; [split; [lia|nia]|]. split; [exact P|]. left. reflexivity.
Qed.

Definition gone (v : video) : Prop := d_dw v = Some 0 \/ (d_dw v <> None /\ d_dh v = Some 0).
Definition pixel_ok (v : video) (W H : Z) (dw dh u : option Z) : Prop :=
  let v' := set_size v dw dh u in
  same_shape v v' W H /\
  (u = d_unit v \/ (u = Some 3 /\ taken_for_ratio W H (shown_w v W) (shown_h v H) /\ dw = d_dw v /\ dh = d_dh v)) /\
  ((shown_w v' W = shown_w v W /\ shown_h v' H = shown_h v H) \/
   (u = d_unit v /\ taken_for_ratio W H (shown_w v W) (shown_h v H) /\ (shown_w v' W = W \/ shown_h v' H = H))) /\
  (taken_for_ratio W H (shown_w v W) (shown_h v H) -> u = Some 3 \/ shown_w v' W = W \/ shown_h v' H = H) /\
  (u = Some 3 \/ (dw <> Some W /\ dh <> Some H)).
Lemma drop_ne o x : match o with Some y => if y =? x then None else Some y | None => @None Z end <> Some x.
Proof. destruct o as [y|]; [|discriminate]. destruct (y =? x) eqn:Q; [discriminate|]. intros [= E]. lia. Qed.
Lemma drop_shown y x : match (if y =? x then None else Some y) with Some z => z | None => x end = y.
Proof. destruct (y =? x) eqn:Q; [lia|reflexivity]. Qed.

Lemma pixels_both v W H w h : 0 < W < 2 ^ 31 -> 0 < H < 2 ^ 31 -> 0 < w < 2 ^ 63 -> 0 <= h < 2 ^ 63 -> (h = 0 -> w = W) ->
  exists u dw dh,
  (do v <- (if (h <? H) && (w <? W) then do s <- serious W H w h; if s =? 0 then Ok (set_size v (Some w) (Some h) (d_unit v)) else rescale (set_size v (Some w) (Some h) (d_unit v)) W H w h
            else Ok (set_size v (Some w) (Some h) (d_unit v)));
   let same o x := match o with Some y => if y =? x then None else Some y | None => None end in
   Ok (Some (set_size v (same (d_dw v) W) (same (d_dh v) H) (d_unit v)))) = Ok (Some (set_size v dw dh u)) /\
  pixel_ok (set_size v (Some w) (Some h) (d_unit v)) W H dw dh u.
Proof.
  intros HW HH Hw Hh H0.
  assert (Plain : ~ taken_for_ratio W H w h -> pixel_ok (set_size v (Some w) (Some h) (d_unit v)) W H (if w =? W then None else Some w) (if h =? H then None else Some h) (d_unit v)).
  { intros N. unfold pixel_ok, same_shape, shown_w, shown_h. cbn [set_size d_dw d_dh d_unit]. rewrite !drop_shown. split; [ring|]. split; [left; reflexivity|]. split; [left; split; reflexivity|]. split; [intros K; contradiction|]. right. split; [exact (drop_ne (Some w) W)|exact (drop_ne (Some h) H)]. }
  destruct ((h <? H) && (w <? W)) eqn:Q.
  - apply andb_true_iff in Q. destruct Q as [Q1 Q2]. destruct (serious_ok W H w h ltac:(lia) ltac:(lia) ltac:(lia) ltac:(lia)) as (s & E & S). rewrite E. cbn [bind]. destruct (s =? 0) eqn:Z0.
    + apply Z.eqb_eq in Z0. do 3 eexists. split; [cbn [bind set_size d_dw d_dh d_unit d_pw d_ph d_left d_right d_top d_bottom d_stereo d_old]; reflexivity|]. cbn [set_size d_dw d_dh d_unit d_pw d_ph d_left d_right d_top d_bottom d_stereo d_old]. apply Plain. intros T. apply S in T. lia.
    + assert (T : taken_for_ratio W H w h) by (apply S; lia).
      destruct (rescale_ok (set_size v (Some w) (Some h) (d_unit v)) W H w h ltac:(lia) ltac:(lia) ltac:(lia) ltac:(lia)) as [R|(w' & h' & R & P1 & P2 & P3 & P4)].
      * rewrite R. cbn [bind set_size d_dw d_dh d_unit d_pw d_ph d_left d_right d_top d_bottom d_stereo d_old].
        replace (w =? W) with false by lia. replace (h =? H) with false by lia. do 3 eexists. split; [reflexivity|].
        unfold pixel_ok, same_shape, shown_w, shown_h. cbn [set_size d_dw d_dh d_unit]. split; [ring|]. split; [right; split; [reflexivity|]; split; [exact T|]; split; reflexivity|]. split; [left; split; reflexivity|]. split; [intros _; left; reflexivity|]. left. reflexivity.
      * rewrite R. cbn [bind set_size d_dw d_dh d_unit d_pw d_ph d_left d_right d_top d_bottom d_stereo d_old]. do 3 eexists. split; [reflexivity|].
        unfold pixel_ok, same_shape, shown_w, shown_h. cbn [set_size d_dw d_dh d_unit]. rewrite !drop_shown. split; [exact P3|]. split; [left; reflexivity|]. split; [right; split; [reflexivity|]; split; [exact T|exact P4]|]. split; [intros _; right; exact P4|]. right. split; [exact (drop_ne (Some w') W)|exact (drop_ne (Some h') H)].
  - do 3 eexists. split; [cbn [bind set_size d_dw d_dh d_unit d_pw d_ph d_left d_right d_top d_bottom d_stereo d_old]; reflexivity|]. cbn [set_size d_dw d_dh d_unit d_pw d_ph d_left d_right d_top d_bottom d_stereo d_old]. apply Plain. intros (T1 & T2 & _). apply andb_false_iff in Q. lia.
Qed.

Lemma set_same v : set_size v (d_dw v) (d_dh v) (d_unit v) = v.
Proof. destruct v; reflexivity. Qed.
Lemma set_set v a b c d e f : set_size (set_size v a b c) d e f = set_size v d e f.
Proof. reflexivity. Qed.
Lemma pixel_transfer v W H w h dw dh u : shown_w v W = w -> shown_h v H = h -> (taken_for_ratio W H w h -> d_dw v = Some w /\ d_dh v = Some h) ->
  pixel_ok (set_size v (Some w) (Some h) (d_unit v)) W H dw dh u -> pixel_ok v W H dw dh u.
Proof.
  intros E1 E2 K (P1 & P2 & P3 & P4 & P5). unfold pixel_ok, same_shape in *. rewrite set_set in *.
  assert (S1 : shown_w (set_size v (Some w) (Some h) (d_unit v)) W = w) by reflexivity. assert (S2 : shown_h (set_size v (Some w) (Some h) (d_unit v)) H = h) by reflexivity.
  rewrite S1, S2 in *. rewrite E1, E2. cbn [set_size d_unit d_dw d_dh] in P2, P3. split; [exact P1|]. split; [|split; [exact P3|split; [exact P4|exact P5]]].
  destruct P2 as [P2|(A & B & C & D)]; [left; exact P2|right]. destruct (K B) as [K1 K2]. rewrite K1, K2. auto.
Qed.
(** [clean_pixels]: deleted with a size of 0, else as described. *)
Lemma pixels_ok v W H : 0 < W < 2 ^ 31 -> 0 < H < 2 ^ 31 -> small (d_dw v) (2 ^ 63) -> small (d_dh v) (2 ^ 63) -> ~ no_display v ->
  (clean_pixels v W H = Ok None /\ gone v) \/
  (~ gone v /\ exists dw dh u, clean_pixels v W H = Ok (Some (set_size v dw dh u)) /\ pixel_ok v W H dw dh u).
Proof.
  intros HW HH Sw Sh ND. unfold clean_pixels, gone, no_display in *. destruct (d_dw v) as [w|] eqn:Ew; destruct (d_dh v) as [h|] eqn:Eh; cbn [small] in *.
  - destruct (w =? 0) eqn:W0; [left; split; [reflexivity|left; f_equal; lia]|]. destruct (h =? 0) eqn:H0; [left; split; [reflexivity|right; split; [discriminate|f_equal; lia]]|].
    right. split; [intros [[= A]|[_ [= A]]]; lia|]. cbn iota. rewrite Ew, Eh.
    destruct (pixels_both v W H w h HW HH ltac:(lia) ltac:(lia) ltac:(lia)) as (u & dw & dh & E & P).
    assert (V : set_size v (Some w) (Some h) (d_unit v) = v) by (rewrite <- Ew, <- Eh; apply set_same). rewrite V in E, P. exists dw, dh, u. split; [|exact P].
    rewrite <- E. reflexivity.
  - destruct (w =? 0) eqn:W0; [left; split; [reflexivity|left; f_equal; lia]|]. right. split; [intros [[= A]|[_ A]]; [lia|discriminate]|].
    destruct (w =? W) eqn:WW; cbn iota; cbn [set_size d_dw d_dh d_unit].
    + apply Z.eqb_eq in WW. do 3 eexists. split; [reflexivity|]. unfold pixel_ok, same_shape, shown_w, shown_h, taken_for_ratio. cbn [set_size d_dw d_dh d_unit]. rewrite Ew, Eh. split; [lia|]. split; [left; reflexivity|]. split; [left; lia|]. split; [lia|]. right. split; discriminate.
    + destruct (pixels_both v W H w H HW HH ltac:(lia) ltac:(lia) ltac:(lia)) as (u & dw & dh & E & P). exists dw, dh, u. split; [exact E|]. apply (pixel_transfer v W H w H); [unfold shown_w; rewrite Ew; reflexivity|unfold shown_h; rewrite Eh; reflexivity| |exact P]. unfold taken_for_ratio. lia.
  - right. split; [intros [A|[A _]]; [discriminate|apply A; reflexivity]|]. destruct (h =? H) eqn:HHe; cbn iota; cbn [set_size d_dw d_dh d_unit].
    + apply Z.eqb_eq in HHe. do 3 eexists. split; [reflexivity|]. unfold pixel_ok, same_shape, shown_w, shown_h, taken_for_ratio. cbn [set_size d_dw d_dh d_unit]. rewrite Ew, Eh. split; [lia|]. split; [left; reflexivity|]. split; [left; lia|]. split; [lia|]. right. split; discriminate.
    + destruct (pixels_both v W H W h HW HH ltac:(lia) ltac:(lia) ltac:(lia)) as (u & dw & dh & E & P). exists dw, dh, u. split; [exact E|]. apply (pixel_transfer v W H W h); [unfold shown_w; rewrite Ew; reflexivity|unfold shown_h; rewrite Eh; reflexivity| |exact P]. unfold taken_for_ratio. lia.
  - exfalso. apply ND. split; reflexivity.
Qed.

Lemma crops_size v l r t b dw dh u w h : crops (set_size v dw dh u) (set_crop (set_size v dw dh u) l r t b) w h -> crops v (set_crop (set_size v dw dh u) l r t b) w h.
Proof. exact (fun H => H). Qed.
Lemma gone_dec v : gone v \/ ~ gone v.
Proof.
  unfold gone. destruct (d_dw v) as [w|].
  - destruct (Z.eq_dec w 0) as [->|N]; [left; left; reflexivity|]. destruct (d_dh v) as [h|]; [|right; intros [[= A]|[_ A]]; [lia|discriminate]].
    destruct (Z.eq_dec h 0) as [->|N']; [left; right; split; [discriminate|reflexivity]|right; intros [[= A]|[_ [= A]]]; lia].
  - right. intros [A|[A _]]; [discriminate|apply A; reflexivity].
Qed.
(** The part after the unit has been settled, for pixels. *)
Lemma pixels_tail v W H : sane v W H -> ~ no_display v -> unit_of v = 0 -> ~ gone v ->
  exists v', (do r <- clean_pixels v W H;
    match r with
    | None => Ok None
    | Some v2 =>
        let v3 := set_size v2 (d_dw v2) (d_dh v2) (Some (zero_or (d_unit v2))) in
        if zero_or (d_unit v2) =? 3 then Ok (Some v3)
        else do v4 <- clean_crop v3 (match d_dw v3 with Some x => x | None => W end) (match d_dh v3 with Some x => x | None => H end); Ok (Some v4)
    end) = Ok (Some v') /\ displayed v v' W H.
Proof.
  intros (HW & HH & Sw & Sh & Sl & Sr & St & Sb) ND U NG. destruct (pixels_ok v W H HW HH Sw Sh ND) as [[_ G]|(_ & dw & dh & u & E & P)]; [contradiction|]. rewrite E. cbn [bind].
  destruct P as (P1 & P2 & P3 & P4 & P5). cbv zeta in *. change (d_unit (set_size v dw dh u)) with u. destruct (zero_or u =? 3) eqn:Q3.
  - apply Z.eqb_eq in Q3. destruct P2 as [P2|(P2 & P2b & P2c & P2d)]; [exfalso; subst u; unfold unit_of in U; unfold zero_or in Q3; lia|]. subst u.
    eexists. split; [reflexivity|]. constructor; cbn [set_size d_pw d_ph d_stereo d_old].
    + auto.
    + exact P1.
    + right. right. split; [exact U|]. split; [reflexivity|]. split; [exact P2b|]. split; [exact P2c|exact P2d].
    + left. subst dw dh. split; reflexivity.
    + intros _ _. left. reflexivity.
    + right. left. cbn. lia.
    + right. right. left. split; [exact ND|]. split; [exact U|]. split; [reflexivity|]. repeat (split; [reflexivity|]). reflexivity.
  - set (v3 := set_size (set_size v dw dh u) (d_dw (set_size v dw dh u)) (d_dh (set_size v dw dh u)) (Some (zero_or u))).
    assert (Uu : u = d_unit v) by (destruct P2 as [P2|(P2 & _)]; [exact P2|subst u; cbn in Q3; discriminate]).
    assert (Z0 : zero_or u = 0) by (rewrite Uu; exact U).
    destruct (crop_ok v3 (match d_dw v3 with Some x => x | None => W end) (match d_dh v3 with Some x => x | None => H end)) as (l & r & t & b & Ec & Cr); [exact Sl|exact Sr|exact St|exact Sb|]. rewrite Ec. cbn [bind].
    eexists. split; [reflexivity|]. constructor; cbn [set_size set_crop d_pw d_ph d_stereo d_old v3].
    + auto.
    + exact P1.
    + left. cbn. rewrite U. exact Z0.
    + destruct P3 as [P3|(P3 & P3b & P3c)]; [left; exact P3|right]. split; [exact U|]. split; [exact Z0|]. split; [exact P3b|exact P3c].
    + intros _ T. destruct (P4 T) as [K|K]; [exfalso; rewrite K in Q3; cbn in Q3; discriminate|right; exact K].
    + destruct P5 as [P5|P5]; [exfalso; rewrite P5 in Q3; cbn in Q3; discriminate|]. right. right. exact P5.
    + right. right. right. split; [exact ND|]. split; [cbn; rewrite Z0; lia|]. exact Cr.
Qed.

Lemma display_none v W H : no_display v -> clean_display v W H = Ok (Some v) /\ displayed v v W H.
Proof.
  intros [E1 E2]. unfold clean_display. rewrite E1, E2. split; [reflexivity|].
  assert (S1 : shown_w v W = W) by (unfold shown_w; rewrite E1; reflexivity). assert (S2 : shown_h v H = H) by (unfold shown_h; rewrite E2; reflexivity).
  constructor.
  - auto.
  - unfold same_shape. ring.
  - left. reflexivity.
  - left. split; reflexivity.
  - intros _ _. right. left. exact S1.
  - left. split; assumption.
  - left. split; [split; assumption|]. repeat (split; [reflexivity|]). reflexivity.
Qed.

Lemma display_all v W H : sane v W H ->
  (clean_display v W H = Ok None /\ unit_of v = 0 /\ gone v) \/
  (~ (unit_of v = 0 /\ gone v) /\ exists v', clean_display v W H = Ok (Some v') /\ displayed v v' W H).
Proof.
  intros S. assert (D : no_display v \/ ~ no_display v) by (unfold no_display; destruct (d_dw v), (d_dh v); (left; split; reflexivity) || (right; intros [? ?]; discriminate)).
  destruct D as [ND|ND].
  { right. split; [intros [_ G]; destruct ND as [N1 N2]; unfold gone in G; rewrite N1, N2 in G; destruct G as [G|[_ G]]; discriminate|]. exists v. apply display_none, ND. }
  assert (Step : clean_display v W H =
      let is o x := match o with Some y => x =? y | None => true end in
      do v1 <- (match d_unit v with
                | Some u => if u =? 3 then if is (d_dw v) W && is (d_dh v) H then Ok (set_size v (d_dw v) (d_dh v) (Some 0)) else clean_crop v 0 0 else Ok v
                | None => Ok v
                end);
      do r <- (if match d_unit v1 with None => true | Some u => u =? 0 end then clean_pixels v1 W H else Ok (Some v1));
      match r with
      | None => Ok None
      | Some v2 =>
          let v3 := set_size v2 (d_dw v2) (d_dh v2) (Some (zero_or (d_unit v2))) in
          if zero_or (d_unit v2) =? 3 then Ok (Some v3)
          else do v4 <- clean_crop v3 (match d_dw v3 with Some x => x | None => W end) (match d_dh v3 with Some x => x | None => H end); Ok (Some v4)
      end).
  { unfold clean_display, no_display in *. destruct (d_dw v), (d_dh v); try reflexivity. exfalso. apply ND. split; reflexivity. }
  rewrite Step. clear Step. cbv zeta. pose proof S as (HW & HH & Sw & Sh & Sl & Sr & St & Sb).
  assert (U : (d_unit v = Some 3) \/ (unit_of v = 0 /\ match d_unit v with Some u => u =? 3 | None => false end = false) \/ (exists u, d_unit v = Some u /\ u <> 0 /\ u <> 3)).
  { unfold unit_of. destruct (d_unit v) as [u|]; [|right; left; split; reflexivity]. destruct (Z.eq_dec u 3) as [->|N3]; [left; reflexivity|]. right. destruct (Z.eq_dec u 0) as [->|N0]; [left; split; reflexivity|right; exists u; auto]. }
  destruct U as [U|[[U U']|(u & U & N0 & N3)]].
  - assert (U3 : unit_of v = 3) by (unfold unit_of; rewrite U; reflexivity). right. split; [intros [K _]; lia|]. rewrite U. change (3 =? 3) with true. cbn iota.
    destruct (match d_dw v with Some y => W =? y | None => true end && match d_dh v with Some y => H =? y | None => true end) eqn:Q.
    + apply andb_true_iff in Q. destruct Q as [Q1 Q2].
      assert (EW : shown_w v W = W) by (unfold shown_w; destruct (d_dw v); [lia|reflexivity]). assert (EH : shown_h v H = H) by (unfold shown_h; destruct (d_dh v); [lia|reflexivity]).
      set (v1 := set_size v (d_dw v) (d_dh v) (Some 0)).
      destruct (pixels_tail v1 W H) as (v' & E & D); [exact S|exact ND|reflexivity| |].
      { unfold gone. cbn [v1 set_size d_dw d_dh]. destruct (d_dw v), (d_dh v); intros [K|[K1 K2]]; try discriminate; try (injection K as ->; lia); try (injection K2 as ->; lia); apply K1; reflexivity. }
      cbn [bind]. change (d_unit v1) with (Some 0). cbn iota. exists v'. split; [exact E|]. destruct D as [D1 D2 D3 D4 D5 D6 D7].
      assert (T : ~ taken_for_ratio W H (shown_w v1 W) (shown_h v1 H)) by (change (shown_w v1 W) with (shown_w v W); rewrite EW; intros (K & _); lia).
      change (unit_of v1) with 0 in *. constructor.
      * exact D1.
      * exact D2.
      * right. left. split; [exact U3|]. destruct D3 as [D3|[(K & _)|(_ & _ & K & _)]]; [|discriminate|contradiction]. auto.
      * destruct D4 as [D4|(_ & _ & K & _)]; [left; exact D4|contradiction].
      * intros K. lia.
      * exact D6.
      * destruct D7 as [D7|[(_ & K & _)|[(_ & _ & K & _)|D7]]]; [destruct D7 as [K _]; contradiction|discriminate| |].
        -- exfalso. destruct D3 as [D3|[(K' & _)|(_ & _ & K' & _)]]; [lia|discriminate|contradiction].
        -- right. right. right. exact D7.
    + rewrite crop_zero by assumption. cbn [bind set_crop d_unit]. rewrite ?U. change (3 =? 0) with false. cbn iota. cbn [bind set_crop d_unit]. cbn iota. rewrite ?U.
      change (zero_or (Some 3) =? 3) with true. cbn iota. eexists. split; [reflexivity|]. constructor; cbn [set_size set_crop d_pw d_ph d_stereo d_old d_dw d_dh].
      * auto.
      * unfold same_shape. cbn. unfold shown_w, shown_h. cbn. ring.
      * left. rewrite U3. reflexivity.
      * left. split; reflexivity.
      * intros K. lia.
      * right. left. cbn. lia.
      * right. left. split; [exact ND|]. split; [exact U3|]. split; [reflexivity|]. repeat (split; [reflexivity|]). reflexivity.
  - assert (E1 : (match d_unit v with Some u => if u =? 3 then if match d_dw v with Some y => W =? y | None => true end && match d_dh v with Some y => H =? y | None => true end then Ok (set_size v (d_dw v) (d_dh v) (Some 0)) else clean_crop v 0 0 else Ok v | None => Ok v end) = Ok v) by (destruct (d_unit v); [rewrite U'; reflexivity|reflexivity]).
    rewrite E1. cbn [bind]. replace (match d_unit v with None => true | Some u => u =? 0 end) with true by (unfold unit_of in U; destruct (d_unit v); [subst; reflexivity|reflexivity]).
    destruct (gone_dec v) as [G|G].
    + left. destruct (pixels_ok v W H HW HH Sw Sh ND) as [[E _]|[K _]]; [|contradiction]. rewrite E. cbn [bind]. auto.
    + right. split; [intros [_ K]; contradiction|]. exact (pixels_tail v W H S ND U G).
  - right. assert (Uv : unit_of v = u) by (unfold unit_of; rewrite U; reflexivity). split; [intros [K _]; lia|]. rewrite U. replace (u =? 3) with false by lia. cbn [bind]. rewrite U. replace (u =? 0) with false by lia. cbn [bind]. rewrite U. cbn [zero_or]. replace (u =? 3) with false by lia.
    set (v3 := set_size v (d_dw v) (d_dh v) (Some u)).
    destruct (crop_ok v3 (match d_dw v3 with Some x => x | None => W end) (match d_dh v3 with Some x => x | None => H end)) as (l & r & t & b & Ec & Cr); [exact Sl|exact Sr|exact St|exact Sb|]. rewrite Ec. cbn [bind].
    eexists. split; [reflexivity|]. constructor; cbn [set_size set_crop d_pw d_ph d_stereo d_old v3].
    + auto.
    + unfold same_shape. cbn. unfold shown_w, shown_h. cbn. ring.
    + left. rewrite Uv. reflexivity.
    + left. split; reflexivity.
    + intros K. lia.
    + right. left. cbn. exact N0.
    + right. right. right. split; [exact ND|]. split; [cbn; exact N3|]. exact Cr.
Qed.
