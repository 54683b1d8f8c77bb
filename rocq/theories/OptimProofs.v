From Verif Require Import Base BaseProofs FinderSpec Tree Stream TreeRead Arr TreeProofs3 Block BlockSpec BlockProofs BlockProofs2 BlockProofs3 Frame BlockProofs4 BlockProofs5 BlockProofs6 Clean CleanSpec CleanProofs Optim OptimSpec.

Lemma frames_from_ok b fs : holds (b_sizes b) (b_data b) fs -> has_bytes fs -> forall k n, (n + k <= length fs)%nat ->
  frames_from b k (Z.of_nat n) = Ok (firstn k (skipn n fs)).
Proof.
  intros H (N & L). induction k as [|k IH]; intros n Hn; [reflexivity|]. cbn [frames_from].
  destruct (get_frame_ok b 0 fs (Z.of_nat n) H L) as (f & G & M & _); [unfold zlen; lia|exact N|].
  unfold frame_at. rewrite G, M. cbn [opt_res bind]. replace (Z.of_nat n + 1) with (Z.of_nat (S n)) by lia. rewrite IH by lia. cbn [bind].
  rewrite Nat2Z.id. f_equal. clear -Hn. revert fs Hn. induction n as [|n IHn]; intros [|x fs] Hn; cbn [length] in Hn; try lia; [reflexivity|].
  cbn [skipn nth]. apply IHn. lia.
Qed.

Lemma frames_of_ok b fs : holds (b_sizes b) (b_data b) fs -> has_bytes fs -> frames_of b = Ok fs.
Proof.
  intros H B. unfold frames_of. destruct H as (H1 & H2). rewrite H1, map_length.
  change 0 with (Z.of_nat 0). rewrite (frames_from_ok b fs (conj H1 H2) B) by lia. cbn [skipn]. rewrite firstn_all. reflexivity.
Qed.

Lemma not_compressed t h0 : track_header t h0 -> is_compressed t = Ok false.
Proof. intros [|e l E|scope h H|scope]; cbn; [reflexivity|rewrite E; reflexivity|reflexivity|reflexivity]. Qed.

Lemma look_ok t h0 moved s b fs h pos : track_header t h0 -> stored s h0 b fs -> has_bytes fs ->
  exists p, look t moved s h b pos = Ok (shrink h (mkHB true false fs), p).
Proof.
  intros T (ps & E & S1 & S2 & S3 & S4 & S5) B. destruct (header_stripped t h0 T) as [Hst Hsc]. rewrite E in S2.
  destruct (read_data_ok b t h0 moved s pos ps Hst Hsc S1 S2 S3 S4 S5) as (b1 & q & R & _ & Hh & _). rewrite <- E in Hh.
  assert (G : exists p, (do r <- read_data b t moved s pos; let '(err, b', p) := r in
      if negb (err =? ERR_NONE) then Ok (h, p) else do c <- is_compressed t; if (c : bool) then Ok (h, p)
           else do fs <- frames_of b'; Ok (shrink h (mkHB true false fs), p)) = Ok (shrink h (mkHB true false fs), p)).
  { exists q. rewrite R. cbn [bind]. change (negb (ERR_NONE =? ERR_NONE)) with false. cbv iota. rewrite (not_compressed t h0 T). cbn [bind].
    rewrite (frames_of_ok b1 fs Hh B). reflexivity. }
  unfold look. destruct h as [|[|x h]]; [exact G| |exact G]. exists pos. reflexivity.
Qed.

Lemma look_all_ok t h0 moved s bs fss : track_header t h0 -> Forall2 (stored s h0) bs fss -> Forall has_bytes fss -> forall h pos,
  look_all t moved s h bs pos = Ok (fold_left shrink (map (mkHB true false) fss) h).
Proof.
  intros T F. induction F as [|b fs bs fss S F IH]; intros B h pos; [reflexivity|]. inversion B as [|x y B1 B2]; subst.
  cbn [look_all map fold_left]. destruct (look_ok t h0 moved s b fs h pos T S B1) as (p & ->). cbn [bind Datatypes.fst Datatypes.snd]. apply IH. exact B2.
Qed.

Lemma seen_all fss : frames_seen (map (mkHB true false) fss) = concat fss.
Proof. unfold frames_seen. induction fss as [|fs fss IH]; [reflexivity|]. cbn [map filter hb_read hb_comp negb andb concat hb_frames]. rewrite IH. reflexivity. Qed.
