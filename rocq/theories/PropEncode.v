(** C106-C107. *)
From Verif Require Import Base BaseProofs IntEltProofs Vint EbmlId Ebml Tree TreeRead Create Str StrSpec StrProofs Durations DurationsSpec DurationsProofs Frame Block BlockTime Cues CuesSpec Tracks TracksSpec TracksProofs PropTracks Encode EncodeSpec EncodeProofs EncodeProofs2.

(** ** C106 *)
(** Every block is linked to a track of the list and every number fits an int: the blocks of audio and
    subtitle tracks become key frames that must not be dropped and the others keep their marks; nothing
    else of a block changes; a track has the default FlagLacing, 1, when one of its blocks has several
    frames, and FlagLacing 0 when none has. *)
Theorem C106_lacing : forall profile items l,
  (forall t n, In t l -> l_num t = Some n -> 0 <= n < 2 ^ 31 - 1) ->
  Forall (fun b => m_type b <> None /\ exists t, In t l /\ l_num t = Some (m_num b)) (blocks_of items) ->
  ~ ((profile = 1 \/ profile = 16) /\ exists b, In (MSimple b) items) ->
  exists items' l', lacing_flags profile items l = Ok (0, items', l') /\ Forall2 marked_item items items' /\
    Forall2 (fun t t' => l_num t' = l_num t /\ forall n, l_num t = Some n -> (laced n items -> l_flag t' = None) /\ (~ laced n items -> l_flag t' = Some 0)) l l'.
Proof. exact lacing_ok. Qed.
Print Assumptions C106_lacing.
Definition ex_items : list mitem :=
  [MOther; MGroup (Some (mkMB 1 (Some 1) 1 false true)); MSimple (mkMB 2 (Some 2) 3 false true); MGroup None; MSimple (mkMB 3 (Some 17) 1 true true)].
Example C106_lacing_ex : lacing_flags 2 ex_items [mkLT (Some 1) None; mkLT (Some 2) (Some 0); mkLT None (Some 5); mkLT (Some 3) (Some 1)] =
  Ok (0, [MOther; MGroup (Some (mkMB 1 (Some 1) 1 false true)); MSimple (mkMB 2 (Some 2) 3 true false); MGroup None; MSimple (mkMB 3 (Some 17) 1 true false)],
      [mkLT (Some 1) (Some 0); mkLT (Some 2) None; mkLT None (Some 5); mkLT (Some 3) (Some 0)]) /\
  laced 2 ex_items /\ ~ laced 1 ex_items.
Proof.
  split; [reflexivity|]. split; [exists (mkMB 2 (Some 2) 3 false true); split; [right; left; reflexivity|]; split; [reflexivity|cbn; lia]|].
  intros (b & [<-|[<-|[<-|[]]]] & H1 & H2); cbn in H1, H2; lia.
Qed.

(** Matroska v1 and DivX have no SimpleBlock: the file is refused with -32 and nothing changes. *)
Theorem C106_old_profiles : forall profile items l, profile = 1 \/ profile = 16 -> (exists b, In (MSimple b) items) -> lacing_flags profile items l = Ok (-32, items, l).
Proof. exact refused. Qed.
Print Assumptions C106_old_profiles.
Example C106_old_profiles_ex : lacing_flags 16 ex_items [mkLT (Some 1) None] = Ok (-32, ex_items, [mkLT (Some 1) None]).
Proof. reflexivity. Qed.

(** A track number is a 64-bit element and is stored in an int: one track numbered 2^31 + 5, in a file
    without any block, makes mkclean read outside of its array. *)
Theorem C106_lacing_refuted : exists n, 0 <= n < 2 ^ 63 /\ lacing_flags 2 [] [mkLT (Some n) None] = Bad.
Proof.
  exists 2147483653. split; [lia|]. unfold lacing_flags.
  change (new_tracks [mkLT (Some 2147483653) None]) with (@nil bool). change (link_clusters 2 [] []) with (Ok (0, @nil bool, @nil mitem)). cbn [bind].
  change (negb (0 =? 0)) with false. cbv iota. cbn [fix_all]. unfold fix_lacing. cbn [l_num]. change (2147483653 <? 0) with false. cbv iota.
  destruct (Z.to_nat 2147483653); reflexivity.
Qed.
Print Assumptions C106_lacing_refuted.

(** ** C107 *)
(** --unoptimize: no compression is left, and the frames are read again when there was one. *)
Theorem C107_unoptimize : forall rest td zl o hdr codec fuel prof t p, o_un o = true -> o_opt o = false -> plain_track (T rest) t -> private (T rest) t p -> p <> Some [] ->
  exists need t', encode_track rest td zl o hdr codec fuel prof t = Ok (need, t') /\ uncompressed (T rest) t' /\ others (T rest) 28032 (kids t) (kids t') /\
    (need = true <-> exists d, In d (kids t) /\ has_id (T rest) 28032 d).
Proof.
  intros rest td zl o hdr codec fuel prof t p Hu Ho Ht Hp Np. destruct (set_none_ok rest t Ht) as (_ & _ & _ & _ & _ & _ & _ & Hh).
  destruct (finish_none rest td 0 None fuel prof t Ht) as (need & t' & E & H1 & H2 & H3 & _).
  exists need, t'. split; [|split; [exact H1|split; [exact H2|rewrite H3; exact Hh]]]. rewrite <- E.
  apply (encode_finish rest td zl o hdr codec fuel prof t (-1) None 0 (-1) 0); [exact (drop_solid rest t p Hp Np)| |reflexivity|].
  - unfold choose. rewrite Hu. reflexivity.
  - apply try_not. intros [[W|W] _]; [congruence|apply W; reflexivity].
Qed.
Print Assumptions C107_unoptimize.
Definition no_zl (d : list Z) : option Z := None.
Definition id0 (x : Z) : Z := x.
Lemma private_ex : private (T void) ex_track (Some [1; 2; 3]).
Proof. exists (inf0 3), [lf 2 7; ex_enc 1 0], []. split; [reflexivity|]. split; [reflexivity|]. repeat constructor; intros X; discriminate X. Qed.
Lemma plain_ex : plain_track (T void) ex_track.
Proof.
  eexists _, _, _. split; [reflexivity|]. right. exists (ex_enc 1 0), [lf 2 7], [Leaf (inf0 3) (VBin [1; 2; 3])]. split; [reflexivity|]. split; [reflexivity|].
  repeat constructor; intros X; discriminate X.
Qed.
Lemma declares_now : declares (T void) ex_track 1 0 None.
Proof.
  exists (inf0 4), 0, [Master (inf0 5) 0 [lf 7 1; Master (inf0 9) 0 [lf 10 0]]], (Master (inf0 5) 0 [lf 7 1; Master (inf0 9) 0 [lf 10 0]]), (Master (inf0 9) 0 [lf 10 0]), (inf0 7).
  split; [exists [lf 2 7], [Leaf (inf0 3) (VBin [1; 2; 3])]; split; [reflexivity|]; split; [reflexivity|]; repeat constructor; intros X; discriminate X|].
  split; [reflexivity|]. split; [reflexivity|]. split; [exists [], [Master (inf0 9) 0 [lf 10 0]]; split; [reflexivity|]; split; [reflexivity|]; repeat constructor; intros X; discriminate X|].
  split; [exists [lf 7 1], []; split; [reflexivity|]; split; [reflexivity|]; repeat constructor; intros X; discriminate X|].
  split; [exists (inf0 10), [], []; split; [reflexivity|]; split; [reflexivity|]; constructor|]. repeat constructor; intros X; discriminate X.
Qed.
Example C107_unoptimize_ex : plain_track (T void) ex_track /\ private (T void) ex_track (Some [1; 2; 3]) /\
  encode_track void id0 no_zl (mkOpt true false true (-1)) [] [] 2 1 ex_track = Ok (true, Master (with_need (inf0 1) true) 0 [lf 2 7; Leaf (inf0 3) (VBin [1; 2; 3])]).
Proof. split; [exact plain_ex|]. split; [exact private_ex|]. vm_compute. reflexivity. Qed.

(** Neither --optimize nor --unoptimize: a track without compression is left as it is, and its frames are
    not read again. *)
Theorem C107_keep_none : forall rest td zl o hdr codec fuel prof t p, o_un o = false -> o_opt o = false -> uncompressed (T rest) t -> private (T rest) t p -> p <> Some [] ->
  encode_track rest td zl o hdr codec fuel prof t = Ok (false, t).
Proof.
  intros rest td zl o hdr codec fuel prof t p Hu Ho Ht Hp Np.
  rewrite (encode_finish rest td zl o hdr codec fuel prof t (-1) None 0 (-1) 0); [|exact (drop_solid rest t p Hp Np)| |reflexivity|].
  - unfold finish. change ((-1 =? COMP_ZLIB) || (-1 =? COMP_BZLIB) || (-1 =? COMP_LZO1X)) with false. change (-1 =? COMP_HEADERSTRIP) with false. cbv iota. cbn [bind].
    rewrite (none_plain rest t Ht). cbn [fst snd]. rewrite (coded_plain rest td fuel prof t Ht). reflexivity.
  - unfold choose. rewrite Hu, Ho. cbn [negb]. rewrite (get_plain rest td fuel prof t Ht). cbn [bind]. rewrite (touch_plain rest td fuel prof t Ht). reflexivity.
  - apply try_not. intros [[W|W] _]; [congruence|apply W; reflexivity].
Qed.
Print Assumptions C107_keep_none.
Definition ex_open : elt := Master (inf0 1) 0 [lf 2 7; Leaf (inf0 3) (VBin [1; 2; 3])].
Example C107_keep_none_ex : uncompressed (T void) ex_open /\ private (T void) ex_open (Some [1; 2; 3]).
Proof.
  split; [repeat constructor; intros X; discriminate X|]. exists (inf0 3), [lf 2 7], []. split; [reflexivity|]. split; [reflexivity|]. repeat constructor; intros X; discriminate X.
Qed.

(** Frames compressed with zlib, bzlib or lzo1x (0, 1, 2) whose private data would not shrink: the track
    declares zlib with the scope it had, and the frames are read again. *)
Theorem C107_keep_zlib : forall rest td zl o hdr codec fuel prof t p scope algo st, (2 <= fuel)%nat -> o_un o = false -> o_opt o = false -> plain_track (T rest) t ->
  declares (T rest) t scope algo st -> 0 < scope < 2 ^ 31 -> Z.odd scope = true -> 0 <= algo <= 2 -> private (T rest) t p -> p <> Some [] ->
  ~ gain zl (3 + if o_algo o =? 0 then 0 else 1) p ->
  exists t', encode_track rest td zl o hdr codec fuel prof t = Ok (true, t') /\ declares (T rest) t' scope 0 None /\ others (T rest) 28032 (kids t) (kids t').
Proof.
  intros rest td zl o hdr codec fuel prof t p scope algo st Hf Hu Ho Ht Hd Hs Hod Ha Hp Np G.
  destruct (finish_zlib rest td algo scope None fuel prof t Hf Ht Ha ltac:(lia)) as (need & t' & E & H1 & H2 & H3 & _).
  exists t'. split; [|split; [exact H1|exact H2]]. rewrite (none_declared rest t _ _ _ Hd) in H3. cbn [orb] in H3. subst need. rewrite <- E.
  apply (encode_finish rest td zl o hdr codec fuel prof t algo None scope algo scope); [exact (drop_solid rest t p Hp Np)| | |].
  - unfold choose. rewrite Hu, Ho. cbn [negb]. rewrite (declares_get rest td fuel prof t _ _ _ Hd), Hod. cbn [bind]. rewrite (touch_declares rest td fuel prof t _ _ _ Hd). cbn [bind]. rewrite s32_ok by lia. reflexivity.
  - replace (algo =? -1) with false by lia. rewrite (scope_declared rest td fuel prof t _ _ _ Hd), s32_ok by lia. reflexivity.
  - apply (try_off rest zl o algo scope t p Hp). unfold extra_of. replace (algo =? -1) with false by lia. exact G.
Qed.
Print Assumptions C107_keep_zlib.
Example C107_keep_zlib_ex : plain_track (T void) ex_track /\ declares (T void) ex_track 1 0 None /\ private (T void) ex_track (Some [1; 2; 3]) /\ ~ gain no_zl 4 (Some [1; 2; 3]).
Proof. split; [exact plain_ex|]. split; [exact declares_now|]. split; [exact private_ex|]. intros (d & n & _ & H & _). discriminate H. Qed.

(** Frames whose header is stripped: the track is left as it is. *)
Theorem C107_keep_strip : forall rest td zl o hdr codec fuel prof t p scope st, o_un o = false -> o_opt o = false -> declares (T rest) t scope 3 st -> Z.odd scope = true ->
  private (T rest) t p -> p <> Some [] -> encode_track rest td zl o hdr codec fuel prof t = Ok (true, t).
Proof.
  intros rest td zl o hdr codec fuel prof t p scope st Hu Ho Hd Hod Hp Np.
  rewrite (encode_finish rest td zl o hdr codec fuel prof t 3 None (s32 scope) 3 (s32 scope)); [apply (finish_keep rest td _ fuel prof t scope st Hd)|exact (drop_solid rest t p Hp Np)| |cbn [Z.eqb]; exact (scope_declared rest td fuel prof t _ _ _ Hd)|].
  - unfold choose. rewrite Hu, Ho. cbn [negb]. rewrite (declares_get rest td fuel prof t _ _ _ Hd), Hod. cbn [bind]. rewrite (touch_declares rest td fuel prof t _ _ _ Hd). reflexivity.
  - apply try_not. intros [_ [W _]]. apply W. reflexivity.
Qed.
Print Assumptions C107_keep_strip.
Definition ex_strip : elt := Master (inf0 1) 0 [lf 2 7; Master (inf0 4) 0 [Master (inf0 5) 0 [lf 7 1; Master (inf0 9) 0 [lf 10 3; Leaf (inf0 11) (VBin [9])]]]].
Example C107_keep_strip_ex : declares (T void) ex_strip 1 3 (Some [9]) /\ private (T void) ex_strip None /\
  encode_track void id0 no_zl (mkOpt false false true (-1)) [] [] 2 1 ex_strip = Ok (true, ex_strip).
Proof.
  split; [|split; [repeat constructor; intros X; discriminate X|vm_compute; reflexivity]].
  eexists (inf0 4), 0, _, _, _, (inf0 7). split; [exists [lf 2 7], []; split; [reflexivity|]; split; [reflexivity|]; repeat constructor; intros X; discriminate X|].
  split; [reflexivity|]. split; [reflexivity|]. cbn [kids]. split; [eexists [], _; split; [reflexivity|]; split; [reflexivity|]; repeat constructor; intros X; discriminate X|].
  split; [exists [lf 7 1], []; split; [reflexivity|]; split; [reflexivity|]; repeat constructor; intros X; discriminate X|]. cbn [kids].
  split; [eexists _, [], _; split; [reflexivity|]; split; [reflexivity|]; repeat constructor; intros X; discriminate X|].
  eexists _, [lf 10 3], []. split; [reflexivity|]. split; [reflexivity|]. repeat constructor; intros X; discriminate X.
Qed.

(** --optimize with --compalgo 0: the frames are compressed with zlib; the scope is the one the track
    declared, the frames if it declared none, and the private data with it when that saves 4 bytes. *)
Theorem C107_forced : forall rest td zl o hdr codec fuel prof t p scope, (2 <= fuel)%nat -> o_un o = false -> o_opt o = true -> o_algo o = 0 -> plain_track (T rest) t ->
  uncompressed (T rest) t /\ scope = 1 \/ (exists algo st, declares (T rest) t scope algo st) /\ 0 < scope < 2 ^ 31 ->
  private (T rest) t p -> p <> Some [] ->
  exists need t' scope', encode_track rest td zl o hdr codec fuel prof t = Ok (need, t') /\ declares (T rest) t' scope' 0 None /\ others (T rest) 28032 (kids t) (kids t') /\
    (gain zl 3 p -> scope' = Z.lor scope 2) /\ (~ gain zl 3 p -> scope' = scope) /\ (Z.odd scope = true -> need = true).
Proof.
  intros rest td zl o hdr codec fuel prof t p scope Hf Hu Ho Ha Ht Hd Hp Np.
  assert (Sc : scope_now rest td fuel prof t = Ok scope /\ 0 < scope < 2 ^ 31).
  { destruct Hd as [[Hd ->]|[(algo & st & Hd) Hs]]; [split; [exact (scope_plain rest td fuel prof t Hd)|lia]|]. split; [|exact Hs]. rewrite (scope_declared rest td fuel prof t _ _ _ Hd), s32_ok by lia. reflexivity. }
  destruct Sc as [Sc Hs].
  assert (C : choose rest td o hdr codec fuel prof t = Ok (0, None, t)) by (unfold choose; rewrite Hu, Ho, Ha; reflexivity).
  assert (X : extra_of o 0 = 3) by (unfold extra_of; rewrite Ha; reflexivity).
  assert (D : gain zl 3 p \/ ~ gain zl 3 p).
  { destruct p as [d|]; [|right; intros (x & n & E & _); discriminate E]. destruct (zl d) as [n|] eqn:Z; [|right; intros (x & n & [= <-] & E & _); congruence].
    destruct (Z_lt_dec (n + 3) (zlen d)) as [L|L]; [left; exists d, n; auto|]. right. intros (x & m & [= <-] & E & L'). rewrite Z in E. injection E as <-. contradiction. }
  assert (L2 : 0 < Z.lor scope 2 < 2 ^ 31).
  { split; [pose proof (proj2 (Z.lor_nonneg scope 2)) as K; specialize (K ltac:(lia)); assert (Z.lor scope 2 <> 0); [intros E; apply Z.lor_eq_0_iff in E; lia|lia]|].
    apply Z.log2_lt_pow2; [assert (Z.lor scope 2 <> 0); [intros E; apply Z.lor_eq_0_iff in E; lia|pose proof (proj2 (Z.lor_nonneg scope 2)); lia]|].
    rewrite Z.log2_lor by lia. apply Z.max_lub_lt; [apply Z.log2_lt_pow2; lia|reflexivity]. }
  assert (O2 : Z.odd (Z.lor scope 2) = Z.odd scope).
  { rewrite <- !Z.bit0_odd, Z.lor_spec. change (Z.testbit 2 0) with false. apply orb_false_r. }
  assert (GO : forall scope', 0 < scope' < 2 ^ 31 -> Z.odd scope' = Z.odd scope -> try_private rest zl o 0 scope t = (0, scope') -> (gain zl 3 p -> scope' = Z.lor scope 2) -> (~ gain zl 3 p -> scope' = scope) ->
    exists need t' scope', encode_track rest td zl o hdr codec fuel prof t = Ok (need, t') /\ declares (T rest) t' scope' 0 None /\ others (T rest) 28032 (kids t) (kids t') /\
    (gain zl 3 p -> scope' = Z.lor scope 2) /\ (~ gain zl 3 p -> scope' = scope) /\ (Z.odd scope = true -> need = true)).
  { intros scope' Hs' Hodd Hy G1 G2. destruct (finish_zlib rest td 0 scope' None fuel prof t Hf Ht ltac:(lia) ltac:(lia)) as (need & t' & E & H1 & H2 & H3 & _).
    exists need, t', scope'. split; [rewrite <- E; apply (encode_finish rest td zl o hdr codec fuel prof t 0 None scope 0 scope'); [exact (drop_solid rest t p Hp Np)|exact C|exact Sc|exact Hy]|].
    split; [exact H1|]. split; [exact H2|]. split; [exact G1|]. split; [exact G2|]. intros Od. rewrite H3, Hodd, Od. apply orb_true_r. }
  destruct D as [G|G].
  - destruct (Z.eq_dec scope 2) as [->|N].
    + apply (GO 2); [lia|reflexivity|apply try_not; intros (_ & _ & W); apply W; reflexivity|reflexivity|reflexivity].
    + apply (GO (Z.lor scope 2)); [exact L2|exact O2| |reflexivity|contradiction].
      rewrite (try_on rest zl o 0 scope t p Hp); [rewrite Ha; reflexivity|rewrite X; exact G|]. split; [left; exact Ho|split; [lia|exact N]].
  - apply (GO scope); [exact Hs|reflexivity| |contradiction|reflexivity]. apply (try_off rest zl o 0 scope t p Hp). rewrite X. exact G.
Qed.
Print Assumptions C107_forced.
Definition half (d : list Z) : option Z := Some (zlen d / 2).
Definition ex_long : elt := Master (inf0 1) 0 [lf 2 7; Leaf (inf0 3) (VBin [1; 1; 1; 1; 1; 1; 1; 1; 1; 1])].
Example C107_forced_ex : uncompressed (T void) ex_long /\ gain half 3 (Some [1; 1; 1; 1; 1; 1; 1; 1; 1; 1]) /\
  match encode_track void id0 half (mkOpt false true true 0) [] [] 2 1 ex_long with
  | Ok (need, t) => need = true /\ encodings_of void t = Ok (Some [mkEnc true (Some 3) (Some (mkCompr (Some 0) None))])
  | _ => False
  end.
Proof. split; [repeat constructor; intros X; discriminate X|]. split; [eexists _, _; split; [reflexivity|]; split; [reflexivity|vm_compute; reflexivity]|]. vm_compute. split; reflexivity. Qed.

(** --optimize alone: a codec that stores plain data is compressed with zlib if its private data would not
    shrink by 5 bytes or more. *)
Theorem C107_plain : forall rest td zl o hdr id junk fuel prof t p scope, (2 <= fuel)%nat -> o_un o = false -> o_opt o = true -> o_algo o = -1 -> plain_track (T rest) t ->
  text id -> stores_plain id -> uncompressed (T rest) t /\ scope = 1 \/ (exists algo st, declares (T rest) t scope algo st) /\ 0 < scope < 2 ^ 31 ->
  private (T rest) t p -> p <> Some [] -> ~ gain zl 4 p ->
  exists need t', encode_track rest td zl o hdr (id ++ 0 :: junk) fuel prof t = Ok (need, t') /\ declares (T rest) t' scope 0 None /\ others (T rest) 28032 (kids t) (kids t') /\
    (Z.odd scope = true -> need = true).
Proof.
  intros rest td zl o hdr id junk fuel prof t p scope Hf Hu Ho Ha Ht Hi Hc Hd Hp Np G.
  assert (Sc : scope_now rest td fuel prof t = Ok scope /\ 0 < scope < 2 ^ 31).
  { destruct Hd as [[Hd ->]|[(algo & st & Hd) Hs]]; [split; [exact (scope_plain rest td fuel prof t Hd)|lia]|]. split; [|exact Hs]. rewrite (scope_declared rest td fuel prof t _ _ _ Hd), s32_ok by lia. reflexivity. }
  destruct Sc as [Sc Hs].
  assert (C : choose rest td o hdr (id ++ 0 :: junk) fuel prof t = Ok (0, None, t)).
  { unfold choose. rewrite Hu, Ho, Ha. cbn [negb]. change (negb (-1 =? COMP_NONE)) with false. cbv iota. destruct (plain_codec_ok id junk Hi) as [[-> _]|[_ N]]; [reflexivity|contradiction]. }
  destruct (finish_zlib rest td 0 scope None fuel prof t Hf Ht ltac:(lia) ltac:(lia)) as (need & t' & E & H1 & H2 & H3 & _).
  exists need, t'. split; [|split; [exact H1|split; [exact H2|intros Od; rewrite H3, Od; apply orb_true_r]]].
  rewrite <- E. apply (encode_finish rest td zl o hdr _ fuel prof t 0 None scope 0 scope); [exact (drop_solid rest t p Hp Np)|exact C|exact Sc|].
  apply (try_off rest zl o 0 scope t p Hp). unfold extra_of. rewrite Ha. exact G.
Qed.
Print Assumptions C107_plain.
Example C107_plain_ex : stores_plain [115; 95; 117; 115; 70] /\ stores_plain [65; 95; 80; 67; 77; 47; 73; 78; 84] /\ text [65; 95; 80; 67; 77; 47; 73; 78; 84] /\
  match encode_track void id0 no_zl (mkOpt false true true (-1)) [1] [65; 95; 80; 67; 77; 47; 73; 78; 84; 0] 2 1 ex_long with
  | Ok (need, t) => need = true /\ encodings_of void t = Ok (Some [mkEnc true (Some 1) (Some (mkCompr (Some 0) None))])
  | _ => False
  end.
Proof.
  split; [left; exists [83; 95; 85; 83; 70]; split; [left; reflexivity|]; repeat (constructor; [unfold same_letter; lia|]); constructor|].
  split; [right; exists [47; 73; 78; 84]; reflexivity|]. split; [known_text|]. vm_compute. split; reflexivity.
Qed.

(** --optimize alone, other codecs: the header that the frames share is stripped, whatever was declared
    before; without one no compression is left.  The frames are read again when there was one. *)
Theorem C107_strip : forall rest td zl o hdr id junk fuel prof t p, (2 <= fuel)%nat -> o_un o = false -> o_opt o = true -> o_algo o = -1 -> plain_track (T rest) t ->
  text id -> ~ stores_plain id -> uncompressed (T rest) t \/ (exists scope algo st, declares (T rest) t scope algo st) ->
  private (T rest) t p -> p <> Some [] ->
  exists need t', encode_track rest td zl o hdr (id ++ 0 :: junk) fuel prof t = Ok (need, t') /\ others (T rest) 28032 (kids t) (kids t') /\
    (hdr <> [] -> declares (T rest) t' 1 3 (Some hdr)) /\ (hdr = [] -> uncompressed (T rest) t') /\
    (need = true <-> exists d, In d (kids t) /\ has_id (T rest) 28032 d).
Proof.
  intros rest td zl o hdr id junk fuel prof t p Hf Hu Ho Ha Ht Hi Hc Hd Hp Np. destruct (set_none_ok rest t Ht) as (_ & _ & _ & _ & _ & _ & _ & Hh).
  assert (C : choose rest td o hdr (id ++ 0 :: junk) fuel prof t = Ok (match hdr with [] => -1 | _ => 3 end, Some hdr, t)).
  { unfold choose. rewrite Hu, Ho, Ha. cbn [negb]. change (negb (-1 =? COMP_NONE)) with false. cbv iota. destruct (plain_codec_ok id junk Hi) as [[_ N]|[-> _]]; [contradiction|reflexivity]. }
  destruct hdr as [|b hdr].
  - destruct (finish_none rest td (snd (try_private rest zl o (-1) 0 t)) (Some []) fuel prof t Ht) as (need & t' & E & H1 & H2 & H3 & _).
    exists need, t'. split; [|split; [exact H2|split; [congruence|split; [intros _; exact H1|rewrite H3; exact Hh]]]]. rewrite <- E.
    apply (encode_finish rest td zl o [] _ fuel prof t (-1) (Some []) 0 (-1) (snd (try_private rest zl o (-1) 0 t))); [exact (drop_solid rest t p Hp Np)|exact C|reflexivity|].
    assert (F : fst (try_private rest zl o (-1) 0 t) = -1).
    { unfold try_private. rewrite (private_ok rest t p Hp), Ha. destruct (_ && _); [|reflexivity]. destruct p as [d|]; [|reflexivity]. destruct (zl d); [|reflexivity]. cbv zeta. destruct (_ <? _); reflexivity. }
    destruct (try_private rest zl o (-1) 0 t) as [x y]. cbn [fst snd] in *. congruence.
  - assert (Sc : exists scope, scope_now rest td fuel prof t = Ok scope).
    { destruct Hd as [Hd|(scope & algo & st & Hd)]; [exists 1; exact (scope_plain rest td fuel prof t Hd)|]. exists (s32 scope). exact (scope_declared rest td fuel prof t _ _ _ Hd). }
    destruct Sc as [scope Sc].
    destruct (finish_strip rest td scope (b :: hdr) fuel prof t Hf Ht ltac:(discriminate)) as (need & t' & E & H1 & H2 & H3 & _).
    exists need, t'. split; [|split; [exact H2|split; [intros _; exact H1|split; [discriminate|rewrite H3; exact Hh]]]]. rewrite <- E.
    apply (encode_finish rest td zl o (b :: hdr) _ fuel prof t 3 (Some (b :: hdr)) scope 3 scope); [exact (drop_solid rest t p Hp Np)|exact C|exact Sc|].
    apply try_not. intros [_ [W _]]. apply W. reflexivity.
Qed.
Print Assumptions C107_strip.
Example C107_strip_ex : ~ stores_plain [65; 95; 65; 67; 51] /\ text [65; 95; 65; 67; 51] /\
  match encode_track void id0 half (mkOpt false true true (-1)) [11; 119] [65; 95; 65; 67; 51; 0] 2 1 ex_track with
  | Ok (need, t) => need = true /\ encodings_of void t = Ok (Some [mkEnc true (Some 1) (Some (mkCompr (Some 3) (Some [11; 119])))])
  | _ => False
  end.
Proof.
  split; [|split; [known_text|vm_compute; split; reflexivity]].
  assert (I : text [65; 95; 65; 67; 51]) by known_text. destruct (plain_codec_ok [65; 95; 65; 67; 51] [] I) as [[E _]|[_ N]]; [vm_compute in E; discriminate E|exact N].
Qed.

(** With --optimize_nv a video track (type 1) ends without encodings, whatever header its blocks share; every other
    track, and every other choice of options, is treated as said above. *)
Theorem C107_video : forall rest td zl o hdr id junk fuel prof t p, (2 <= fuel)%nat -> o_un o = false -> o_opt o = true -> o_video o = false -> o_algo o = -1 -> plain_track (T rest) t ->
  text id -> ~ stores_plain id -> private (T rest) t p -> p <> Some [] ->
  exists t', clean_encoding rest td zl o 1 hdr (id ++ 0 :: junk) fuel prof t = Ok (false, t') /\ uncompressed (T rest) t' /\ others (T rest) 28032 (kids t) (kids t').
Proof.
  intros rest td zl o hdr id junk fuel prof t p Hf Hu Ho Hv Ha Ht Hi Hc Hp Np.
  destruct (prepared_ok rest o t p Hu Ho Hv Ht Hp) as (P1 & P2 & P3 & P4).
  destruct (C107_strip rest td zl o [] id junk fuel prof (prepare_track rest o 1 t) p Hf Hu Ho Ha P1 Hi Hc (or_introl P2) P4 Np) as (need & t' & E & O & _ & U & N).
  exists t'. unfold clean_encoding. rewrite (skip_yes o Hu Ho Hv), E. assert (need = false).
  { destruct need; [|reflexivity]. destruct (proj1 N eq_refl) as (d & D1 & D2). unfold uncompressed, none in P2. rewrite Forall_forall in P2. destruct (P2 d D1 D2). }
  subst need. split; [reflexivity|]. split; [apply U; reflexivity|]. unfold others in *. rewrite O. exact P3.
Qed.
Print Assumptions C107_video.
Example C107_video_ex : plain_track (T void) ex_track /\
  clean_encoding void id0 half (mkOpt false true false (-1)) 1 [11; 119] [65; 95; 65; 67; 51; 0] 2 1 ex_track <> clean_encoding void id0 half (mkOpt false true false (-1)) 2 [11; 119] [65; 95; 65; 67; 51; 0] 2 1 ex_track.
Proof. split; [exact plain_ex|vm_compute; discriminate]. Qed.
Theorem C107_not_video : forall rest td zl o ty hdr codec fuel prof t, o_un o = true \/ o_opt o = false \/ o_video o = true \/ ty <> 1 ->
  clean_encoding rest td zl o ty hdr codec fuel prof t = encode_track rest td zl o hdr codec fuel prof t.
Proof. intros rest td zl o ty hdr codec fuel prof t H. unfold clean_encoding, prepare_track. rewrite (skip_no o ty H). reflexivity. Qed.
Print Assumptions C107_not_video.

(** An empty CodecPrivate goes first; nothing else depends on it. *)
Theorem C107_empty_private : forall rest td zl o hdr codec fuel prof t j, only (T rest) 25506 (kids t) (Leaf j (VBin [])) ->
  exists t1, none (T rest) 25506 (kids t1) /\ others (T rest) 25506 (kids t) (kids t1) /\ e_kind (einfo t1) = e_kind (einfo t) /\
    encode_track rest td zl o hdr codec fuel prof t = encode_track rest td zl o hdr codec fuel prof t1.
Proof.
  intros rest td zl o hdr codec fuel prof t j H. destruct (drop_void rest t j H) as (t1 & E1 & E2 & P & O & K). exists t1. split; [exact P|]. split; [exact O|]. split; [exact K|].
  unfold encode_track. cbv zeta. rewrite E1, E2. reflexivity.
Qed.
Print Assumptions C107_empty_private.
Example C107_empty_private_ex : only (T void) 25506 (kids (Master (inf0 1) 0 [Leaf (inf0 3) (VBin []); lf 2 7])) (Leaf (inf0 3) (VBin [])) /\
  encode_track void id0 no_zl (mkOpt false false true (-1)) [] [] 2 1 (Master (inf0 1) 0 [Leaf (inf0 3) (VBin []); lf 2 7]) = Ok (false, Master (with_need (inf0 1) true) 0 [lf 2 7]).
Proof. split; [|vm_compute; reflexivity]. exists [], [lf 2 7]. split; [reflexivity|]. split; [reflexivity|]. repeat constructor; intros X; discriminate X. Qed.

(** When --compalgo is not given and the private data would shrink, the kept zlib compression is taken away:
    the algorithm of the private data is the one asked for, which is none. *)
Theorem C107_keep_refuted : forall rest td zl o hdr codec fuel prof t p scope algo st, o_un o = false -> o_opt o = false -> o_algo o = -1 -> plain_track (T rest) t ->
  declares (T rest) t scope algo st -> 0 < scope < 2 ^ 31 -> Z.odd scope = true -> 0 <= algo <= 2 -> private (T rest) t p -> p <> Some [] -> gain zl 4 p ->
  exists t', encode_track rest td zl o hdr codec fuel prof t = Ok (true, t') /\ uncompressed (T rest) t' /\ others (T rest) 28032 (kids t) (kids t').
Proof.
  intros rest td zl o hdr codec fuel prof t p scope algo st Hu Ho Hal Ht Hd Hs Hod Ha Hp Np G.
  destruct (finish_none rest td (Z.lor scope 2) None fuel prof t Ht) as (need & t' & E & H1 & H2 & H3 & _).
  exists t'. split; [|split; [exact H1|exact H2]]. rewrite (none_declared rest t _ _ _ Hd) in H3. subst need. rewrite <- E.
  apply (encode_finish rest td zl o hdr codec fuel prof t algo None scope (-1) (Z.lor scope 2)); [exact (drop_solid rest t p Hp Np)| | |].
  - unfold choose. rewrite Hu, Ho. cbn [negb]. rewrite (declares_get rest td fuel prof t _ _ _ Hd), Hod. cbn [bind]. rewrite (touch_declares rest td fuel prof t _ _ _ Hd). cbn [bind]. rewrite s32_ok by lia. reflexivity.
  - replace (algo =? -1) with false by lia. rewrite (scope_declared rest td fuel prof t _ _ _ Hd), s32_ok by lia. reflexivity.
  - rewrite (try_on rest zl o algo scope t p Hp); [rewrite Hal; reflexivity| |].
    + unfold extra_of. rewrite Hal. replace (algo =? -1) with false by lia. exact G.
    + split; [right; lia|]. split; [lia|]. intros ->. discriminate Hod.
Qed.
Print Assumptions C107_keep_refuted.
Definition ex_both : elt := Master (inf0 1) 0 [lf 2 7; ex_enc 1 0; Leaf (inf0 3) (VBin [1; 1; 1; 1; 1; 1; 1; 1; 1; 1])].
Example C107_keep_refuted_ex : encode_track void id0 half (mkOpt false false true (-1)) [] [] 2 1 ex_both =
  Ok (true, Master (with_need (inf0 1) true) 0 [lf 2 7; Leaf (inf0 3) (VBin [1; 1; 1; 1; 1; 1; 1; 1; 1; 1])]) /\
  gain half 4 (Some [1; 1; 1; 1; 1; 1; 1; 1; 1; 1]).
Proof. split; [vm_compute; reflexivity|]. eexists _, _. split; [reflexivity|]. split; [reflexivity|vm_compute; reflexivity]. Qed.

(** With --optimize the same happens to a codec that stores plain data (PCM with private data), and a
    compression of the private data alone (scope 2) goes even without any option. *)
Theorem C107_plain_refuted : exists zl t, uncompressed (T void) t /\ stores_plain [65; 95; 80; 67; 77] /\
  encode_track void id0 zl (mkOpt false true true (-1)) [] [65; 95; 80; 67; 77; 0] 2 1 t = Ok (false, t).
Proof. exists half, ex_long. split; [repeat constructor; intros X; discriminate X|]. split; [right; exists []; reflexivity|]. vm_compute. reflexivity. Qed.
Print Assumptions C107_plain_refuted.
Theorem C107_private_only_refuted : exists t, declares (T void) t 2 0 None /\
  exists t', encode_track void id0 no_zl (mkOpt false false true (-1)) [] [] 2 1 t = Ok (true, t') /\ uncompressed (T void) t'.
Proof.
  exists (Master (inf0 1) 0 [lf 2 7; ex_enc 2 0]). split.
  - eexists (inf0 4), 0, _, _, _, (inf0 7). split; [exists [lf 2 7], []; split; [reflexivity|]; split; [reflexivity|]; repeat constructor; intros X; discriminate X|].
    split; [reflexivity|]. split; [reflexivity|]. cbn [kids]. split; [eexists [], _; split; [reflexivity|]; split; [reflexivity|]; repeat constructor; intros X; discriminate X|].
    split; [exists [lf 7 2], []; split; [reflexivity|]; split; [reflexivity|]; repeat constructor; intros X; discriminate X|]. cbn [kids].
    split; [exists (inf0 10), [], []; split; [reflexivity|]; split; [reflexivity|]; constructor|]. repeat constructor; intros X; discriminate X.
  - eexists. split; [vm_compute; reflexivity|]. repeat constructor; intros X; discriminate X.
Qed.
Print Assumptions C107_private_only_refuted.
(** --optimize_nv: the compression of a video track is deleted first, so the answer is that the frames need
    not be read again, although they are still compressed in the file. *)
Theorem C107_video_refuted : exists t, declares (T void) t 1 0 None /\
  exists t', clean_encoding void id0 no_zl (mkOpt false true false (-1)) 1 [] [86; 95; 86; 80; 56; 0] 2 1 t = Ok (false, t') /\ uncompressed (T void) t'.
Proof. exists ex_track. split; [exact declares_now|]. eexists. split; [vm_compute; reflexivity|]. repeat constructor; intros X; discriminate X. Qed.
Print Assumptions C107_video_refuted.
