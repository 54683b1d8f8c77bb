From Verif Require Import Base BaseProofs Vint VintSpec VintProofs EbmlId EbmlIdSpec EbmlIdProofs Ebml FindId FindIdSpec.


Lemma mask_bits b0 : is_byte b0 ->
  (Z.land b0 128 =? 0) = (b0 <? 128) /\ (b0 < 128 -> (Z.land b0 64 =? 0) = (b0 <? 64)) /\
  (b0 < 64 -> (Z.land b0 32 =? 0) = (b0 <? 32)) /\ (b0 < 32 -> (Z.land b0 16 =? 0) = (b0 <? 16)).
Proof.
  intros Hb.
  assert (H : forall b, is_byte b -> Bool.eqb (Z.land b 128 =? 0) (b <? 128) && (negb (b <? 128) || Bool.eqb (Z.land b 64 =? 0) (b <? 64)) &&
     (negb (b <? 64) || Bool.eqb (Z.land b 32 =? 0) (b <? 32)) && (negb (b <? 32) || Bool.eqb (Z.land b 16 =? 0) (b <? 16)) = true).
  { apply byte_forall. vm_compute. reflexivity. }
  specialize (H b0 Hb). rewrite !andb_true_iff, !orb_true_iff, !negb_true_iff, !eqb_true_iff in H.
  destruct H as [[[H1 H2] H3] H4]. split; [exact H1|].
  split; [|split]; intros; [destruct H2|destruct H3|destruct H4]; auto; lia.
Qed.

(** The loop over the identifier, by the length of what is there. *)
Lemma ids_eq rem pos : bytes_ok rem -> fid_ids rem pos [] 0 128 =
  match rem with
  | [] => IEnd [] pos
  | a :: r =>
      if 128 <=? a then IFound [a] (pos + 1) r
      else match r with
      | [] => IEnd [a] (pos + 1)
      | b :: r =>
          if 64 <=? a then IFound [a; b] (pos + 1 + 1) r
          else match r with
          | [] => IEnd [a; b] (pos + 1 + 1)
          | c :: r =>
              if 32 <=? a then IFound [a; b; c] (pos + 1 + 1 + 1) r
              else match r with
              | [] => IEnd [a; b; c] (pos + 1 + 1 + 1)
              | d :: r =>
                  if 16 <=? a then IFound [a; b; c; d] (pos + 1 + 1 + 1 + 1) r
                  else match r with [] => IEnd [a; b; c; d] (pos + 1 + 1 + 1 + 1) | _ => IOut end
              end
          end
      end
  end.
Proof.
  intros Hb. destruct rem as [|a r]; [reflexivity|]. inversion Hb as [|? ? Ha Hr]; subst.
  destruct (mask_bits a Ha) as (M1 & M2 & M3 & M4).
  cbn [fid_ids app zlen length]. change (4 <=? Z.of_nat 0) with false. change (0 + 1 =? Z.of_nat 0) with false. change (4 <? Z.of_nat 1) with false. cbv iota zeta. rewrite M1.
  destruct (Z.ltb_spec a 128); [rewrite (proj2 (Z.leb_gt 128 a)) by lia|rewrite (proj2 (Z.leb_le 128 a)) by lia; reflexivity].
  cbn [negb]. destruct r as [|b r]; [reflexivity|].
  cbn [fid_ids app zlen length]. change (4 <=? Z.of_nat 1) with false. change (0 + 1 + 1 =? Z.of_nat 1) with false. change (4 <? Z.of_nat 2) with false. change (Z.shiftr 128 1) with 64. cbv iota zeta. rewrite M2 by lia.
  destruct (Z.ltb_spec a 64); [rewrite (proj2 (Z.leb_gt 64 a)) by lia|rewrite (proj2 (Z.leb_le 64 a)) by lia; reflexivity].
  cbn [negb]. destruct r as [|c r]; [reflexivity|].
  cbn [fid_ids app zlen length]. change (4 <=? Z.of_nat 2) with false. change (0 + 1 + 1 + 1 =? Z.of_nat 2) with false. change (4 <? Z.of_nat 3) with false. change (Z.shiftr 64 1) with 32. cbv iota zeta. rewrite M3 by lia.
  destruct (Z.ltb_spec a 32); [rewrite (proj2 (Z.leb_gt 32 a)) by lia|rewrite (proj2 (Z.leb_le 32 a)) by lia; reflexivity].
  cbn [negb]. destruct r as [|d r]; [reflexivity|].
  cbn [fid_ids app zlen length]. change (4 <=? Z.of_nat 3) with false. change (0 + 1 + 1 + 1 + 1 =? Z.of_nat 3) with false. change (4 <? Z.of_nat 4) with false. change (Z.shiftr 32 1) with 16. cbv iota zeta. rewrite M4 by lia.
  destruct (Z.ltb_spec a 16); [rewrite (proj2 (Z.leb_gt 16 a)) by lia|rewrite (proj2 (Z.leb_le 16 a)) by lia; reflexivity].
  cbn [negb]. destruct r as [|e r]; [reflexivity|].
  cbn [fid_ids app zlen length]. change (4 <=? Z.of_nat 4) with true. reflexivity.
Qed.

(** An identifier at the beginning is taken. *)
Lemma ids_found idb id rem pos : id_encodes idb id -> bytes_ok rem ->
  fid_ids (idb ++ rem) pos [] 0 128 = IFound idb (pos + zlen idb) rem.
Proof.
  intros H Hr. pose proof H as (Hb & [Hn Hv] & He). rewrite ids_eq by (apply bytes_ok_app; auto).
  destruct idb as [|a idb]; [rewrite zlen_nil in Hn; lia|].
  assert (Ha : is_byte a) by (inversion Hb; assumption). destruct Ha as [Ha0 Ha1].
  destruct idb as [|b [|c [|d [|e idb]]]].
  - unfold be_val in He. cbn [be_val_from] in He. rewrite !zlen_cons, zlen_nil in *. change (2 ^ (7 * (0 + 1))) with 128 in Hv.
    cbn [app]. rewrite (proj2 (Z.leb_le 128 a)) by lia. f_equal.
  - inversion Hb as [|? ? _ Hb1]; subst. inversion Hb1 as [|? ? [Hb2 Hb3] _]; subst.
    unfold be_val in Hv. cbn [be_val_from] in Hv. rewrite !zlen_cons, zlen_nil in *. change (2 ^ (7 * (0 + 1 + 1))) with 16384 in Hv. change (2 ^ (7 * (0 + 1 + 1) + 1)) with 32768 in Hv.
    cbn [app]. rewrite (proj2 (Z.leb_gt 128 a)), (proj2 (Z.leb_le 64 a)) by lia. f_equal. lia.
  - inversion Hb as [|? ? _ Hb1]; subst. inversion Hb1 as [|? ? [Hb2 Hb3] Hc]; subst. inversion Hc as [|? ? [Hc1 Hc2] _]; subst.
    unfold be_val in Hv. cbn [be_val_from] in Hv. rewrite !zlen_cons, zlen_nil in *. change (2 ^ (7 * (0 + 1 + 1 + 1))) with 2097152 in Hv. change (2 ^ (7 * (0 + 1 + 1 + 1) + 1)) with 4194304 in Hv.
    cbn [app]. rewrite (proj2 (Z.leb_gt 128 a)), (proj2 (Z.leb_gt 64 a)), (proj2 (Z.leb_le 32 a)) by lia. f_equal. lia.
  - inversion Hb as [|? ? _ Hb1]; subst. inversion Hb1 as [|? ? [Hb2 Hb3] Hc]; subst. inversion Hc as [|? ? [Hc1 Hc2] Hd]; subst. inversion Hd as [|? ? [Hd1 Hd2] _]; subst.
    unfold be_val in Hv. cbn [be_val_from] in Hv. rewrite !zlen_cons, zlen_nil in *. change (2 ^ (7 * (0 + 1 + 1 + 1 + 1))) with 268435456 in Hv. change (2 ^ (7 * (0 + 1 + 1 + 1 + 1) + 1)) with 536870912 in Hv.
    cbn [app]. rewrite (proj2 (Z.leb_gt 128 a)), (proj2 (Z.leb_gt 64 a)), (proj2 (Z.leb_gt 32 a)), (proj2 (Z.leb_le 16 a)) by lia. f_equal. lia.
  - rewrite !zlen_cons in Hn. pose proof (zlen_nonneg idb). lia.
Qed.

(** Sizes. *)
Lemma vint_prefix_free bs bs' v v' r r' : vint_spec bs v -> vint_spec bs' v' -> bs ++ r = bs' ++ r' -> bs = bs'.
Proof.
  intros H H' E. destruct bs as [|a bs]; [destruct H as (_ & H & _); rewrite zlen_nil in H; lia|].
  destruct bs' as [|a' bs']; [destruct H' as (_ & H' & _); rewrite zlen_nil in H'; lia|].
  injection E as -> E. destruct (vint_first_byte _ _ _ H) as [_ L], (vint_first_byte _ _ _ H') as [_ L'].
  rewrite L in L'. rewrite !zlen_cons in L'. unfold zlen in L'. f_equal.
  assert (length bs = length bs') by lia. clear -E H0. revert bs' E H0.
  induction bs as [|x bs IH]; destruct bs' as [|y bs']; cbn; intros E H; try discriminate; [reflexivity|]. injection E as -> E. f_equal. apply IH; [exact E|lia].
Qed.

(** No complete size among the bytes read: the reader says so. *)
Lemma read_zero buf : bytes_ok buf -> buf <> [] -> zlen buf <= 8 -> ~ (exists bs rest v, buf = bs ++ rest /\ vint_spec bs v) ->
  exists u, read_coded_size buf (zlen buf) = Some (mkSz 0 0 u).
Proof.
  intros Hb Hne Hl Hno. pose proof (zlen_nonneg buf). destruct (read_coded_size buf (zlen buf)) as [r|] eqn:E.
  - assert (L : sz_len r = 0).
    { apply (proj2 (read_none buf (zlen buf) r Hb ltac:(lia) E)). intros (bs & rest & v & A & B & _). apply Hno. eauto. }
    unfold read_coded_size in E. destruct (zlen buf <=? 0); [injection E as <-; eauto|]. destruct buf; [discriminate|].
    destruct (rcs_loop _ _ _ _) as [[i u]|u] eqn:R; [|injection E as <-; eauto]. destruct (zlen (z :: buf) <? i + 1); [discriminate|].
    injection E as <-. cbn [sz_len] in L. exfalso.
    rewrite rcs_loop_ok in R by (try lia; inversion Hb; assumption). unfold rcs_loop_spec in R. destruct (_ && _); [|discriminate].
    assert (Ri : i = 7 - Z.log2 z) by congruence. clear R. subst i.
    inversion Hb as [|? ? Hz _]; subst. destruct Hz as [Hz0 Hz1]. pose proof (Z.log2_le_mono z 255 ltac:(lia)) as HL. change (Z.log2 255) with 7 in HL. lia.
  - exfalso. exact (read_in_bounds buf (zlen buf) Hb ltac:(lia) E).
Qed.

Lemma no_vint_prefix a b : no_vint (a ++ b) -> no_vint a.
Proof. intros H (bs & rest & v & -> & V). apply H. exists bs, (rest ++ b), v. rewrite app_assoc. auto. Qed.

(** The loop over bytes without a complete size. *)
Lemma size_skip : forall more szs pos r rem, bytes_ok (szs ++ more) -> zlen (szs ++ more) <= 8 -> no_vint (szs ++ more) ->
  exists r', fid_size (more ++ rem) pos szs (zlen szs) r = fid_size rem (pos + zlen more) (szs ++ more) (zlen (szs ++ more)) r' /\
    (r' = r \/ sz_val r' = 0 /\ sz_len r' = 0).
Proof.
  induction more as [|b more IH]; intros szs pos r rem Hb Hl Hn.
  - exists r. cbn [app]. rewrite app_nil_r, zlen_nil, Z.add_0_r. auto.
  - cbn [app fid_size]. rewrite zlen_app, zlen_cons in Hl. pose proof (zlen_nonneg more). pose proof (zlen_nonneg szs).
    destruct (Z.leb_spec 8 (zlen szs)); [lia|]. rewrite Z.eqb_refl. cbn [negb].
    replace (szs ++ b :: more) with ((szs ++ [b]) ++ more) in * by (rewrite <- app_assoc; reflexivity).
    destruct (read_zero (szs ++ [b])) as [u Eu].
    { apply bytes_ok_app in Hb. tauto. } { destruct szs; discriminate. } { rewrite zlen_app, zlen_cons, zlen_nil. lia. } { apply no_vint_prefix in Hn. exact Hn. }
    rewrite zlen_app, zlen_cons, zlen_nil in Eu. rewrite Z.add_0_l in Eu. rewrite Eu. cbn [sz_len]. change (0 =? 0) with true. cbv iota.
    destruct (IH (szs ++ [b]) (pos + 1) (mkSz 0 0 u) rem Hb ltac:(rewrite !zlen_app, zlen_cons, zlen_nil; lia) Hn) as (r' & E & Hr).
    exists r'. replace (zlen szs + 1) with (zlen (szs ++ [b])) by (rewrite zlen_app, zlen_cons, zlen_nil; lia). rewrite E. split.
    + f_equal. rewrite zlen_cons. lia.
    + right. destruct Hr as [-> |Hr]; [split; reflexivity|exact Hr].
Qed.

Lemma size_got sz v rem pos r : vint_spec sz v -> fid_size (sz ++ rem) pos [] 0 r = ZGot (mkSz v (zlen sz) (vint_reserved (zlen sz))) (zlen sz) (pos + zlen sz).
Proof.
  intros V. pose proof V as (Hb & Hl & _). destruct (exists_last (l := sz)) as (a & b & ->). { intros ->. rewrite zlen_nil in Hl. lia. }
  rewrite zlen_app, zlen_cons, zlen_nil in *. rewrite <- app_assoc. cbn [app].
  destruct (size_skip a [] pos r ([b] ++ rem)) as (r' & E & _).
  { apply bytes_ok_app in Hb. tauto. } { cbn [app]. lia. }
  { intros (bs & rest & w & Ea & V'). cbn [app] in Ea. subst a. rewrite <- app_assoc in V.
    assert (Eq : bs = bs ++ rest ++ [b]). { eapply (vint_prefix_free _ _ _ _ (rest ++ [b]) [] V' V). rewrite app_nil_r. reflexivity. }
    apply (f_equal (@length Z)) in Eq. rewrite !app_length in Eq. cbn [length] in Eq. lia. }
  cbn [app] in E. rewrite zlen_nil in E. rewrite E. cbn [fid_size]. pose proof (zlen_nonneg a).
  destruct (Z.leb_spec 8 (zlen a)); [lia|]. rewrite Z.eqb_refl. cbn [negb].
  pose proof (read_complete (a ++ [b]) v [] (zlen a + 1) V) as R. rewrite zlen_app, zlen_cons, zlen_nil, app_nil_r in R. rewrite R by lia.
  cbn [sz_len]. destruct (Z.eqb_spec (zlen a + (0 + 1)) 0); [lia|].
  replace (zlen a + (zlen (@nil Z) + 1)) with (zlen a + 1) by (rewrite zlen_nil; lia). rewrite Z.add_0_l. rewrite Z.add_assoc. reflexivity.
Qed.

Lemma size_null more rem pos r : bytes_ok more -> zlen more = 8 -> no_vint more -> fid_size (more ++ rem) pos [] 0 r = ZNull (pos + 8).
Proof.
  intros Hb Hl Hn. destruct (size_skip more [] pos r rem Hb ltac:(cbn [app]; lia) Hn) as (r' & E & _). cbn [app] in E. rewrite zlen_nil in E.
  rewrite E, Hl. destruct rem; reflexivity.
Qed.
Lemma size_end more pos r : bytes_ok more -> zlen more < 8 -> no_vint more ->
  exists r', fid_size more pos [] 0 r = ZEnd r' (zlen more + 1) (pos + zlen more) /\ (r' = r \/ sz_val r' = 0 /\ sz_len r' = 0).
Proof.
  intros Hb Hl Hn. destruct (size_skip more [] pos r [] Hb ltac:(cbn [app]; lia) Hn) as (r' & E & Hr). cbn [app] in E. rewrite app_nil_r, zlen_nil in E.
  exists r'. split; [|exact Hr]. rewrite E. cbn [fid_size]. destruct (Z.leb_spec 8 (zlen more)); [lia|]. reflexivity.
Qed.

(** The stream ends within the identifier. *)
Lemma loop_end E c max ids : forall fuel psl r pos, 0 <= psl -> 8 - psl < Z.of_nat fuel -> psl <= 8 ->
  fid_loop fuel E c max [] pos ids psl r = Some (FNone pos).
Proof.
  induction fuel as [|fuel IH]; intros psl r pos H0 Hf H8; [lia|]. cbn [fid_loop fid_ids fid_size].
  destruct (Z.leb_spec 8 psl); [reflexivity|]. apply IH; lia.
Qed.
Lemma loop_S E c max rem pos ids psl r fuel : fid_loop (S fuel) E c max rem pos ids psl r =
  match fid_ids rem pos ids 0 128 with
  | IOut => Some FOut
  | INull p => Some (FNone p)
  | IFound ids p rem =>
      match fid_size rem p [] psl r with
      | ZGot r psl p2 => Some (fid_end E c max ids r psl pos p p2)
      | ZEnd r psl p2 => Some (fid_end E c max ids r psl pos p p2)
      | ZNull p2 => Some (FNone p2)
      | ZOut => Some FOut
      end
  | IEnd ids p =>
      match fid_size [] p [] psl r with
      | ZEnd r psl p2 => fid_loop fuel E c max [] p2 ids psl r
      | ZNull p2 => Some (FNone p2)
      | _ => Some FOut
      end
  end.
Proof. reflexivity. Qed.
