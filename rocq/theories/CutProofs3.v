(** Rows of elements in a file that ends too early. *)
From Verif Require Import Base BaseProofs VintSpec EbmlIdSpec CrcSpec IntEltSpec Vint VintProofs EbmlId EbmlIdProofs IntElt IntEltProofs
  Crc CrcProofs EltHead Void VoidSpec VoidProofs Ebml Arr ArrProofs ArrProofs2 Stream StreamProofs Finder FinderSpec FinderProofs FinderProofs2 FinderProofs3 FinderProofs4
  Tree TreeRead TreeSpec TreeProofs TreeProofs2 TreeProofs3 Cut CutSpec CutProofs CutProofs2.

Section Rd.
Context (E : schema) (narrow widen : Z -> Z) (flt_is : Z -> Z -> bool) (wd : bool).
Context (char_signed : bool) (junk : Z -> list Z) (junk0 junkcrc : Z) (allow : bool).
Context (Hjunk : forall p, zlen (junk p) = 16 /\ bytes_ok (junk p)).
Context (f : list Z) (Hf : bytes_ok f) (Hsmall : zlen f < 2 ^ 32).
Context (L : Z).
Notation find_on := (find_on E junk allow).
Notation enc := (enc E narrow flt_is wd).
Notation encs := (encs E narrow flt_is wd).
Notation omitted := (omitted E flt_is wd).
Notation same := (same E narrow widen flt_is wd f).
Notation readable := (readable E flt_is wd char_signed).
Notation left_of := (left_of E narrow widen flt_is wd f L).
Notation rest_of := (rest_of E narrow widen flt_is wd f L).
Notation placed := (placed E narrow flt_is wd f).
Notation complete := (complete E narrow flt_is wd f L).
Notation read_all := (read_all E widen char_signed junk junk0 junkcrc allow).

Lemma read_all_eq fuel depth s chain acc pos :
  read_all (S fuel) depth s chain acc pos =
      (do r <- find_on s pos chain;
      match r with
      | FBad => Bad
      | FNull _ p => Ok (rev acc, p)
      | FElt h u p =>
          if 0 <? u then Ok (rev acc, p)
          else
            do t <- read_data E widen char_signed true junk junk0 junkcrc allow false fuel depth s chain (of_hdr E h) p;
            let '(err, e, p) := t in
            read_all fuel depth s chain (if err =? ERR_NONE then e :: acc else acc) p
      end).
Proof. reflexivity. Qed.

Lemma all_eof s c0 up fuel depth acc p : view s f L -> in_mem s = false -> 0 <= p -> L <= p -> exists q, read_all (S fuel) depth s ((c0, -1) :: up) acc p = Ok (rev acc, q).
Proof.
  intros Hv Hm H0 Hp. destruct (find_eof E narrow widen flt_is junk allow Hjunk f Hf L s p c0 (-1) up) as (q & Hq & _); auto. exists q. rewrite read_all_eq, Hq. reflexivity.
Qed.

Lemma all_cut c0 up s : in_mem s = false -> view s f L -> forall l body, encs l body -> forall fuel depth acc q,
  at_pos f q body -> q <= L <= q + zlen body -> Forall (fun d => omitted d = false -> resolves E c0 (e_kind (einfo d)) /\ readable depth d) l -> (S (needs l) <= fuel)%nat ->
  exists l' pos, read_all fuel depth s ((c0, -1) :: up) acc q = Ok (rev acc ++ l', pos) /\ left_of l q l'.
Proof.
  intros Hm Hv l body Henc. assert (HLf : 0 <= L <= zlen f) by apply Hv. induction Henc as [|d l b Ho Hl IH|d l b1 b2 Ho Hd Hl IH]; intros fuel depth acc q Hat HL Hk Hn.
  - change (zlen (@nil Z)) with 0 in HL. destruct fuel as [|fuel]; [lia|]. destruct (all_eof s c0 up fuel depth acc q) as (p & Hp); auto; try lia.
    exists [], p. rewrite app_nil_r. split; [exact Hp|constructor].
  - apply Forall_cons_iff in Hk. destruct Hk as [_ Hk]. cbn [needs fold_right] in Hn. fold (needs l) in Hn.
    destruct (IH fuel depth acc q) as (l' & pos & H1 & H2); auto; [lia|]. exists l', pos. split; [exact H1|apply left_omit; assumption].
  - apply Forall_cons_iff in Hk. destruct Hk as [Hk1 Hk]. destruct (Hk1 Ho) as [Hres Hrd].
    cbn [needs fold_right] in Hn. fold (needs l) in Hn. destruct fuel as [|fuel]; [lia|].
    rewrite zlen_app in *. pose proof (zlen_nonneg b1). pose proof (zlen_nonneg b2). apply at_app in Hat. destruct Hat as [Ha1 Ha2].
    assert (Hq0 : 0 <= q) by apply Ha1.
    destruct (Z.lt_ge_cases L (q + zlen b1)) as [Hcut|Hwhole].
    + destruct (read_cut E narrow widen flt_is wd char_signed junk junk0 junkcrc allow Hjunk f Hf Hsmall L d fuel depth s c0 (-1) up q b1) as [(q' & F1 & F2 & F3)|(h & q' & err & e' & pos & F1 & F2 & F3 & F4 & F5)]; auto; try lia.
      * exists [], q'. rewrite read_all_eq, F1. cbn [bind]. rewrite app_nil_r. split; [reflexivity|exact (left_cut _ _ _ _ _ _ _ d l q None Ho F3)].
      * rewrite read_all_eq, F1. cbn [bind]. replace (0 <? 0) with false by lia. rewrite F3. cbn [bind]. destruct fuel as [|fuel]; [lia|].
        destruct F5 as [(G1 & -> & G3)|(-> & G2 & _)].
        -- replace (err =? ERR_NONE) with false by lia. destruct (all_eof s c0 up fuel depth acc L) as (p & Hp); auto; try lia. rewrite Hp.
           exists [], p. rewrite app_nil_r. split; [reflexivity|exact (left_cut _ _ _ _ _ _ _ d l q None Ho G3)].
        -- change (ERR_NONE =? ERR_NONE) with true. cbv iota. destruct (all_eof s c0 up fuel depth (e' :: acc) pos) as (p & Hp); auto; try lia. rewrite Hp.
           exists [e'], p. split; [reflexivity|exact (left_cut _ _ _ _ _ _ _ d l q (Some e') Ho G2)].
    + destruct (read_back E narrow widen flt_is wd char_signed junk junk0 junkcrc allow Hjunk f Hf Hsmall d fuel depth s L c0 (-1) up q b1) as (h & q' & e' & F1 & F2 & F3 & F4 & F5 & F6 & F7 & F8); auto; try lia.
      { intros Hx. congruence. }
      destruct (placed_of E narrow widen flt_is wd junk Hjunk f L d b1 q Hd Ha1) as (hh & nn & Hpl & Hhn); [destruct d; apply Hrd|].
      rewrite read_all_eq, F1. cbn [bind]. replace (0 <? 0) with false by lia. rewrite F3. cbn [bind]. change (ERR_NONE =? ERR_NONE) with true. cbv iota.
      destruct (IH fuel depth (e' :: acc) (q + zlen b1)) as (l' & pos & G1 & G2); auto; try lia.
      exists (e' :: l'), pos. rewrite G1. cbn [rev]. rewrite <- app_assoc. split; [reflexivity|].
      apply left_whole with (h := hh) (n := nn); auto; try lia. replace (q + hh + nn) with (q + zlen b1) by lia. exact G2.
Qed.

(** An element lies in one way only. *)
Lemma lies_at p bs : lies f p bs <-> at_pos f p bs.
Proof. unfold lies, at_pos. tauto. Qed.
Lemma at_unique p a b : at_pos f p a -> at_pos f p b -> zlen a = zlen b -> a = b.
Proof. intros (_ & _ & Ha) (_ & _ & Hb) Hz. rewrite Hz in Ha. congruence. Qed.
Lemma id_len_unique a b id : id_encodes a id -> id_encodes b id -> zlen a = zlen b.
Proof.
  intros (_ & (Ha1 & Ha2) & _) (_ & (Hb1 & Hb2) & _).
  assert (G : forall x y, 1 <= x -> 1 <= y -> 2 ^ (7 * x) <= id -> id < 2 ^ (7 * y + 1) -> x <= y).
  { intros x y Hx Hy H1 H2. destruct (Z_le_gt_dec x y) as [|Hgt]; [assumption|exfalso]. assert (2 ^ (7 * y + 1) <= 2 ^ (7 * x)) by (apply Z.pow_le_mono_r; lia). lia. }
  pose proof (G (zlen a) (zlen b)). pose proof (G (zlen b) (zlen a)). lia.
Qed.
Lemma placed_fun e p h n h' n' : placed e p h n -> placed e p h' n' -> h = h' /\ n = n'.
Proof.
  intros (a & b & c & _ & L1 & I1 & V1 & -> & ->) (a' & b' & c' & _ & L2 & I2 & V2 & -> & ->).
  apply lies_at in L1, L2. apply at_app in L1, L2. destruct L1 as [A1 B1], L2 as [A2 B2].
  pose proof (id_len_unique _ _ _ I1 I2) as Hz. apply at_app in B1, B2. rewrite <- Hz in B2. destruct B1 as [B1 C1], B2 as [B2 C2].
  assert (Hb : zlen b = zlen b').
  { destruct b as [|x b]; [exfalso; destruct V1 as (_ & V1 & _); change (zlen (@nil Z)) with 0 in V1; lia|].
    destruct b' as [|y b']; [exfalso; destruct V2 as (_ & V2 & _); change (zlen (@nil Z)) with 0 in V2; lia|].
    pose proof (rd_at _ _ _ _ B1) as R1. rewrite (rd_at _ _ _ _ B2) in R1. injection R1 as ->.
    apply vint_first_byte in V1, V2. lia. }
  assert (b = b') by (eapply at_unique; eauto). subst b'. destruct V1 as (_ & _ & _ & V1), V2 as (_ & _ & _ & V2). lia.
Qed.

Lemma rest_cut d p o : rest_of d p o -> exists h n, placed d p h n /\ L < p + h + n.
Proof.
  intros H. destruct H as [e p h n P H|i v p h n P _ H|i i' p h n P _ H _|i i' chk ch ch' p h n P _ H _ _ _|i i' chk ch p h n P H0 H _ _|i i' ic sum chk ch ch' p h n P _ H _ _ _ _ _]; exists h, n; (split; [exact P|]); try lia.
  - destruct P as (a & b & c & _ & _ & _ & _ & _ & ->). pose proof (zlen_nonneg c). lia.
  - destruct P as (a & b & c & He & La & I1 & V1 & -> & Hn). inversion He as [|i1 chk1 ch1 idb szb body Hid Hcod Hbody E1 E2]; subst i1 chk1 ch1.
    cbn [einfo] in I1. pose proof (id_len_unique _ _ _ I1 Hid) as Hz1.
    assert (Hl : zlen a + zlen b + n = zlen idb + zlen szb + zlen (checksum chk body ++ body)) by (pose proof (f_equal zlen E2) as Hzz; rewrite !zlen_app in Hzz; rewrite !zlen_app; lia).
    assert (Hp1 : a = idb /\ b ++ c = szb ++ checksum chk body ++ body).
    { assert (Hll : length a = length idb) by (unfold zlen in Hz1; lia). symmetry in E2. destruct (app_inv_len _ _ _ _ Hll E2) as [X Y]. split; assumption. }
    destruct Hp1 as [-> Hp2]. 
    assert (Hszb : zlen b = zlen szb).
    { destruct b as [|x b]; [exfalso; destruct V1 as (_ & V1 & _); change (zlen (@nil Z)) with 0 in V1; lia|].
      unfold coded in Hcod. destruct Hcod as [Hv2 _]. destruct szb as [|y szb]; [exfalso; destruct Hv2 as (_ & Hv2 & _); change (zlen (@nil Z)) with 0 in Hv2; lia|].
      cbn [app] in Hp2. injection Hp2 as -> _. apply vint_first_byte in V1, Hv2. lia. }
    rewrite zlen_app, checksum_len in Hl. replace (chk =? 0) with false in Hl by lia. pose proof (zlen_nonneg body). lia.
Qed.

Lemma left_complete l p l' lc : left_of l p l' -> complete l p lc -> exists a b, l' = a ++ b /\ Forall2 same lc a /\ (length b <= 1)%nat.
Proof.
  intros H. revert lc. induction H as [p|d l p l' Ho Hl IH|d d' l l' p h n Ho Hpl HL Hs He Hl IH|d l p o Ho Hr]; intros lc Hc.
  - inversion Hc; subst. exists [], []. repeat split; auto.
  - inversion Hc; subst; try congruence. apply IH. assumption.
  - inversion Hc as [|d1 l1 p1 lc1 Ho1 Hc1|d1 l1 lc1 p1 h1 n1 Ho1 P1 L1 Hc1|d1 l1 p1 h1 n1 Ho1 P1 L1]; subst; try congruence.
    + destruct (placed_fun _ _ _ _ _ _ Hpl P1) as [-> ->]. destruct (IH _ Hc1) as (a & b & -> & Ha & Hb). exists (d' :: a), b. repeat split; auto.
    + destruct (placed_fun _ _ _ _ _ _ Hpl P1) as [-> ->]. lia.
  - destruct (rest_cut _ _ _ Hr) as (h & n & Hpl & HL).
    inversion Hc as [|d1 l1 p1 lc1 Ho1 Hc1|d1 l1 lc1 p1 h1 n1 Ho1 P1 L1 Hc1|d1 l1 p1 h1 n1 Ho1 P1 L1]; subst; try congruence.
    + destruct (placed_fun _ _ _ _ _ _ Hpl P1) as [-> ->]. lia.
    + exists [], (match o with Some d' => [d'] | None => [] end). repeat split; auto. destruct o; cbn; lia.
Qed.
End Rd.
