(** The main loop of EBML_FindNextElement. *)
From Verif Require Import Base BaseProofs Vint VintSpec VintProofs EbmlId EbmlIdSpec EbmlIdProofs Ebml Arr ArrProofs Finder FinderSpec FinderProofs.

Lemma id_from_buffer_gen buf n : bytes_ok buf -> 4 <= zlen buf -> 0 <= n <= 4 ->
  exists id, id_from_buffer buf n = Some id /\ (1 <= n -> id = be_val (firstn (Z.to_nat n) buf)).
Proof.
  intros Hok Hl Hn. destruct buf as [|a [|b [|c [|d r]]]]; try (cbn in Hl; lia).
  pose proof byte0 as H0.
  repeat match goal with H : bytes_ok _ |- _ => inversion H; clear H; subst | H : Forall _ (_ :: _) |- _ => inversion H; clear H; subst end.
  unfold id_from_buffer. cbn [rd nth_error].
  assert (Hc : n = 0 \/ n = 1 \/ n = 2 \/ n = 3 \/ n = 4) by lia.
  destruct Hc as [->|[->|[->|[->| ->]]]]; cbn [Z.eqb Pos.eqb];
  (eexists; split; [reflexivity|]; intros Hn1; first [exfalso; lia | rewrite fourccbe_ok by assumption; reflexivity]).
Qed.

(** One turn of the loop. *)
Inductive step := Done (r : fres) | Again (s : fst_) | Stuck.

Definition turn_tail (E : schema) (orig : list pctx) (upper0 : Z) (allow : bool)
    (s : fst_) (chain : list pctx) (upper : Z) (found : option szres) : step :=
    match id_from_buffer (f_buf s) (f_pidl s) with
    | None => Done FBad
    | Some id =>
        match match found with Some r => accept E chain allow upper id r s | None => None end with
        | Some res => Done res
        | None =>
            match at_limit chain allow upper id s with
            | Some res => Done res
            | None =>
                match shift_buf (f_buf s) (f_ri s - 1) with
                | None => Done FBad
                | Some buf =>
                    if (chain_end orig =? INVALID_FILEPOS) || (f_pos s - f_ri s + f_pidl s <? chain_end orig)
                    then Again (mkF buf (f_ri s - 1) (f_rs s) (f_pidl s) (f_pos s))
                    else Done (FNull upper0 (f_pos s))
                end
            end
        end
    end.

Definition turn (E : schema) (file : list Z) (start : Z) (orig : list pctx) (upper0 : Z) (allow : bool)
    (s : fst_) (chain : list pctx) (upper : Z) : step :=
  let tail := turn_tail E orig upper0 allow in
  match id_loop (S (length file)) file start (chain_end chain) s with
  | None => Stuck
  | Some IdBad => Done FBad
  | Some (IdEof pos) => Done (FNull upper pos)
  | Some (IdFound s1) | Some (IdLimit s1) =>
      match size_loop 9 file start (chain_end chain) s1 (f_ri s1 - f_pidl s1) with
      | None => Stuck
      | Some SzBad => Done FBad
      | Some (SzEof pos) => Done (FNull upper pos)
      | Some (SzFound r s2) =>
          let '(found, chain', upper') :=
            if sz_val r =? sz_unk r then (true, chain, upper)
            else contain chain allow (f_pos s2 + sz_val r - f_ri s2) upper in
          tail s2 chain' upper' (if found then Some r else None)
      | Some (SzNone s2) => tail s2 chain upper None
      end
  end.

Lemma fne_loop_turn f E file start orig upper0 allow s chain upper :
  fne_loop (S (S f)) E file start orig upper0 allow s chain upper =
  match turn E file start orig upper0 allow s chain upper with
  | Done r => Some r
  | Again s' => fne_loop f E file start orig upper0 allow s' orig upper0
  | Stuck => None
  end.
Proof.
  unfold turn, turn_tail. cbn [fne_loop].
  destruct (id_loop (S (length file)) file start (chain_end chain) s) as [[s1|s1|p|]|]; try reflexivity;
  destruct (size_loop 9 file start (chain_end chain) s1 (f_ri s1 - f_pidl s1)) as [[r s2|s2|p|]|]; try reflexivity;
  try (destruct (if sz_val r =? sz_unk r then _ else _) as [[found chain'] upper']);
  cbn [fne_tail];
  destruct (id_from_buffer _ _); try reflexivity;
  try (destruct found);
  try (destruct (accept _ _ _ _ _ _ _); try reflexivity);
  destruct (at_limit _ _ _ _ _); try reflexivity;
  destruct (shift_buf _ _); try reflexivity;
  destruct (_ || _); reflexivity.
Qed.

(** Reading stays before the end of the context. *)
Definition within (file : list Z) (start : Z) (s : fst_) (e p : Z) : Prop :=
  small_file file start -> f_pos s <= e -> p <= e.

(** State at the beginning of a turn. *)
Definition ent (file : list Z) (start : Z) (s : fst_) : Prop :=
  inv file start s /\ f_ri s <= 11 /\ f_pidl s <= f_ri s /\ (f_pidl s = 0 -> f_ri s = 0).

Definition base (s : fst_) : Z := f_pos s - f_ri s.

(** An ID of [n] bytes and a size of [m] bytes coding [v] read at [p]; the ID bytes may be stale leftovers. *)
Definition read_header (file : list Z) (start limit : Z) (s : fst_) (id : Z) (r : szres) : Prop :=
  let n := f_pidl s in
  1 <= n <= 4 /\ id = be_val (slice file (base s) n) /\ zlen (slice file (base s) n) = n /\
  size_ready file s r /\
  (id_encodes (slice file (base s) n) id \/ (id < 2 ^ (7 * n) /\ limit = start + f_rs s)).

Lemma slice_prefix file p n k buf : 0 <= k <= n -> slice file p n = firstn (Z.to_nat n) buf -> slice file p k = firstn (Z.to_nat k) buf.
Proof.
  intros Hk H. unfold slice in *. apply (f_equal (firstn (Z.to_nat k))) in H. rewrite !firstn_firstn in H.
  replace (Nat.min (Z.to_nat k) (Z.to_nat n)) with (Z.to_nat k) in H by lia. exact H.
Qed.

Lemma inv_prefix file start s k : inv file start s -> 0 <= k <= f_ri s ->
  slice file (base s) k = firstn (Z.to_nat k) (f_buf s) /\ zlen (slice file (base s) k) = k.
Proof.
  intros (H1 & H2 & H3 & H4 & H5 & H6 & H7 & H8) Hk. unfold base.
  rewrite (slice_prefix file _ (f_ri s) k (f_buf s)) by (auto; lia). split; [reflexivity|].
  unfold zlen in *. rewrite firstn_length. lia.
Qed.

Lemma small_be b0 l n : is_byte b0 -> bytes_ok l -> zlen l = n - 1 -> 1 <= n <= 8 -> b0 < 2 ^ (8 - n) -> be_val (b0 :: l) < 2 ^ (7 * n).
Proof.
  intros Hb Hl Hz Hn Hlt. rewrite be_val_cons. pose proof (be_val_bound l Hl) as Hv. rewrite Hz in *. rewrite pow256_2 in * by lia.
  replace (7 * n) with ((8 - n) + 8 * (n - 1)) by lia. rewrite pow_split by lia. nia.
Qed.

Lemma size_loop_limit file start limit fuel s psl : limit = start + f_rs s ->
  match size_loop fuel file start limit s psl with
  | Some (SzFound _ s') | Some (SzNone s') => s' = s
  | Some (SzEof _) => False
  | None => False
  | _ => True
  end.
Proof.
  intros H. destruct fuel; cbn [size_loop]; destruct (read_coded_size _ _); try exact I; destruct (negb _); try reflexivity;
  destruct (8 <=? psl); try reflexivity; destruct (rd _ _); try exact I; destruct (_ && _); try reflexivity;
  rewrite H, Z.eqb_refl; reflexivity.
Qed.

Definition elt_from (E : schema) (file : list Z) (start : Z) (chain : list pctx) (upper : Z) (allow : bool) (s : fst_) (res : fres) : Prop :=
  exists s2 r id chain' upper',
    inv file start s2 /\ base s <= base s2 /\ within file start s (chain_end chain) (f_pos s2) /\ read_header file start (chain_end chain) s2 id r /\
    ((sz_val r = sz_unk r /\ chain' = chain /\ upper' = upper) \/
     (sz_val r <> sz_unk r /\ contain chain allow (base s2 + sz_val r) upper = (true, chain', upper'))) /\
    accept E chain' allow upper' id r s2 = Some res.

Definition is_placeholder (file : list Z) (start : Z) (s : fst_) (chain : list pctx) (upper : Z) (allow : bool) (res : fres) : Prop :=
  allow = true /\ exists s2 id, f_pos s <= f_pos s2 /\ within file start s (chain_end chain) (f_pos s2) /\
    chain_end chain <> INVALID_FILEPOS /\ chain_end chain < f_pos s2 /\ at_limit chain allow upper id s2 = Some res.

Lemma contain_skipn chain allow v : forall upper found chain' upper', contain chain allow v upper = (found, chain', upper') ->
  exists k, (k <= length chain)%nat /\ chain' = skipn k chain /\ upper' = upper + Z.of_nat k /\
    (found = true -> chain_end chain' = INVALID_FILEPOS \/ v <= chain_end chain') /\
    (allow = true -> k = O) /\ (chain <> [] -> chain' <> []).
Proof.
  induction chain as [|[c e] up IH]; intros upper found chain' upper' H; cbn [contain] in H.
  { injection H as <- <- <-. exists O. split; [cbn; lia|]. split; [reflexivity|]. split; [lia|]. split; [left; reflexivity|]. split; [reflexivity|congruence]. }
  destruct (negb (e =? INVALID_FILEPOS) && (e <? v)) eqn:Ec.
  - destruct (allow || match up with [] => true | _ => false end) eqn:Ea.
    + injection H as <- <- <-. exists O. split; [cbn; lia|]. split; [reflexivity|]. split; [lia|]. split; [discriminate|]. split; [reflexivity|congruence].
    + destruct (IH _ _ _ _ H) as (k & Hk & -> & -> & Hf & Hal & Hne). exists (S k). split; [cbn; lia|]. split; [reflexivity|]. split; [lia|].
      split; [exact Hf|]. destruct allow; [discriminate|]. split; [discriminate|]. intros _. apply Hne. destruct up; [discriminate|congruence].
  - injection H as <- <- <-. exists O. split; [cbn; lia|]. split; [reflexivity|]. split; [lia|]. split; [|split; [reflexivity|congruence]].
    intros _. cbn [chain_end]. unfold INVALID_FILEPOS in *. lia.
Qed.

Lemma accept_elt E chain allow upper id r s res : accept E chain allow upper id r s = Some res -> exists h u p, res = FElt h u p.
Proof.
  unfold accept. destruct (create_using _ _ _ _ _ _) as [[k low]|]; [|discriminate]. cbv zeta.
  destruct (allow || _); [|discriminate]. destruct (validate_size _ _ _); [|discriminate]. intros H. apply some_inj in H. eauto.
Qed.

Lemma turn_ok E file start orig upper0 allow s chain upper : bytes_ok file -> ent file start s ->
  match turn E file start orig upper0 allow s chain upper with
  | Stuck => False
  | Done FBad => False
  | Done (FNull u p) => f_pos s <= p /\ within file start s (chain_end chain) p
  | Done res => elt_from E file start chain upper allow s res \/ is_placeholder file start s chain upper allow res
  | Again s' => ent file start s' /\ base s + 1 <= base s' /\ f_pos s <= f_pos s' /\ within file start s (chain_end chain) (f_pos s') /\ f_pos s' <= zlen file /\
      (chain_end orig = INVALID_FILEPOS \/ base s' - 1 + f_pidl s' < chain_end orig)
  end.
Proof.
  intros Hok (Hinv & Hri & Hpi & Hpi0). unfold turn.
  (* the common tail *)
  assert (Htail : forall s2 chain' upper' found, inv file start s2 -> base s <= base s2 -> f_pos s <= f_pos s2 ->
     (allow = true -> chain' = chain /\ upper' = upper) -> within file start s (chain_end chain) (f_pos s2) ->
     f_pidl s2 <= f_ri s2 ->
     (found = None \/ exists r, found = Some r /\ (forall id, id_from_buffer (f_buf s2) (f_pidl s2) = Some id -> read_header file start (chain_end chain) s2 id r) /\
        ((sz_val r = sz_unk r /\ chain' = chain /\ upper' = upper) \/
         (sz_val r <> sz_unk r /\ contain chain allow (base s2 + sz_val r) upper = (true, chain', upper')))) ->
     ((1 <= f_ri s2 - f_pidl s2 /\ 1 <= f_pidl s2) \/ (chain_end chain = start + f_rs s2 /\ chain' = chain)) ->
     match turn_tail E orig upper0 allow s2 chain' upper' found
     with
     | Stuck => False
     | Done FBad => False
     | Done (FNull u p) => f_pos s <= p /\ within file start s (chain_end chain) p
     | Done res => elt_from E file start chain upper allow s res \/ is_placeholder file start s chain upper allow res
     | Again s' => ent file start s' /\ base s + 1 <= base s' /\ f_pos s <= f_pos s' /\ within file start s (chain_end chain) (f_pos s') /\ f_pos s' <= zlen file /\
         (chain_end orig = INVALID_FILEPOS \/ base s' - 1 + f_pidl s' < chain_end orig)
     end).
  { intros s2 chain' upper' found Hi2 Hb2 Hp2 Hk Hw Hpr Hfound Hlim. unfold turn_tail.
    pose proof Hi2 as (H1 & H2 & H3 & H4 & H5 & H6 & H7 & H8).
    destruct (id_from_buffer_gen (f_buf s2) (f_pidl s2) H2 ltac:(lia) ltac:(lia)) as (id & Eid & Hid). rewrite Eid.
    destruct (match found with Some r => _ | None => None end) as [res|] eqn:Eacc.
    { destruct Hfound as [->|(r & -> & Hrh & Hcc)]; [discriminate|].
      destruct (accept_elt _ _ _ _ _ _ _ _ Eacc) as (h & u & p & ->). left.
      exists s2, r, id, chain', upper'. split; [exact Hi2|]. split; [exact Hb2|]. split; [exact Hw|]. split; [auto|]. split; [exact Hcc|exact Eacc]. }
    destruct (at_limit chain' allow upper' id s2) as [res|] eqn:Elim.
    { unfold at_limit in Elim. destruct (negb (chain_end chain' =? INVALID_FILEPOS) && (chain_end chain' <=? f_pos s2)) eqn:E1; [|discriminate].
      destruct (allow && negb (chain_end chain' =? f_pos s2)) eqn:E2; apply some_inj in Elim; subst res; [|split; [exact Hp2|exact Hw]].
      right. assert (Hal : allow = true) by (destruct allow; [reflexivity|discriminate]). destruct (Hk Hal) as [-> ->].
      split; [exact Hal|]. exists s2, id. split; [exact Hp2|]. split; [exact Hw|]. split; [lia|]. split; [lia|].
      unfold at_limit. rewrite E1, E2. reflexivity. }
    assert (Hri1 : 1 <= f_ri s2 - f_pidl s2 /\ 1 <= f_pidl s2).
    { destruct Hlim as [?|[Hl ->]]; [lia|]. exfalso. unfold at_limit in Elim.
      assert (chain_end chain <= f_pos s2). { rewrite Hl, H8. unfold u32. assert ((f_pos s2 - start) mod 2 ^ 32 <= f_pos s2 - start) by (apply Z.mod_le; lia). lia. }
      assert (0 <= f_rs s2) by (rewrite H8; unfold u32; apply Z.mod_pos_bound; lia).
      destruct (negb (chain_end chain =? INVALID_FILEPOS) && (chain_end chain <=? f_pos s2)) eqn:E1; [|unfold INVALID_FILEPOS in *; lia].
      destruct (allow && negb (chain_end chain =? f_pos s2)); discriminate Elim. }
    destruct (shift_ok file start s2 Hi2 ltac:(lia)) as (buf & Hs & Hi3). rewrite Hs.
    destruct ((chain_end orig =? INVALID_FILEPOS) || _) eqn:Eor; [|split; [exact Hp2|exact Hw]].
    split; [split; [exact Hi3|]; cbn [f_ri f_pidl]; lia|]. unfold base in *; cbn [f_ri f_pidl f_pos].
    split; [lia|]. split; [lia|]. split; [exact Hw|]. split; [lia|]. lia. }
  assert (H0 : 0 <= f_pidl s) by apply Hinv.
  assert (Hpos0 : 0 <= f_pos s) by (destruct Hinv as (_ & _ & ? & ? & _); lia).
  destruct (id_loop_ok file start (chain_end chain) Hok (S (length file)) s Hinv Hri ltac:(unfold zlen; lia)) as (ri & Eri & Hr).
  pose proof (fun H1 H2 => id_loop_bound file start (chain_end chain) Hok H1 (S (length file)) s Hinv Hri H2) as Hbd1.
  rewrite Eri in *. destruct ri as [s1|s1|p|]; cbn beta iota in Hr, Hbd1; [| |split; [exact Hr|exact Hbd1]|exact Hr].
  - destruct Hr as (Hi1 & (Hn & Hnr & id & Hid) & Hri1 & Hp1 & Hb1).
    destruct (size_loop_ok file start (chain_end chain) Hok 9 s1 (f_ri s1 - f_pidl s1) Hi1 eq_refl ltac:(lia) ltac:(lia)) as (rz & Erz & Hz).
    pose proof (fun H1 H2 => size_loop_bound file start (chain_end chain) Hok H1 9 s1 (f_ri s1 - f_pidl s1) Hi1 ltac:(lia) (Hbd1 H1 H2)) as Hbd2.
    rewrite Erz in *. destruct rz as [r s2|s2|p|]; cbn beta iota in Hz, Hbd2; [| |split; [lia|exact Hbd2]|exact Hz].
    + destruct Hz as (Hi2 & Hsr & Hpl & Hb2 & Hp2 & Hpre).
      pose proof Hsr as (Hsv & Hsl & Hsm & Hsr1 & Hsu).
      destruct (inv_prefix file start s2 (f_pidl s2) Hi2 ltac:(lia)) as [Hpf Hpz].
      assert (Hids : id_encodes (slice file (base s2) (f_pidl s2)) id).
      { rewrite Hpf, Hpl. apply (f_equal (firstn (Z.to_nat (f_pidl s1)))) in Hpre. rewrite !firstn_firstn in Hpre.
        replace (Nat.min (Z.to_nat (f_pidl s1)) (Z.to_nat (f_ri s1))) with (Z.to_nat (f_pidl s1)) in Hpre by lia. rewrite Hpre. exact Hid. }
      assert (Hrh : forall id', id_from_buffer (f_buf s2) (f_pidl s2) = Some id' -> read_header file start (chain_end chain) s2 id' r).
      { intros id' Hid'. red. cbv zeta. split; [lia|]. destruct (id_from_buffer_gen (f_buf s2) (f_pidl s2)) as (id2 & E2 & H2');
          [apply Hi2|destruct Hi2; lia|lia|]. rewrite E2 in Hid'. apply some_inj in Hid'. subst id2. rewrite Hpf. split; [apply H2'; lia|].
        rewrite Hpf in Hpz, Hids. split; [exact Hpz|]. split; [exact Hsr|]. left. rewrite H2' by lia. destruct Hids as (Q1 & Q2 & Q3). rewrite Q3.
        split; [exact Q1|]. split; [exact Q2|exact Q3]. }
      destruct (sz_val r =? sz_unk r) eqn:Eunk.
      * apply Htail; try exact Hi2; [unfold base in *; lia|lia|auto|exact Hbd2|lia| |left; lia].
        right. exists r. split; [reflexivity|]. split; [exact Hrh|]. left. split; [lia|]. auto.
      * destruct (contain chain allow (f_pos s2 + sz_val r - f_ri s2) upper) as [[found chain'] upper'] eqn:Ec.
        destruct (contain_skipn _ _ _ _ _ _ _ Ec) as (k & _ & -> & -> & _ & Hk & _).
        apply Htail; try exact Hi2; [unfold base in *; lia|lia|intros Ha; rewrite (Hk Ha); split; [reflexivity|lia]|exact Hbd2|lia| |left; lia].
        destruct found; [|left; reflexivity]. right. exists r. split; [reflexivity|]. split; [exact Hrh|]. right. split; [lia|].
        rewrite <- Ec. unfold base. f_equal. lia.
    + destruct Hz as (Hi2 & Hpl & Hb2 & Hp2 & Hl).
      apply Htail; try exact Hi2; [unfold base in *; lia|lia|auto|exact Hbd2|lia|left; reflexivity|]. destruct Hl; [left; lia|right; auto].
  - destruct Hr as (Hi1 & Hnm & Hri1 & Hp1 & Hrr & Hb1 & Hpl1 & Hlim & H44).
    destruct (size_loop_ok file start (chain_end chain) Hok 9 s1 (f_ri s1 - f_pidl s1) Hi1 eq_refl ltac:(lia) ltac:(lia)) as (rz & Erz & Hz).
    pose proof (size_loop_limit file start (chain_end chain) 9 s1 (f_ri s1 - f_pidl s1) Hlim) as Hsame.
    rewrite Erz in *. destruct rz as [r s2|s2|p|]; cbn beta iota in Hz, Hsame; [| |contradiction|exact Hz].
    + subst s2. destruct Hz as (_ & Hsr & _). pose proof Hsr as (Hsv & Hsl & Hsm & Hsr1 & Hsu).
      destruct Hnm as (b0 & Hrd & Hb0).
      assert (Hn1 : 1 <= f_pidl s1).
      { destruct (Z.eq_dec (f_pidl s1) 0) as [Hz0|]; [|lia]. exfalso.
        assert (Hr4 : f_ri s1 <= 4) by (apply H44; rewrite Hpi0; lia).
        destruct (inv_prefix file start s1 (sz_len r) Hi1 ltac:(lia)) as [Hpf Hpz].
        rewrite Hz0, Z.add_0_r in Hsv, Hsl. unfold base in *. rewrite Hpf in *.
        destruct (f_buf s1) as [|x t] eqn:Ebuf; [discriminate|]. cbn in Hrd. apply some_inj in Hrd as ->.
        replace (Z.to_nat (sz_len r)) with (S (Z.to_nat (sz_len r - 1))) in * by lia. cbn [firstn] in *.
        destruct Hsv as (Q1 & Q2 & Q3 & Q4). rewrite Hpz in *. rewrite zlen_cons in Hpz.
        pose proof Q1 as Q1'. inversion Q1' as [|? ? Qb Qt]; subst.
        assert (b0 < 2 ^ (8 - sz_len r)). { eapply Z.lt_le_trans; [apply Hb0|]. apply Z.pow_le_mono_r; lia. }
        pose proof (small_be b0 _ (sz_len r) Qb Qt ltac:(lia) ltac:(lia) ltac:(assumption)). lia. }
      assert (Hrh : forall id', id_from_buffer (f_buf s1) (f_pidl s1) = Some id' -> read_header file start (chain_end chain) s1 id' r).
      { intros id' Hid'. assert (0 <= f_pidl s1 <= 4) by apply Hi1. red. cbv zeta. split; [lia|].
        destruct (id_from_buffer_gen (f_buf s1) (f_pidl s1)) as (id2 & E2 & H2');
          [apply Hi1|destruct Hi1; lia|lia|]. rewrite E2 in Hid'. apply some_inj in Hid'. subst id2.
        destruct (inv_prefix file start s1 (f_pidl s1) Hi1 ltac:(lia)) as [Hpf Hpz].
        rewrite Hpf in *. split; [apply H2'; lia|]. split; [exact Hpz|]. split; [exact Hsr|]. right. split; [|exact Hlim].
        rewrite H2' by lia. destruct (f_buf s1) as [|x t] eqn:Ebuf; [discriminate|]. cbn in Hrd. apply some_inj in Hrd as ->.
        assert (Hbt : bytes_ok (b0 :: t)) by (rewrite <- Ebuf; apply Hi1). inversion Hbt; subst.
        replace (Z.to_nat (f_pidl s1)) with (S (Z.to_nat (f_pidl s1 - 1))) in * by lia. cbn [firstn] in *. rewrite zlen_cons in Hpz.
        apply small_be; [assumption|apply bytes_ok_firstn; assumption|lia|lia|].
        eapply Z.lt_le_trans; [apply Hb0|]. apply Z.pow_le_mono_r; lia. }
      destruct (sz_val r =? sz_unk r) eqn:Eunk.
      * apply Htail; try exact Hi1; try exact Hb1; try exact Hp1; [auto|exact Hbd1|lia| |left; lia].
        right. exists r. split; [reflexivity|]. split; [exact Hrh|]. left. split; [lia|]. auto.
      * destruct (contain chain allow (f_pos s1 + sz_val r - f_ri s1) upper) as [[found chain'] upper'] eqn:Ec.
        destruct (contain_skipn _ _ _ _ _ _ _ Ec) as (k & _ & -> & -> & _ & Hk & _).
        apply Htail; try exact Hi1; try exact Hb1; try exact Hp1; [intros Ha; rewrite (Hk Ha); split; [reflexivity|lia]|exact Hbd1|lia| |left; lia].
        destruct found; [|left; reflexivity]. right. exists r. split; [reflexivity|]. split; [exact Hrh|]. right. split; [lia|].
        rewrite <- Ec. unfold base. f_equal. lia.
    + subst s2. apply Htail; try exact Hi1; try exact Hb1; try exact Hp1; [auto|exact Hbd1|lia|left; reflexivity|right; split; [exact Hlim|reflexivity]].
Qed.
