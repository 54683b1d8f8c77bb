From Verif Require Import Base BaseProofs Vint EbmlId Ebml Tree TreeRead Create CreateProofs Arr Stream Frame Block BlockTime BlockTimeProofs Cues CuesSpec CuesProofs CuesProofs2 Tracks TracksSpec TracksProofs.

Section Proofs.
Context (rest : schema) (td : Z -> Z).
Notation T := (T rest).
Notation kid x := (kind_id T (e_kind (einfo x))).
Lemma none_filter id l : none T id l <-> filter (fun x => kid x =? id) l = [].
Proof. clear td.
  unfold none, has_id. induction l as [|x l IH]; cbn [filter]; [split; [reflexivity|constructor]|]. rewrite Forall_cons_iff.
  destruct (Z.eqb_spec (kid x) id) as [e|e]; [split; [intros [H _]; contradiction|discriminate]|]. rewrite IH. tauto.
Qed.
Lemma only_iff id l d : only T id l d <-> filter (fun x => kid x =? id) l = [d].
Proof. clear td.
  split.
  - intros (l1 & l2 & -> & Hd & Hn). apply Forall_app in Hn. destruct Hn as [H1 H2]. apply none_filter in H1, H2. rewrite filter_app. cbn [filter]. rewrite H1, Hd, Z.eqb_refl, H2. reflexivity.
  - induction l as [|x l IH]; cbn [filter]; [discriminate|]. destruct (Z.eqb_spec (kid x) id) as [e|e].
    + intros H. injection H as -> H. exists [], l. split; [reflexivity|]. split; [exact e|]. apply none_filter. exact H.
    + intros H. destruct (IH H) as (l1 & l2 & -> & Hd & Hn). exists (x :: l1), l2. split; [reflexivity|]. split; [exact Hd|]. constructor; assumption.
Qed.
Lemma change_only id f l d d' : only T id l d -> f d = Ok d' -> kid d' = id ->
  exists l', change_child T id f l = Ok l' /\ only T id l' d' /\ others T id l l' /\
    (forall id2 x, id2 <> id -> only T id2 l x -> only T id2 l' x) /\ (forall id2, id2 <> id -> none T id2 l -> none T id2 l').
Proof. clear td.
  intros (l1 & l2 & -> & Hd & Hn) Hf Hk. exists (l1 ++ d' :: l2).
  assert (E : change_child T id f (l1 ++ d :: l2) = Ok (l1 ++ d' :: l2)).
  { clear -Hd Hn Hf. induction l1 as [|x l1 IH]; cbn [app change_child].
    - unfold eid_of. rewrite Hd, Z.eqb_refl, Hf. reflexivity.
    - cbn [app] in Hn. apply Forall_cons_iff in Hn. destruct Hn as [Hx Hn]. unfold eid_of at 1. rewrite (proj2 (Z.eqb_neq _ _) Hx), (IH Hn). reflexivity. }
  split; [exact E|]. split; [exists l1, l2; auto|]. split; [unfold others; rewrite !filter_app; cbn [filter]; rewrite Hk, Hd, Z.eqb_refl; reflexivity|].
  assert (Hdd : kid d = id) by exact Hd.
  assert (F : forall id2, id2 <> id -> filter (fun x => kid x =? id2) (l1 ++ d' :: l2) = filter (fun x => kid x =? id2) (l1 ++ d :: l2)).
  { intros id2 H2. rewrite !filter_app. cbn [filter]. rewrite Hk, Hdd, (proj2 (Z.eqb_neq id id2)) by (intros A; apply H2; symmetry; exact A). reflexivity. }
  split; [intros id2 x H2 Hx; apply only_iff; rewrite (F _ H2); apply only_iff; exact Hx|].
  intros id2 H2 Hx. apply none_filter. rewrite (F _ H2). apply none_filter. exact Hx.
Qed.

Lemma flip_ok t scope algo st : declares T t scope algo st -> - 2 ^ 63 <= Z.lxor scope 2 < 2 ^ 63 ->
  exists t', flip_private rest t = Ok t' /\ declares T t' (Z.lxor scope 2) algo st /\ others T 28032 (kids t) (kids t').
Proof. clear td.
  intros (i & k & ch & enc & cp & j & H1 & -> & H2 & H3 & H4 & H5 & H6) Hb.
  destruct t as [i0 v|i0 k0 ch0]; [destruct H1 as ([|] & l2 & X & _); discriminate X|]. cbn [kids] in *.
  destruct enc as [ie ve|ie ke che]; [destruct H3 as ([|] & l2 & X & _); discriminate X|]. cbn [kids] in *.
  assert (A : exists c', change_child T ID_ContentEncodings (fun encs =>
        match encs with
        | Leaf _ _ => Bad
        | Master j jc jch =>
            do jch <- change_child T ID_ContentEncoding (fun enc =>
              match enc with
              | Leaf _ _ => Bad
              | Master k kc kch =>
                  do kch <- change_child T ID_ContentEncodingScope (fun s => do v <- int_of s; put_int (Z.lxor v SCOPE_PRIVATE) s) kch;
                  Ok (Master k kc kch)
              end) jch;
            Ok (Master j jc jch)
        end) ch0 = Ok c' /\ declares T (Master i0 k0 c') (Z.lxor scope 2) algo st /\ others T 28032 ch0 c').
  { destruct (change_only 20530 (fun s => do v <- int_of s; put_int (Z.lxor v SCOPE_PRIVATE) s) che _ (int_set j (Z.lxor scope 2)) H3 eq_refl) as (che' & E1 & O1 & _ & O2 & N2).
    { destruct H3 as (l1 & l2 & _ & Hid & _). exact Hid. }
    unfold int_set in O1. rewrite (s64_small _ Hb) in O1.
    match goal with |- exists c', change_child _ _ ?f _ = _ /\ _ => set (ff := f) end.
    destruct (change_only 28032 ff ch0 _ (Master i k [Master ie ke che']) H1) as (c' & E2 & O3 & Oth & _).
    - subst ff. cbv beta iota. cbn [change_child]. unfold eid_of at 1. rewrite H2. change (25152 =? ID_ContentEncoding) with true. cbv iota.
      change ID_ContentEncodingScope with 20530. rewrite E1. reflexivity.
    - destruct H1 as (l1 & l2 & _ & Hid & _). exact Hid.
    - exists c'. split; [exact E2|]. split; [|exact Oth]. eexists _, _, _, _, _, _. split; [exact O3|]. split; [reflexivity|]. split; [exact H2|]. cbn [kids].
      split; [exact O1|]. split; [apply O2; [lia|exact H4]|]. split; [exact H5|exact H6]. }
  destruct A as (c' & E1 & D1 & O1). exists (Master i0 k0 c'). unfold flip_private. rewrite E1. split; [reflexivity|]. split; [exact D1|exact O1].
Qed.

(** ** Asking for the compression *)
Lemma change_none id f l : find_child T id l = None -> change_child T id f l = Ok l.
Proof. clear td.
  unfold find_child. induction l as [|x l IH]; cbn [find change_child]; [reflexivity|]. destruct (_ =? id); [discriminate|]. intros H. rewrite (IH H). reflexivity.
Qed.
Lemma get_again fuel prof c e d e' : get_child T td fuel prof c e = Ok (d, e') -> eid_of T (einfo d) = c_id (T c) ->
  get_child T td fuel prof c e' = Ok (d, e') /\ find_child T (c_id (T c)) (kids e') = Some d /\ einfo e' = einfo e \/
  get_child T td fuel prof c e' = Ok (d, e') /\ find_child T (c_id (T c)) (kids e') = Some d /\ e_kind (einfo e') = e_kind (einfo e).
Proof.
  intros H Hd. destruct e as [i v|i k ch]; cbn [get_child] in H; [discriminate|]. destruct (find_child T (c_id (T c)) ch) as [x|] eqn:Ex.
  - injection H as -> <-. left. cbn [get_child kids]. rewrite Ex. auto.
  - destruct (create T td fuel true prof c) as [| | |x] eqn:Ec; cbn [bind] in H; try discriminate. injection H as <- <-. right. cbn [get_child kids einfo].
    assert (F : find_child T (c_id (T c)) (ch ++ [x]) = Some x) by (rewrite find_app, Ex; unfold find_child; cbn [find]; rewrite Hd, Z.eqb_refl; reflexivity).
    rewrite F. auto.
Qed.
Lemma get_id fuel prof c e d e' : get_child T td fuel prof c e = Ok (d, e') -> eid_of T (einfo d) = c_id (T c).
Proof.
  intros H. destruct e as [i v|i k ch]; cbn [get_child] in H; [discriminate|]. destruct (find_child T (c_id (T c)) ch) as [x|] eqn:Ex.
  - injection H as -> <-. exact (find_child_id _ _ _ _ Ex).
  - destruct (create T td fuel true prof c) as [| | |x] eqn:Ec; cbn [bind] in H; try discriminate. injection H as <- <-. unfold eid_of.
    rewrite (create_kind T td fuel true prof c x Ec). reflexivity.
Qed.
Lemma get_again2 fuel prof c e d e' : get_child T td fuel prof c e = Ok (d, e') ->
  get_child T td fuel prof c e' = Ok (d, e') /\ find_child T (c_id (T c)) (kids e') = Some d /\ e_kind (einfo e') = e_kind (einfo e).
Proof. intros H. destruct (get_again _ _ _ _ _ _ H (get_id _ _ _ _ _ _ H)) as [(A & B & C)|(A & B & C)]; split; auto. split; [exact B|congruence]. Qed.

Lemma touch_get fuel prof t v : get_compression rest td fuel prof t = Ok v ->
  exists t', touch_compression rest td fuel prof t = Ok t' /\ get_compression rest td fuel prof t' = Ok v.
Proof.
  unfold get_compression, child. destruct t as [i0 v0|i0 k0 ch0]; [intros H; eexists; split; [reflexivity|exact H]|]. cbn [children touch_compression].
  destruct (find_child T ID_ContentEncodings ch0) as [encs|] eqn:E1.
  2: { intros H. rewrite (change_none _ _ _ E1). cbn [bind]. eexists. split; [reflexivity|]. cbn [children]. rewrite E1. exact H. }
  match goal with |- _ -> exists t', (do _ <- change_child _ _ ?f _; _) = _ /\ _ => set (ff := f) end.
  assert (STEP : forall encs' (w : Z), ff encs = Ok encs' -> eid_of T (einfo encs') = ID_ContentEncodings ->
    match find_child T ID_ContentEncoding (children encs') with
    | None => Ok COMP_NONE
    | Some enc =>
        do r <- get_child T td fuel prof 7 enc;
        do s <- int_of (fst r);
        if Z.land s SCOPE_BLOCK =? 0 then Ok COMP_NONE
        else match find_child T ID_ContentCompression (children (snd r)) with
             | None => Ok COMP_NONE
             | Some cp => do r <- get_child T td fuel prof 10 cp; do a <- int_of (fst r); Ok (s32 a)
             end
    end = Ok w ->
    exists t', (do ch <- change_child T ID_ContentEncodings ff ch0; Ok (Master i0 k0 ch)) = Ok t' /\
      match find_child T ID_ContentEncodings (children t') with
      | None => Ok COMP_NONE
      | Some encs =>
          match find_child T ID_ContentEncoding (children encs) with
          | None => Ok COMP_NONE
          | Some enc =>
              do r <- get_child T td fuel prof 7 enc;
              do s <- int_of (fst r);
              if Z.land s SCOPE_BLOCK =? 0 then Ok COMP_NONE
              else match find_child T ID_ContentCompression (children (snd r)) with
                   | None => Ok COMP_NONE
                   | Some cp => do r <- get_child T td fuel prof 10 cp; do a <- int_of (fst r); Ok (s32 a)
                   end
          end
      end = Ok w).
  { intros encs' w Hff Hid Hw. destruct (change_child_ok T ID_ContentEncodings ff ch0 encs encs' E1 Hff Hid) as (ch1 & E2 & F2 & _).
    rewrite E2. cbn [bind]. eexists. split; [reflexivity|]. cbn [children]. rewrite F2. exact Hw. }
  pose proof (find_child_id _ _ _ _ E1) as Hid. destruct encs as [i1 v1|i1 k1 ch1]; [intros H; apply (STEP _ v eq_refl Hid); exact H|]. cbn [children].
  destruct (find_child T ID_ContentEncoding ch1) as [enc|] eqn:E3.
  2: { intros H. apply (STEP (Master i1 k1 ch1) v); [|exact Hid|cbn [children]; rewrite E3; exact H]. subst ff. cbv beta iota. rewrite (change_none _ _ _ E3). reflexivity. }
  pose proof (find_child_id _ _ _ _ E3) as Hid3.
  destruct (get_child T td fuel prof 7 enc) as [| | |[s enc1]] eqn:E4; cbn [bind]; try discriminate. cbn [fst snd].
  destruct (int_of s) as [| | |sv] eqn:E5; cbn [bind]; try discriminate.
  destruct (get_again2 _ _ _ _ _ _ E4) as (G1 & G2 & G3).
  assert (INNER : forall enc2 w, (do r <- get_child T td fuel prof 7 enc; do s <- int_of (fst r);
              if Z.land s SCOPE_BLOCK =? 0 then Ok (snd r)
              else match snd r with
                   | Leaf _ _ => Bad
                   | Master k kc kch => do kch <- change_child T ID_ContentCompression (look rest td fuel prof 10) kch; Ok (Master k kc kch)
                   end) = Ok enc2 -> e_kind (einfo enc2) = e_kind (einfo enc) ->
     (do r <- get_child T td fuel prof 7 enc2; do s <- int_of (fst r);
        if Z.land s SCOPE_BLOCK =? 0 then Ok COMP_NONE
        else match find_child T ID_ContentCompression (children (snd r)) with
             | None => Ok COMP_NONE
             | Some cp => do r <- get_child T td fuel prof 10 cp; do a <- int_of (fst r); Ok (s32 a)
             end) = Ok w ->
     exists ch2, ff (Master i1 k1 ch1) = Ok (Master i1 k1 ch2) /\ find_child T ID_ContentEncoding ch2 = Some enc2).
  { intros enc2 w Hi Hk _. subst ff. cbv beta iota.
    match goal with |- context [change_child _ ID_ContentEncoding ?g _] => destruct (change_child_ok T ID_ContentEncoding g ch1 enc enc2 E3 Hi) as (ch2 & E6 & F6 & _) end.
    { unfold eid_of. rewrite Hk. exact Hid3. }
    rewrite E6. cbn [bind]. exists ch2. auto. }
  destruct (Z.eqb_spec (Z.land sv SCOPE_BLOCK) 0) as [Hz|Hz].
  - intros H. destruct (INNER enc1 v) as (ch2 & E6 & F6).
    + rewrite E4. cbn [bind fst snd]. rewrite E5. cbn [bind]. rewrite Hz. reflexivity.
    + exact G3.
    + rewrite G1. cbn [bind fst snd]. rewrite E5. cbn [bind]. rewrite Hz. exact H.
    + apply (STEP _ v E6 Hid). cbn [children]. rewrite F6, G1. cbn [bind fst snd]. rewrite E5. cbn [bind]. rewrite Hz. exact H.
  - assert (Hz' : (Z.land sv SCOPE_BLOCK =? 0) = false) by (apply Z.eqb_neq; exact Hz).
    destruct enc1 as [i2 v2|i2 k2 ch2]; [cbn [kids] in G2; discriminate|]. cbn [children kids einfo] in *.
    destruct (find_child T ID_ContentCompression ch2) as [cp|] eqn:E7.
    2: { intros H. destruct (INNER (Master i2 k2 ch2) v) as (ch3 & E6 & F6).
      + rewrite E4. cbn [bind fst snd]. rewrite E5. cbn [bind]. rewrite Hz', (change_none _ _ _ E7). reflexivity.
      + exact G3.
      + rewrite G1. cbn [bind fst snd]. rewrite E5. cbn [bind]. rewrite Hz'. cbn [children]. rewrite E7. exact H.
      + apply (STEP _ v E6 Hid). cbn [children]. rewrite F6, G1. cbn [bind fst snd]. rewrite E5. cbn [bind]. rewrite Hz'. cbn [children]. rewrite E7. exact H. }
    destruct (get_child T td fuel prof 10 cp) as [| | |[al cp1]] eqn:E8; cbn [bind]; try discriminate. cbn [fst snd]. intros H.
    destruct (get_again2 _ _ _ _ _ _ E8) as (K1 & K2 & K3).
    destruct (change_child_ok T ID_ContentCompression (look rest td fuel prof 10) ch2 cp cp1 E7) as (ch3 & E9 & F9 & N9).
    { unfold look. rewrite E8. reflexivity. }
    { unfold eid_of. rewrite K3. exact (find_child_id _ _ _ _ E7). }
    assert (G4 : get_child T td fuel prof 7 (Master i2 k2 ch3) = Ok (s, Master i2 k2 ch3)).
    { apply get_found. cbn [kids]. rewrite N9 by (vm_compute; discriminate). exact G2. }
    assert (V : (do r <- get_child T td fuel prof 7 (Master i2 k2 ch3); do s <- int_of (fst r);
        if Z.land s SCOPE_BLOCK =? 0 then Ok COMP_NONE
        else match find_child T ID_ContentCompression (children (snd r)) with
             | None => Ok COMP_NONE
             | Some cp => do r <- get_child T td fuel prof 10 cp; do a <- int_of (fst r); Ok (s32 a)
             end) = Ok v).
    { rewrite G4. cbn [bind fst snd]. rewrite E5. cbn [bind]. rewrite Hz'. cbn [children]. rewrite F9, K1. exact H. }
    destruct (INNER (Master i2 k2 ch3) v) as (ch4 & E6 & F6).
    + rewrite E4. cbn [bind fst snd]. rewrite E5. cbn [bind]. rewrite Hz', E9. reflexivity.
    + exact G3.
    + exact V.
    + apply (STEP _ v E6 Hid). cbn [children]. rewrite F6. exact V.
Qed.
End Proofs.
