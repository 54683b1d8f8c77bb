From Verif Require Import Base BaseProofs Vint VintSpec VintProofs EbmlId EbmlIdSpec EbmlIdProofs Ebml FindId FindIdSpec FindIdProofs.

(** C104: an identifier of at most four bytes and a size at the position of the stream: the element is that
    of the context when the identifier is its own, of no known kind otherwise, with the size and the positions
    of the file; it is refused exactly when its kind has no such size or the size is known and above the limit.
    The stream is left after the size. *)
Theorem C104_found E c max idb id sz v rest pos :
  id_encodes idb id -> vint_spec sz v -> bytes_ok rest -> 0 <= max ->
  let k := if c_id (E c) =? id then Known c else Dummy id in
  let after := pos + zlen idb + zlen sz in
  (validate_size (kind_class E k) true v = true /\ (v = vint_reserved (zlen sz) \/ v <= max) ->
   find_next_id E c max (idb ++ sz ++ rest) pos =
     Some (FFound k (zlen sz) v pos (pos + zlen idb) (after + v) after)) /\
  (validate_size (kind_class E k) true v = false \/ (v <> vint_reserved (zlen sz) /\ max < v) ->
   find_next_id E c max (idb ++ sz ++ rest) pos = Some (FNone after)).
Proof.
  cbv zeta. intros Hi Hs Hr Hm. set (k := if c_id (E c) =? id then Known c else Dummy id).
  assert (F : find_next_id E c max (idb ++ sz ++ rest) pos =
    Some (if negb (validate_size (kind_class E k) true v) || (negb (v =? vint_reserved (zlen sz)) && (max <? v))
          then FNone (pos + zlen idb + zlen sz)
          else FFound k (zlen sz) v pos (pos + zlen idb) (pos + zlen idb + zlen sz + v) (pos + zlen idb + zlen sz))).
  { unfold find_next_id. rewrite (loop_S _ _ _ _ _ _ _ _ 9). rewrite (ids_found idb id (sz ++ rest) pos Hi).
    2:{ apply bytes_ok_app. split; [apply Hs|exact Hr]. }
    rewrite (size_got sz v rest _ _ Hs). unfold fid_end. pose proof (id_from_buffer_ok idb id [] Hi) as Ei. rewrite app_nil_r in Ei.
    rewrite Ei. cbv zeta. cbn [sz_val sz_len sz_unk]. reflexivity. }
  rewrite F. split.
  - intros [-> Hv]. cbn [negb orb]. destruct (Z.eqb_spec v (vint_reserved (zlen sz))); [reflexivity|]. destruct (Z.ltb_spec max v); [lia|reflexivity].
  - intros [-> |[Hn Hv]]; [reflexivity|]. destruct (validate_size _ _ _); [|reflexivity]. cbn [negb orb].
    destruct (Z.eqb_spec v (vint_reserved (zlen sz))); [contradiction|]. destruct (Z.ltb_spec max v); [reflexivity|lia].
Qed.
Print Assumptions C104_found.
Definition ex_E : schema := fun c => mkCtx 440786851 KMaster None None [].
Example C104_found_ex : id_encodes [26; 69; 223; 163] 440786851 /\ vint_spec [64; 20] 20 /\
  find_next_id ex_E 0 100 ([26; 69; 223; 163] ++ [64; 20] ++ [1; 2]) 7 = Some (FFound (Known 0) 2 20 7 11 33 13) /\
  find_next_id ex_E 0 10 ([26; 69; 223; 163] ++ [64; 20] ++ [1; 2]) 7 = Some (FNone 13) /\
  find_next_id ex_E 0 100 ([236] ++ [131] ++ [1; 2; 3]) 0 = Some (FFound (Dummy 236) 1 3 0 1 5 2).
Proof.
  split; [|split].
  - split; [apply bytes_ok_forallb; reflexivity|]. vm_compute. intuition congruence.
  - split; [apply bytes_ok_forallb; reflexivity|]. vm_compute. intuition congruence.
  - split; [|split]; vm_compute; reflexivity.
Qed.

(** A stream of fewer than five bytes without a whole identifier: nothing, at the end of the stream. *)
Theorem C104_no_id E c max rem pos :
  bytes_ok rem -> zlen rem < 5 -> ~ (exists idb id rest, rem = idb ++ rest /\ id_encodes idb id) ->
  find_next_id E c max rem pos = Some (FNone (pos + zlen rem)).
Proof.
  intros Hb Hl Hn. unfold find_next_id. rewrite (loop_S _ _ _ _ _ _ _ _ 9).
  assert (B1 : forall a r n, rem = a ++ r -> bytes_ok a -> zlen a = n -> 1 <= n <= 4 -> ~ (2 ^ (7 * n) <= be_val a < 2 ^ (7 * n + 1))).
  { intros a r n Er Ha Ln Hr Hv. apply Hn. exists a, (be_val a), r. split; [exact Er|]. split; [exact Ha|]. split; [|reflexivity]. rewrite Ln. split; assumption. }
  rewrite (ids_eq rem pos Hb).
  assert (Fin : forall ids p, match fid_size [] p [] 0 (mkSz 0 0 8) with
          | ZEnd r0 psl0 p2 => fid_loop 9 E c max [] p2 ids psl0 r0 | ZNull p2 => Some (FNone p2) | _ => Some FOut end = Some (FNone p)).
  { intros. cbn [fid_size]. change (8 <=? 0) with false. cbv iota. apply loop_end; lia. }
  destruct rem as [|a r]; [rewrite Fin, zlen_nil; f_equal; f_equal; lia|].
  assert (Ha : is_byte a) by (inversion Hb; assumption). assert (Hr : bytes_ok r) by (inversion Hb; assumption). destruct Ha as [Ha0 Ha1].
  destruct (Z.leb_spec 128 a) as [H|H].
  { exfalso. apply (B1 [a] r 1 eq_refl); [constructor; [split; lia|constructor]|reflexivity|lia|]. unfold be_val. cbn [be_val_from]. change (2 ^ (7 * 1)) with 128. change (2 ^ (7 * 1 + 1)) with 256. lia. }
  destruct r as [|b r]; [rewrite Fin, !zlen_cons, zlen_nil; f_equal; f_equal; lia|].
  assert (Hb' : is_byte b) by (inversion Hr; assumption). assert (Hr2 : bytes_ok r) by (inversion Hr; assumption). destruct Hb' as [Hb0 Hb1].
  destruct (Z.leb_spec 64 a) as [H2|H2].
  { exfalso. apply (B1 [a; b] r 2 eq_refl); [constructor; [split; lia|constructor; [split; lia|constructor]]|reflexivity|lia|]. unfold be_val. cbn [be_val_from]. change (2 ^ (7 * 2)) with 16384. change (2 ^ (7 * 2 + 1)) with 32768. lia. }
  destruct r as [|d r]; [rewrite Fin, !zlen_cons, zlen_nil; f_equal; f_equal; lia|].
  assert (Hd : is_byte d) by (inversion Hr2; assumption). assert (Hr3 : bytes_ok r) by (inversion Hr2; assumption). destruct Hd as [Hd0 Hd1].
  destruct (Z.leb_spec 32 a) as [H3|H3].
  { exfalso. apply (B1 [a; b; d] r 3 eq_refl); [constructor; [split; lia|constructor; [split; lia|constructor; [split; lia|constructor]]]|reflexivity|lia|]. unfold be_val. cbn [be_val_from]. change (2 ^ (7 * 3)) with 2097152. change (2 ^ (7 * 3 + 1)) with 4194304. lia. }
  destruct r as [|e r]; [rewrite Fin, !zlen_cons, zlen_nil; f_equal; f_equal; lia|].
  assert (He : is_byte e) by (inversion Hr3; assumption). destruct He as [He0 He1].
  destruct (Z.leb_spec 16 a) as [H4|H4].
  { exfalso. apply (B1 [a; b; d; e] r 4 eq_refl); [constructor; [split; lia|constructor; [split; lia|constructor; [split; lia|constructor; [split; lia|constructor]]]]|reflexivity|lia|]. unfold be_val. cbn [be_val_from]. change (2 ^ (7 * 4)) with 268435456. change (2 ^ (7 * 4 + 1)) with 536870912. lia. }
  destruct r as [|f r]; [rewrite Fin, !zlen_cons, zlen_nil; f_equal; f_equal; lia|].
  rewrite !zlen_cons in Hl. pose proof (zlen_nonneg r). lia.
Qed.
Print Assumptions C104_no_id.
Example C104_no_id_ex : find_next_id ex_E 0 100 [26; 69; 223] 7 = Some (FNone 10) /\ find_next_id ex_E 0 100 [] 7 = Some (FNone 7).
Proof. vm_compute. auto. Qed.

(** Eight bytes after the identifier that begin with 0: nothing, after them. *)
Theorem C104_no_size E c max idb id more rest pos :
  id_encodes idb id -> bytes_ok more -> bytes_ok rest -> zlen more = 8 -> no_vint more ->
  find_next_id E c max (idb ++ more ++ rest) pos = Some (FNone (pos + zlen idb + 8)).
Proof.
  intros Hi Hm Hr Hl Hn. unfold find_next_id. rewrite (loop_S _ _ _ _ _ _ _ _ 9). rewrite (ids_found idb id (more ++ rest) pos Hi).
  2:{ apply bytes_ok_app. auto. }
  rewrite (size_null more rest _ _ Hm Hl Hn). reflexivity.
Qed.
Print Assumptions C104_no_size.
Example C104_no_size_ex : find_next_id ex_E 0 100 ([236] ++ [0; 1; 2; 3; 4; 5; 6; 7] ++ [9]) 0 = Some (FNone 9).
Proof. vm_compute. reflexivity. Qed.

(** Finding: a stream that ends within the size gives an element of size 0 all the same. *)
Theorem C104_cut_refuted E c max idb id more pos :
  id_encodes idb id -> bytes_ok more -> zlen more < 8 -> no_vint more -> 0 <= max ->
  validate_size (kind_class E (if c_id (E c) =? id then Known c else Dummy id)) true 0 = true ->
  exists szl, find_next_id E c max (idb ++ more) pos =
    Some (FFound (if c_id (E c) =? id then Known c else Dummy id) szl 0 pos (pos + zlen idb) (pos + zlen idb) (pos + zlen idb + zlen more)).
Proof.
  intros Hi Hm Hl Hn Hx Hv. unfold find_next_id. rewrite (loop_S _ _ _ _ _ _ _ _ 9). rewrite (ids_found idb id more pos Hi Hm).
  destruct (size_end more (pos + zlen idb) (mkSz 0 0 8) Hm Hl Hn) as (r' & -> & Hr). exists (zlen more + 1).
  assert (R0 : sz_val r' = 0 /\ sz_len r' = 0) by (destruct Hr as [-> |Hr]; [split; reflexivity|exact Hr]). destruct R0 as [R1 R2].
  unfold fid_end. pose proof (id_from_buffer_ok idb id [] Hi) as Ei. rewrite app_nil_r in Ei. rewrite Ei. cbv zeta.
  unfold create_element. rewrite R1, R2, Hv. cbn [negb orb]. destruct (Z.ltb_spec max 0); [lia|]. rewrite andb_false_r. f_equal. f_equal. lia.
Qed.
Print Assumptions C104_cut_refuted.
Example C104_cut_ex : no_vint [64] /\ find_next_id ex_E 0 100 ([26; 69; 223; 163] ++ [64]) 7 = Some (FFound (Known 0) 2 0 7 11 11 12).
Proof.
  split; [|vm_compute; reflexivity]. intros (bs & rest & v & E & V). destruct V as (_ & Hl & Hv & Hb).
  destruct bs as [|x [|y bs]]; [rewrite zlen_nil in Hl; lia| |discriminate]. injection E as <- _.
  unfold be_val in Hb. cbn [be_val_from] in Hb. rewrite zlen_cons, zlen_nil in *. change (2 ^ (7 * (0 + 1))) with 128 in *. lia.
Qed.

(** Finding: five bytes of which the first is below 16: the fifth is written behind the array of four. *)
Theorem C104_overrun_refuted E c max a b d e f rest pos :
  bytes_ok (a :: b :: d :: e :: f :: rest) -> a < 16 -> find_next_id E c max (a :: b :: d :: e :: f :: rest) pos = Some FOut.
Proof.
  intros Hb Ha. unfold find_next_id. rewrite (loop_S _ _ _ _ _ _ _ _ 9). rewrite (ids_eq _ pos Hb).
  rewrite (proj2 (Z.leb_gt 128 a)), (proj2 (Z.leb_gt 64 a)), (proj2 (Z.leb_gt 32 a)), (proj2 (Z.leb_gt 16 a)) by lia. reflexivity.
Qed.
Print Assumptions C104_overrun_refuted.
Example C104_overrun_ex : find_next_id ex_E 0 100 [8; 0; 0; 0; 0] 0 = Some FOut.
Proof. vm_compute. reflexivity. Qed.

(** Finding: a master of unknown size is given a size, and the end that goes with it. *)
Theorem C104_unknown_refuted : exists E c max rem, find_next_id E c max rem 0 = Some (FFound (Known c) 1 127 0 4 132 5) /\
  vint_spec [255] (vint_reserved 1) /\ rem = [26; 69; 223; 163] ++ [255] ++ [].
Proof.
  exists ex_E, 0, 100. eexists. split; [|split; [|reflexivity]]; [vm_compute; reflexivity|].
  split; [apply bytes_ok_forallb; reflexivity|]. vm_compute. intuition congruence.
Qed.
Print Assumptions C104_unknown_refuted.

(** These are all the streams there are. *)
Theorem C104_cases rem : bytes_ok rem ->
  (exists idb id sz v rest, rem = idb ++ sz ++ rest /\ id_encodes idb id /\ vint_spec sz v /\ bytes_ok rest) \/
  (exists idb id more rest, rem = idb ++ more ++ rest /\ id_encodes idb id /\ bytes_ok more /\ bytes_ok rest /\ zlen more = 8 /\ no_vint more) \/
  (exists idb id more, rem = idb ++ more /\ id_encodes idb id /\ bytes_ok more /\ zlen more < 8 /\ no_vint more) \/
  (zlen rem < 5 /\ ~ exists idb id rest, rem = idb ++ rest /\ id_encodes idb id) \/
  (exists a b d e f rest, rem = a :: b :: d :: e :: f :: rest /\ a < 16).
Proof.
  intros Hb.
  assert (D : (exists idb id rest, rem = idb ++ rest /\ id_encodes idb id) \/ (forall n, 1 <= n <= 4 -> ~ (2 ^ (8 - n) <= nth 0 rem 0 < 2 ^ (9 - n) /\ n <= zlen rem))).
  { assert (One : forall n, 1 <= n <= 4 -> 2 ^ (8 - n) <= nth 0 rem 0 < 2 ^ (9 - n) -> n <= zlen rem -> exists idb id rest, rem = idb ++ rest /\ id_encodes idb id).
    { intros n Hn Hv Hl. exists (firstn (Z.to_nat n) rem), (be_val (firstn (Z.to_nat n) rem)), (skipn (Z.to_nat n) rem).
      split; [symmetry; apply firstn_skipn|]. assert (L : zlen (firstn (Z.to_nat n) rem) = n) by (unfold zlen in *; rewrite firstn_length; lia).
      split; [apply bytes_ok_firstn, Hb|]. split; [|reflexivity]. rewrite L. split; [exact Hn|].
      destruct rem as [|a r]; [rewrite zlen_nil in Hl; lia|]. cbn [nth] in Hv. replace (Z.to_nat n) with (S (Z.to_nat (n - 1))) in * by lia. cbn [firstn] in *.
      rewrite be_val_cons. rewrite zlen_cons in L. replace (zlen (firstn (Z.to_nat (n - 1)) r)) with (n - 1) by lia.
      assert (Hf : bytes_ok (firstn (Z.to_nat (n - 1)) r)) by (apply bytes_ok_firstn; inversion Hb; assumption).
      pose proof (be_val_bound _ Hf) as Hx. replace (zlen (firstn (Z.to_nat (n - 1)) r)) with (n - 1) in Hx by lia.
      rewrite (pow256_2 (n - 1)) in * by lia.
      replace (7 * n) with (8 * (n - 1) + (8 - n)) by lia. replace (8 * (n - 1) + (8 - n) + 1) with (8 * (n - 1) + (9 - n)) by lia. rewrite !Z.pow_add_r by lia. nia. }
    destruct (Z.eq_dec (zlen rem) 0) as [Z0|Z0]; [right; intros; lia|].
    pose proof (zlen_nonneg rem).
    destruct (Z.le_gt_cases 128 (nth 0 rem 0)) as [G|G].
    { left. apply (One 1); [lia| |lia]. destruct rem as [|a r]; [rewrite zlen_nil in Z0; lia|]. cbn [nth] in *. assert (Ha : is_byte a) by (inversion Hb; assumption). destruct Ha. change (2 ^ (8 - 1)) with 128. change (2 ^ (9 - 1)) with 256. lia. }
    assert (Big : forall n, 1 <= n <= 4 -> 2 ^ (9 - n) = 2 * 2 ^ (8 - n)). { intros. replace (9 - n) with (1 + (8 - n)) by lia. rewrite Z.pow_add_r by lia. reflexivity. }
    assert (C : forall n, n = 2 \/ n = 3 \/ n = 4 -> (2 ^ (8 - n) <= nth 0 rem 0 < 2 ^ (9 - n) /\ n <= zlen rem) \/ ~ (2 ^ (8 - n) <= nth 0 rem 0 < 2 ^ (9 - n) /\ n <= zlen rem)) by (intros; lia).
    destruct (C 2 ltac:(lia)) as [X|X2]; [left; apply (One 2); [lia|tauto|tauto]|].
    destruct (C 3 ltac:(lia)) as [X|X3]; [left; apply (One 3); [lia|tauto|tauto]|].
    destruct (C 4 ltac:(lia)) as [X|X4]; [left; apply (One 4); [lia|tauto|tauto]|].
    right. intros n Hn Hv. assert (n = 1 \/ n = 2 \/ n = 3 \/ n = 4) as [-> |[-> |[-> | ->]]] by lia; try contradiction.
    change (2 ^ (8 - 1)) with 128 in Hv. lia. }
  destruct D as [(idb & id & rest & -> & Hi)|D].
  - assert (Hr : bytes_ok rest) by (apply bytes_ok_app in Hb; tauto).
    assert (V : (exists sz v r, rest = sz ++ r /\ vint_spec sz v) \/ no_vint rest).
    { destruct (read_coded_size rest (zlen rest)) as [r|] eqn:R.
      - destruct (Z.eq_dec (sz_len r) 0) as [L|L].
        + right. intros (bs & r0 & v & A & B). apply (proj1 (read_none rest (zlen rest) r Hr ltac:(pose proof (zlen_nonneg rest); lia) R) L).
          exists bs, r0, v. split; [exact A|]. split; [exact B|]. rewrite A, zlen_app. pose proof (zlen_nonneg r0). lia.
        + left. destruct (read_sound rest _ r Hr R L) as (bs & r0 & A & B & _). eauto.
      - exfalso. apply (read_in_bounds rest (zlen rest) Hr); [pose proof (zlen_nonneg rest); lia|exact R]. }
    destruct V as [(sz & v & r & -> & V)|V].
    + left. exists idb, id, sz, v, r. split; [reflexivity|]. split; [exact Hi|]. split; [exact V|]. apply bytes_ok_app in Hr. tauto.
    + destruct (Z.lt_ge_cases (zlen rest) 8) as [L|L].
      * right. right. left. exists idb, id, rest. auto.
      * right. left. exists idb, id, (firstn 8 rest), (skipn 8 rest). rewrite firstn_skipn. split; [reflexivity|]. split; [exact Hi|].
        split; [apply bytes_ok_firstn, Hr|]. split; [apply bytes_ok_skipn, Hr|]. split; [unfold zlen in *; rewrite firstn_length; lia|].
        apply (no_vint_prefix _ (skipn 8 rest)). rewrite firstn_skipn. exact V.
  - destruct (Z.lt_ge_cases (zlen rem) 5) as [L|L].
    + right. right. right. left. split; [exact L|]. intros (idb & id & rest & -> & Hi).
      pose proof Hi as (Hbi & [Hn Hv] & He). apply (D (zlen idb) Hn). destruct idb as [|a idb]; [rewrite zlen_nil in Hn; lia|]. cbn [app nth].
      split; [|rewrite !zlen_cons, zlen_app; pose proof (zlen_nonneg rest); lia].
      exact (id_first_byte a idb id Hi).
    + right. right. right. right. destruct rem as [|a [|b [|d [|e [|f rest]]]]]; try (rewrite !zlen_cons, zlen_nil in L; lia).
      { rewrite zlen_nil in L. lia. }
      exists a, b, d, e, f, rest. split; [reflexivity|]. cbn [nth] in D.
      assert (Ha : is_byte a) by (inversion Hb; assumption). destruct Ha.
      pose proof (D 1 ltac:(lia)) as D1. pose proof (D 2 ltac:(lia)) as D2. pose proof (D 3 ltac:(lia)) as D3. pose proof (D 4 ltac:(lia)) as D4.
      change (2 ^ (8 - 1)) with 128 in D1. change (2 ^ (9 - 1)) with 256 in D1. change (2 ^ (8 - 2)) with 64 in D2. change (2 ^ (9 - 2)) with 128 in D2.
      change (2 ^ (8 - 3)) with 32 in D3. change (2 ^ (9 - 3)) with 64 in D3. change (2 ^ (8 - 4)) with 16 in D4. change (2 ^ (9 - 4)) with 32 in D4. lia.
Qed.
Print Assumptions C104_cases.
