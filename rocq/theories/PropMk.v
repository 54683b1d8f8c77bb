(** The Matroska schema of the library. *)
From Verif Require Import Base BaseProofs VintSpec EbmlIdSpec IntEltSpec Vint EbmlId IntElt EltHead Ebml Stream Finder FinderSpec Tree TreeRead TreeSpec TreeProofs Create CreateSpec CreateProofs
  MkSchema MkSpec MkProofs PropTree PropCreate.

(** * C66 *)
(** Every element of the schema has a valid EBML ID and no two have the same. *)
Theorem C66_ids : (forall c, inside c = true -> c <> cStream -> valid_id (c_id (mk c))) /\
  (forall a b, inside a = true -> inside b = true -> c_id (mk a) = c_id (mk b) -> a = b).
Proof. split; [exact ids_valid|exact id_inj]. Qed.
Print Assumptions C66_ids.
Example C66_ids_ex : inside cCluster = true /\ c_id (mk cCluster) = 524531317 /\ inside cBlockGroup = true /\ c_id (mk cBlockGroup) = 160.
Proof. repeat split. Qed.

(** Every master has a table of children that are elements of the schema; no table lists the same element
    twice, or Void or CRC-32, which every master takes; elements that are not masters take no children. *)
Theorem C66_tables : (forall c, c_class (mk c) = KMaster -> exists l, c_sem (mk c) = Some l /\ NoDup (map s_ctx l) /\
    (forall s, In s l -> inside (s_ctx s) = true /\ s_ctx s <> cStream /\ s_ctx s <> cEbmlVoid /\ s_ctx s <> cEbmlCrc32) /\ map s_ctx (c_glob (mk c)) = [cEbmlVoid; cEbmlCrc32]) /\
  (forall c, c_class (mk c) <> KMaster -> c_sem (mk c) = None).
Proof.
  split.
  - intros c K. destruct (master_table c K) as (_ & l & a & b & Hl & Hg & Ha & Hb & He & Hn). exists l. split; [exact Hl|]. split; [exact Hn|]. split.
    + intros s Hs. destruct (He s Hs). split; [assumption|]. unfold cStream, cEbmlVoid, cEbmlCrc32. lia.
    + rewrite Hg. cbn [map]. rewrite Ha, Hb. reflexivity.
  - intros c K. destruct (c_sem (mk c)) as [l|] eqn:Hl; [|reflexivity]. elim K. exact (sem_master c l Hl).
Qed.
Print Assumptions C66_tables.
Example C66_tables_ex : c_class (mk cSegment) = KMaster /\ c_class (mk cTimestampScale) = KUInt.
Proof. split; reflexivity. Qed.

(** Every default value has the type of its element. *)
Theorem C66_defaults : forall i c, e_kind i = Known c -> def_ok mk i.
Proof.
  intros i c Hk. unfold def_ok, default_of. rewrite Hk. cbn [kind_class]. destruct (mk_cases c) as [Hc|Hc].
  - pose proof (mk_all (fun c x => match c_class x, c_def x with _, None => true | (KUInt | KSInt | KDate), Some (DInt y) => (- 2 ^ 63 <=? y) && (y <? 2 ^ 63) | KFloat, Some (DInt _) => true
      | (KString | KUni), Some (DStr _) => true | (KUInt | KSInt | KDate | KFloat | KString | KUni), _ => false | _, _ => true end) ltac:(vm_compute; reflexivity) c Hc) as H. cbn beta in H.
    destruct (c_class (mk c)), (c_def (mk c)) as [[|]|]; try exact I; try discriminate H; unfold is_int64; lia.
  - rewrite Hc. exact I.
Qed.
Print Assumptions C66_defaults.
Example C66_defaults_ex : c_def (mk cTimestampScale) = Some (DInt 1000000) /\ c_def (mk cLanguage) = Some (DStr [101; 110; 103]).
Proof. split; reflexivity. Qed.

(** The element created for the ID of [c] when the library reads inside nested masters is [c], at the
    innermost level whose table lists it; Void and CRC-32 belong to the innermost master; an ID that no
    level lists gives a dummy element of the outermost level or nothing, as asked. *)
Theorem C66_found : forall chain c k p e idlen allow low, nested chain -> (forall c e up, chain = (c, e) :: up -> c_class (mk c) = KMaster) ->
  nth_error chain k = Some (p, e) -> listed p c -> (forall j p' e', (j < k)%nat -> nth_error chain j = Some (p', e') -> ~ listed p' c) ->
  create_using mk chain (c_id (mk c)) idlen allow low = Some (Known c, low + Z.of_nat k).
Proof. intros. eapply using_level; try eassumption. apply nested_masters; assumption. Qed.
Print Assumptions C66_found.
Theorem C66_found_global : forall p e up c idlen allow low, c_class (mk p) = KMaster -> c = cEbmlVoid \/ c = cEbmlCrc32 ->
  create_using mk ((p, e) :: up) (c_id (mk c)) idlen allow low = Some (Known c, low - 1).
Proof.
  intros p e up c idlen allow low K Hc. destruct (master_table p K) as (_ & l & a & b & Hl & Hg & Ha & Hb & He & _). cbn [create_using]. rewrite Hl.
  rewrite (find_unlisted p c l Hl); [| destruct Hc as [->| ->]; reflexivity |].
  - rewrite Hg. unfold find_sem, find. rewrite Ha, Hb. destruct Hc as [->| ->].
    + rewrite Z.eqb_refl, Ha. reflexivity.
    + replace (c_id (mk cEbmlVoid) =? c_id (mk cEbmlCrc32)) with false by (vm_compute; reflexivity). rewrite Z.eqb_refl, Hb. reflexivity.
  - intros H. apply listed_inside in H. unfold cEbmlVoid, cEbmlCrc32 in Hc. lia.
Qed.
Print Assumptions C66_found_global.
Theorem C66_not_found : forall chain id idlen allow low, nested chain -> (forall c e up, chain = (c, e) :: up -> c_class (mk c) = KMaster) -> chain <> [] -> id <> 236 -> id <> 191 ->
  (forall p e c, In (p, e) chain -> listed p c -> c_id (mk c) <> id) ->
  create_using mk chain id idlen allow low = if allow && negb (idlen =? 0) then Some (create_element mk id (fst (last chain (0, 0))), 0) else None.
Proof.
  intros chain id idlen allow low Hn Hm Hne H1 H2 Hl. pose proof (nested_masters chain Hn Hm) as K. clear Hn Hm. revert low.
  induction chain as [|[p e] up IH]; intros low; [congruence|]. apply Forall_cons_iff in K. destruct K as [K0 K]. cbn [fst] in K0.
  destruct (master_table p K0) as (_ & l & a & b & Hs & Hg & Ha & Hb & _). cbn [create_using]. rewrite Hs.
  replace (find_sem mk id l) with (@None sem); [|symmetry; destruct (find_sem mk id l) as [s|] eqn:F; [|reflexivity]; apply find_some in F; destruct F as [F1 F2]; apply Z.eqb_eq in F2; elim (Hl p e (s_ctx s)); [left; reflexivity|exists l, s; auto|exact F2]].
  replace (find_sem mk id (c_glob (mk p))) with (@None sem).
  2:{ rewrite Hg. unfold find_sem, find. rewrite Ha, Hb. change (c_id (mk cEbmlVoid)) with 236. change (c_id (mk cEbmlCrc32)) with 191. destruct (Z.eqb_spec 236 id); [lia|]. destruct (Z.eqb_spec 191 id); [lia|reflexivity]. }
  destruct up as [|x up]; [reflexivity|]. rewrite IH; [reflexivity|discriminate| |exact K]. intros p' e' c Hp. apply (Hl p' e'). right. exact Hp.
Qed.
Print Assumptions C66_not_found.
Lemma listed_b p c : match c_sem (mk p) with Some l => existsb (fun s => s_ctx s =? c) l | None => false end = true -> listed p c.
Proof.
  destruct (c_sem (mk p)) as [l|] eqn:Hl; [|discriminate]. intros H. apply existsb_exists in H. destruct H as (s & Hs & E). apply Z.eqb_eq in E. exists l, s. auto.
Qed.
Example C66_found_ex : let chain := [(cBlockGroup, 90); (cCluster, 100); (cSegment, -1); (cStream, -1)] in
  nested chain /\ c_class (mk cBlockGroup) = KMaster /\ listed cBlockGroup cBlockDuration /\
  create_using mk chain (c_id (mk cBlockDuration)) 1 true 0 = Some (Known cBlockDuration, 0) /\ create_using mk chain (c_id (mk cSimpleBlock)) 1 true 0 = Some (Known cSimpleBlock, 1) /\
  create_using mk chain (c_id (mk cCluster)) 4 true 0 = Some (Known cCluster, 2) /\ create_using mk chain (c_id (mk cSegment)) 4 true 0 = Some (Known cSegment, 3) /\
  create_using mk chain 236 1 true 0 = Some (Known cEbmlVoid, -1) /\ create_using mk chain (c_id (mk cTrackNumber)) 1 true 0 = Some (Dummy 215, 0) /\ create_using mk chain (c_id (mk cTrackNumber)) 1 false 0 = None.
Proof.
  split; [split; [|split; [|split; [|exact I]]]; apply listed_b; vm_compute; reflexivity|]. split; [reflexivity|]. split; [apply listed_b; vm_compute; reflexivity|].
  vm_compute. repeat split.
Qed.

(** A tree that follows the schema, written to a file, is found again by a reader in the contexts of its
    parents and read back with the same elements, in the same order, and the same values. *)
Theorem C66_round_trip : forall narrow widen flt_is wd alloc char_signed junk junk0 junkcrc allow,
  (forall n, 0 <= n -> zlen (alloc n) = n) -> (forall p, zlen (junk p) = 16 /\ bytes_ok (junk p)) ->
  forall e c keep d p depth c0 e0 up, bytes_ok d -> 0 <= p <= zlen d -> zlen d < 2 ^ 32 -> p + fsize mk flt_is wd e < 2 ^ 32 ->
  writable mk narrow flt_is wd e -> omitted mk flt_is wd e = false -> conforms char_signed depth e -> e_kind (einfo e) = Known c -> allowed c0 c ->
  e0 = -1 \/ p + fsize mk flt_is wd e <= e0 ->
  exists e1 d' h q fuel0, element_render mk narrow flt_is true alloc wd keep e (OFile d p) = Ok (ERR_NONE, fsize mk flt_is wd e, e1, OFile d' (p + fsize mk flt_is wd e)) /\
    firstn (Z.to_nat p) d' = firstn (Z.to_nat p) d /\
    find_on mk junk allow (mkIn false 0 d') p ((c0, e0) :: up) = Ok (FElt h 0 q) /\
    forall fuel, (fuel0 <= fuel)%nat -> exists e2,
      read_data mk widen char_signed true junk junk0 junkcrc allow false fuel depth (mkIn false 0 d') ((c0, e0) :: up) (of_hdr mk h) q =
        Ok (ERR_NONE, e2, p + fsize mk flt_is wd e) /\ same mk narrow widen flt_is wd d' e e2.
Proof.
  intros narrow widen flt_is wd alloc cs junk junk0 junkcrc allow Ha Hj e c keep d p depth c0 e0 up Hd Hp Hz Hf Hw Ho Hc Hk Hal He. apply C14_round_trip; try assumption.
  - apply conforms_readable. exact Hc.
  - rewrite Hk. apply resolves_allowed. exact Hal.
Qed.
Print Assumptions C66_round_trip.
(** A segment with its information and the entry of a cluster in its index. *)
Definition ex_file : elt :=
  Master (fresh cSegment true 0 (-1)) 1
    [Master (fresh cInfo true 0 (-1)) 0 [Leaf (fresh cTimestampScale true 0 1) (VInt 1000000); Leaf (fresh cMuxingApp true 0 (-1)) (VStr (Some [109; 107; 0]))];
     Leaf (fresh cEbmlVoid true 9 (-1)) VNone;
     Master (fresh cSeekHead true 0 (-1)) 1 [Master (fresh cSeek true 0 (-1)) 0 [Leaf (fresh cSeekID true 4 (-1)) (VBin [31; 67; 182; 117]); Leaf (fresh cSeekPosition true 0 1) (VInt 4000)]]].
Lemma ex_conforms : conforms true 2 ex_file.
Proof.
  Ltac kid := eexists; split; [reflexivity|]; split; [reflexivity|]; first [right; reflexivity|left; apply listed_b; vm_compute; reflexivity].
  Ltac lf := eapply cf_leaf; [reflexivity|vm_compute; discriminate|vm_compute; discriminate|vm_compute; discriminate|vm_compute; discriminate|reflexivity
    |match goal with |- val_ok mk ?i ?v => let k := eval vm_compute in (kind_class mk (e_kind i)) in unfold val_ok; change (kind_class mk (e_kind i)) with k; cbv iota beta end
    |vm_compute; exact I|let H := fresh in intros H; vm_compute in H; intuition discriminate].
  Ltac mas := eapply cf_master; [reflexivity|reflexivity|reflexivity|first [left; reflexivity|right; lia]|repeat (constructor; [kid|]); constructor|].
  mas. constructor; [|constructor; [|constructor; [|constructor]]].
  - mas. constructor; [|constructor; [|constructor]]; lf.
    + split; known.
    + intros _. do 2 eexists. split; [reflexivity|]. split; [vm_compute; reflexivity|]. apply bytes_ok_forallb. vm_compute. reflexivity.
  - lf. exact I.
  - mas. constructor; [|constructor]. mas. constructor; [|constructor; [|constructor]]; lf.
    + apply bytes_ok_forallb. vm_compute. reflexivity.
    + split; known.
Qed.
Lemma ex_file_writable : writable mk ex_narrow ex_flt_is true ex_file.
Proof.
  Ltac cls := match goal with |- context[kind_class mk (e_kind ?i)] => let k := eval vm_compute in (kind_class mk (e_kind i)) in change (kind_class mk (e_kind i)) with k; cbv iota beta end.
  Ltac wr := repeat match goal with
    | |- True => exact I
    | |- head_ok mk _ _ => split; [apply ids_valid; [reflexivity|vm_compute; discriminate]|]
    | |- def_ok mk _ => eapply C66_defaults; reflexivity
    | |- val_ok mk _ _ => unfold val_ok; cls
    | |- defsz_ok mk _ _ _ => unfold defsz_ok; cls
    | |- is_int64 _ => split; known
    | |- bytes_ok _ => apply bytes_ok_forallb; vm_compute; reflexivity
    | |- exists b s, Some ?x = Some b /\ _ => exists x; eexists; split; [reflexivity|]; split; [vm_compute; reflexivity|]
    | |- _ /\ _ => split
    | |- _ -> _ => intros ?
    | |- e_need _ = true \/ _ => left; reflexivity
    | |- _ \/ e_fin _ = true \/ _ => right; left; reflexivity
    | |- _ => known
    end.
  cbn [ex_file writable]. wr.
Qed.
Example C66_round_trip_ex : conforms true 2 ex_file /\ writable mk ex_narrow ex_flt_is true ex_file /\ allowed cStream cSegment /\
  match element_render mk ex_narrow ex_flt_is true ex_alloc true false ex_file (OFile [] 0) with
  | Ok (err, n, _, OFile d _) =>
      err = ERR_NONE /\ zlen d = n /\
      match find_on mk ex_junk true (mkIn false 0 d) 0 [(cStream, -1)] with
      | Ok (FElt h 0 q) =>
          match read_data mk (fun x => x) true true ex_junk 0 0 true false 60 2 (mkIn false 0 d) [(cStream, -1)] (of_hdr mk h) q with
          | Ok (err, Master _ chk [Master _ chk' [Leaf _ (VInt x); Leaf _ (VStr (Some b))]; Leaf v _; Master _ chk2 [Master _ chk3 [Leaf _ (VBin s); Leaf _ (VInt y)]]], p) =>
              err = ERR_NONE /\ chk = 2 /\ chk' = 0 /\ x = 1000000 /\ b = [109; 107; 0] /\ e_kind v = Known cEbmlVoid /\ chk2 = 2 /\ y = 4000 /\ p = n
          | _ => False
          end
      | _ => False
      end
  | _ => False
  end.
Proof.
  split; [exact ex_conforms|]. split; [exact ex_file_writable|]. split.
  - split; [reflexivity|]. left. apply listed_b. vm_compute. reflexivity.
  - vm_compute. repeat split.
Qed.

(** Whatever the bytes of a file are, reading it with this schema ends, without reaching an undefined
    state; every element read lies after the place where it was found. *)
Theorem C66_read_safe : forall widen char_signed junk junk0 junkcrc allow nodata,
  (forall p, zlen (junk p) = 16 /\ bytes_ok (junk p)) ->
  forall f pos chain depth h u q fuel, bytes_ok f -> zlen f < 2 ^ 32 -> 0 <= pos -> (depth <= 1)%nat ->
  (exists i, (i < length chain)%nat /\ ctx_end chain i = -1) ->
  find_on mk junk allow (mkIn false 0 f) pos chain = Ok (FElt h u q) -> zlen f <= Z.of_nat fuel ->
  match read_data mk widen char_signed true junk junk0 junkcrc allow nodata fuel depth (mkIn false 0 f) chain (of_hdr mk h) q with
  | Ok (err, e, p) => e_kind (einfo e) = h_kind h /\ pos + 2 <= p
  | Null => True
  | Bad | Fuel => False
  end.
Proof.
  intros widen cs junk junk0 junkcrc allow nodata Hj. apply C48_read_total; [exact Hj|]. intros c Hc. apply crc_only in Hc. subst c. discriminate.
Qed.
Print Assumptions C66_read_safe.
Example C66_read_safe_ex : exists h q, find_on mk ex_junk true (mkIn false 0 [21; 73; 169; 102; 130; 236; 133]) 0 [(cSegment, -1); (cStream, -1)] = Ok (FElt h 0 q) /\ h_kind h = Known cInfo.
Proof. do 2 eexists. split; vm_compute; reflexivity. Qed.

(** * C67 *)
(** Making an element of the schema with its defaults always succeeds, within four levels, and the result
    is complete exactly when no element made needs a child that may be repeated. *)
Theorem C67_created : forall td prof wd c fuel, (4 <= fuel)%nat ->
  exists e, create mk td fuel true prof c = Ok e /\ e_kind (einfo e) = Known c /\ (complete mk wd prof e <-> ~ needs_many mk wd prof c).
Proof.
  intros td prof wd c fuel H. destruct (mk_create_total td prof true c fuel H) as (e & He). exists e. split; [exact He|]. split; [eapply create_kind; exact He|]. split.
  - intros Hc Hm. exact (mk_incomplete wd prof td c Hm fuel e He Hc).
  - apply (mk_complete wd prof fuel td c e He).
Qed.
Print Assumptions C67_created.
(** With Matroska v4 these are the ones: they are left without the children they need. *)
Definition v4_lists : list Z := [cStream; cSeekHead; cBlockAdditions; cTrackCombinePlanes; cTrackJoinBlocks; cContentEncodings; cTracks; cCuePoint; cCues; cAttachments; cChapterTrack; cChapterDisplay;
  cEditionEntry; cChapters; cTag; cTags; cSegment].
Theorem C67_lists : forall c, needs_many mk true PROFILE_V4 c <-> In c v4_lists.
Proof.
  intros c. split.
  - apply closedb_ok. vm_compute. reflexivity.
  - intros H. apply (manyb_sound true PROFILE_V4 6). revert c H. apply Forall_forall. repeat constructor.
Qed.
Print Assumptions C67_lists.
Example C67_created_ex : ~ needs_many mk true PROFILE_V4 cTrackEntry /\ (exists e, create mk (fun x => x) 4 true PROFILE_V4 cTrackEntry = Ok e /\ check_mandatory mk true PROFILE_V4 e = Ok true /\
    match e with Master _ _ ch => (12 <= length ch)%nat | _ => False end) /\
  needs_many mk true PROFILE_V4 cCues /\ (exists e, create mk (fun x => x) 4 true PROFILE_V4 cCues = Ok e /\ check_mandatory mk true PROFILE_V4 e = Ok false).
Proof.
  split; [rewrite C67_lists; vm_compute; intuition discriminate|]. split; [eexists; split; [vm_compute; reflexivity|]; split; [vm_compute; reflexivity|cbn; lia]|].
  split; [apply C67_lists; vm_compute; tauto|]. eexists. split; vm_compute; reflexivity.
Qed.
