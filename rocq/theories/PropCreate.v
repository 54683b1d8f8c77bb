(** Mandatory children and defaults; copies; context checks. *)
From Verif Require Import Base BaseProofs Vint EbmlId IntElt IntEltSpec EltHead Ebml Stream StreamProofs Tree TreeRead TreeSpec TreeProofs TreeProofs2 Create CreateSpec CreateProofs CreateProofs2.
From Verif Require PropTree.

(** A schema: 0 a document with 1; 1 a master with 2 (unsigned, default 7, mandatory unique), 3 (string,
    default "mk", mandatory unique), 4 (a master, mandatory unique), 6 (unsigned, optional, not in
    profile 2); 4 has 5 (unsigned without default, mandatory unique); 7 a master with a mandatory
    repeatable 5; 8 a master that must contain itself. *)
Definition ex_schema : schema := fun c =>
  match c with
  | 0 => mkCtx 0 KMaster None (Some [mkSem false false 1 0]) []
  | 1 => mkCtx 440786851 KMaster None (Some [mkSem true true 2 0; mkSem true true 3 0; mkSem true true 4 0; mkSem false true 6 2]) []
  | 2 => mkCtx 17030 KUInt (Some (DInt 7)) (Some []) []
  | 3 => mkCtx 17026 KString (Some (DStr [109; 107])) (Some []) []
  | 4 => mkCtx 524531317 KMaster None (Some [mkSem true true 5 0]) []
  | 5 => mkCtx 251 KUInt None (Some []) []
  | 6 => mkCtx 252 KUInt None (Some []) []
  | 7 => mkCtx 253 KMaster None (Some [mkSem true false 5 0]) []
  | _ => mkCtx 254 KMaster None (Some [mkSem true true 8 0]) []
  end.
Definition ex_info (k : Z) (set : bool) (dsize defsz : Z) : info := mkInfo (Known k) set true true dsize defsz 0 (-1) (-1) (-1).
Definition ex_master : elt := Master (ex_info 1 false (-1) (-1)) 0 [Leaf (ex_info 3 true 1 (-1)) (VStr (Some [97; 0]))].

(** * C18 *)
(** The mandatory test answers 1 exactly when every master of the tree has its required children. *)
Theorem C18_check : forall E wd prof e, tabled E e ->
  exists b, check_mandatory E wd prof e = Ok b /\ (b = true <-> complete E wd prof e).
Proof. intros E wd prof e H. apply (check_ok E). exact H. Qed.
Print Assumptions C18_check.
Example C18_check_ex : tabled ex_schema ex_master /\ check_mandatory ex_schema false 1 ex_master = Ok false /\
  check_mandatory ex_schema false 1 (Master (ex_info 4 true (-1) (-1)) 0 [Leaf (ex_info 5 true 1 1) (VInt 3)]) = Ok true.
Proof.
  split; [|split; reflexivity]. econstructor; [exists 1; split; reflexivity|]. constructor; [constructor|constructor].
Qed.

(** Adding the mandatory children keeps the existing ones in place and adds, at the end, one child for
    every wanted entry whose ID was missing, and only those; a second call changes nothing. *)
Theorem C18_add : forall E td fuel sd prof i chk ch l e', table E i l -> add_mandatory E td fuel sd prof (Master i chk ch) = Ok e' ->
  exists i' new, e' = Master i' chk (ch ++ new) /\ e_kind i' = e_kind i /\
    (new = [] -> i' = i) /\ (new <> [] -> e_set i' = true /\ e_need i' = true) /\
    Forall (fun e => exists s, In s l /\ wanted prof s /\ e_kind (einfo e) = Known (s_ctx s) /\ ~ has E (sem_id E s) ch) new /\
    NoDup (map (fun e => eid_of E (einfo e)) new) /\
    (forall s, In s l -> wanted prof s -> has E (sem_id E s) (ch ++ new)) /\
    forall fuel' sd', add_mandatory E td fuel' sd' prof e' = Ok e'.
Proof.
  intros E td fuel sd prof i chk ch l e' (c & Hk & Hl). cbn [add_mandatory]. rewrite Hk, Hl.
  destruct (fill _ _ _ _ _) as [| | |ch'] eqn:F; try discriminate. cbn [bind]. intros H. injection H as <-.
  destruct (fill_ok E _ _ (create_kind E td fuel sd prof) _ _ _ F) as (ss & new & -> & H1 & H2 & H3).
  exists (appended i ch (ch ++ new)), new. split; [reflexivity|]. split; [rewrite appended_kind; exact Hk|]. split; [|split; [|split; [|split; [|split]]]].
  - intros ->. rewrite app_nil_r. unfold appended. rewrite Z.eqb_refl. reflexivity.
  - intros Hn. unfold appended. rewrite zlen_app. destruct new as [|e new]; [contradiction|]. rewrite zlen_cons. pose proof (zlen_nonneg new).
    replace (zlen ch =? _) with false by lia. split; reflexivity.
  - clear -H1. induction H1 as [|s e ss new (I1 & I2 & I3 & I4) HF IHF]; constructor; [|exact IHF]. exists s. repeat split; auto; try apply I2. eapply create_kind; exact I3.
  - replace (map (fun e => eid_of E (einfo e)) new) with (map (sem_id E) ss); [exact H2|]. clear -H1. induction H1 as [|s e ss new (I1 & I2 & I3 & I4) HF IHF]; [reflexivity|].
    cbn [map]. rewrite IHF. f_equal. unfold eid_of. rewrite (create_kind _ _ _ _ _ _ _ I3). reflexivity.
  - exact H3.
  - intros fuel' sd'. cbn [add_mandatory]. rewrite appended_kind, Hk, Hl. rewrite fill_idem by exact H3. cbn [bind]. do 2 f_equal. unfold appended at 1. rewrite Z.eqb_refl. reflexivity.
Qed.
Print Assumptions C18_add.
Example C18_add_ex : exists i a b, add_mandatory ex_schema (fun x => x) 3 true 1 ex_master =
  Ok (Master i 0 [Leaf (ex_info 3 true 1 (-1)) (VStr (Some [97; 0])); a; b]) /\ eid_of ex_schema (einfo a) = 17030 /\ eid_of ex_schema (einfo b) = 524531317.
Proof. repeat eexists; vm_compute; reflexivity. Qed.

(** Creation ends when mandatory masters are not nested without end, whatever the existing children. *)
Theorem C18_creation_ends : forall E td prof rank, ranked E prof rank -> forall sd c fuel, (rank c < fuel)%nat ->
  (exists e, create E td fuel sd prof c = Ok e /\ e_kind (einfo e) = Known c).
Proof. intros. destruct (create_total E td prof rank H fuel sd c H0) as (e & He). exists e. split; [exact He|]. eapply create_kind; exact He. Qed.
Print Assumptions C18_creation_ends.
(** A master that must contain itself is never finished. *)
Theorem C18_recursive_schema_refuted : exists E, forall td prof fuel, prof = 1 -> create E td fuel true prof 8 = Fuel.
Proof.
  exists ex_schema. intros td prof fuel ->. induction fuel as [|fuel IH]; [reflexivity|]. cbn [create]. cbn [ex_schema c_class c_sem]. cbn [fill].
  cbn -[create]. rewrite IH. reflexivity.
Qed.
Print Assumptions C18_recursive_schema_refuted.

(** A new element made with its defaults is complete when, in the contexts reached, every required
    entry is unique. *)
Theorem C18_created_complete : forall E td wd prof P, self_filled E wd prof P ->
  forall fuel c e, P c -> create E td fuel true prof c = Ok e -> complete E wd prof e.
Proof. intros. eapply create_complete; eassumption. Qed.
Print Assumptions C18_created_complete.
Lemma ex_filled : self_filled ex_schema true 1 (fun c => c <> 7 /\ c <> 8 /\ 0 <= c <= 8).
Proof.
  intros c (H7 & H8 & H0) _. assert (Hc : c = 0 \/ c = 1 \/ c = 2 \/ c = 3 \/ c = 4 \/ c = 5 \/ c = 6) by lia.
  destruct Hc as [->|[->|[->|[->|[->|[->| ->]]]]]]; eexists; (split; [reflexivity|]); intros s Hs; cbn in Hs;
    repeat match goal with H : _ \/ _ |- _ => destruct H as [<-|H] end; try contradiction;
    (split; [intros (R1 & _); cbn in *; congruence|intros (W1 & _); cbn in *; try discriminate; lia]).
Qed.
Example C18_created_ex : exists e, create ex_schema (fun x => x) 3 true 1 1 = Ok e /\ complete ex_schema true 1 e.
Proof. destruct (create ex_schema (fun x => x) 3 true 1 1) as [| | |e] eqn:C; try discriminate C. exists e. split; [reflexivity|]. eapply (C18_created_complete _ _ _ _ _ ex_filled); [|exact C]. lia. Qed.

(** After the call, with defaults, the tree passes the test exactly when the repeatable mandatory
    children are there and the masters that existed before were complete. *)
Theorem C18_add_complete : forall E td wd prof P, self_filled E wd prof P ->
  forall fuel i chk ch l e', table E i l -> (forall s, In s l -> wanted prof s -> P (s_ctx s)) ->
  add_mandatory E td fuel true prof (Master i chk ch) = Ok e' ->
  exists i' new, e' = Master i' chk (ch ++ new) /\
    (complete E wd prof e' <-> (forall s, In s l -> required E wd prof s -> s_uniq s = false -> has E (sem_id E s) (ch ++ new)) /\ Forall (complete E wd prof) ch).
Proof.
  intros E td wd prof P HP fuel i chk ch l e' (c & Hk & Hl) HPl. cbn [add_mandatory]. rewrite Hk, Hl.
  destruct (fill _ _ _ _ _) as [| | |ch'] eqn:F; try discriminate. cbn [bind]. intros H. injection H as <-.
  destruct (fill_ok E _ _ (create_kind E td fuel true prof) _ _ _ F) as (ss & new & -> & H1 & H2 & H3).
  exists (appended i ch (ch ++ new)), new. split; [reflexivity|]. assert (Hnew : Forall (complete E wd prof) new).
  { clear -H1 HP HPl. induction H1 as [|s e ss new (I1 & I2 & I3 & I4) HF IHF]; constructor; [|exact IHF]. eapply create_complete; [exact HP| |exact I3]. apply HPl; assumption. }
  split.
  - intros HC. inversion HC as [|? ? ? l' (c' & Hk' & Hl') Hr HF]; subst. rewrite appended_kind, Hk in Hk'. injection Hk' as <-. rewrite Hl in Hl'. injection Hl' as <-.
    split; [intros s Hs Hq _; apply Hr; assumption|]. apply Forall_app in HF. apply HF.
  - intros [Hr HF]. apply complete_master with (l := l); [exists c; split; [rewrite appended_kind; exact Hk|exact Hl]| |apply Forall_app; split; assumption].
    intros s Hs Hq. destruct (s_uniq s) eqn:U; [|apply Hr; assumption]. apply H3; [exact Hs|]. destruct Hq as (Q1 & Q2 & _). repeat split; assumption.
Qed.
Print Assumptions C18_add_complete.
Example C18_add_complete_ex : exists e, add_mandatory ex_schema (fun x => x) 3 true 1 ex_master = Ok e /\ check_mandatory ex_schema true 1 e = Ok true.
Proof. eexists. split; vm_compute; reflexivity. Qed.
(** Repeatable mandatory children are not added; without SetDefault the masters added are empty. *)
Theorem C18_repeatable_refuted : exists E td prof e e', prof <> 0 /\ add_mandatory E td 3 true prof e = Ok e' /\ check_mandatory E false prof e' = Ok false.
Proof. exists ex_schema, (fun x => x), 1, (Master (ex_info 7 true (-1) (-1)) 0 []). eexists. split; [lia|]. split; [reflexivity|]. reflexivity. Qed.
Print Assumptions C18_repeatable_refuted.
Theorem C18_without_defaults_refuted : exists E td prof e e', prof <> 0 /\ add_mandatory E td 3 false prof e = Ok e' /\ check_mandatory E false prof e' = Ok false /\
  exists e2, add_mandatory E td 3 true prof e = Ok e2 /\ check_mandatory E false prof e2 = Ok true.
Proof. exists ex_schema, (fun x => x), 1, ex_master. eexists. split; [lia|]. split; [vm_compute; reflexivity|]. split; [reflexivity|]. eexists. split; [vm_compute; reflexivity|]. reflexivity. Qed.
Print Assumptions C18_without_defaults_refuted.

(** An element left out of the output because it holds its default is restored, with that value, by
    asking for the child: the child is found or made at the end of the list. *)
Theorem C18_default_restored : forall E td flt_is prof fuel c i v im chk ch,
  e_kind i = Known c -> e_set i = true -> def_ok E i -> is_default E flt_is (Leaf i v) = Ok true -> ~ has E (c_id (E c)) ch ->
  exists d im', get_child E td fuel prof c (Master im chk ch) = Ok (d, Master im' chk (ch ++ [d])) /\ e_set (einfo d) = true /\ e_kind (einfo d) = Known c /\
    ((exists x, int_value (Leaf i v) = Some x /\ int_value d = Some x) \/
     (exists s, string_value (Leaf i v) = Some s /\ string_value d = Some s /\ c_def (E c) = Some (DStr s)) \/
     (exists x y, float_value (Leaf i v) = Some x /\ flt_is x y = true /\ float_value d = Some (td y))).
Proof.
  intros E td flt_is prof fuel c i v im chk ch Hk Hs Hd HD Hn. unfold get_child. rewrite (proj2 (find_child_none E _ _) Hn).
  assert (Heq : forall a b, list_eqb a b = true -> a = b).
  { induction a as [|x a IH]; intros [|y b]; cbn; try discriminate; [reflexivity|]. intros H. apply andb_true_iff in H. destruct H as [H1 H2]. apply Z.eqb_eq in H1. f_equal; auto. }
  assert (Hm : c_class (E c) <> KMaster) by (intros K; cbn in HD; unfold default_of, kind_class in HD; rewrite Hk, K in HD; destruct (c_def (E c)); discriminate).
  rewrite create_leaf by exact Hm. cbn [bind]. eexists. eexists. split; [reflexivity|].
  unfold is_default, default_of, kind_class in HD. unfold def_ok, default_of, kind_class in Hd. rewrite Hk in HD, Hd. unfold default_leaf.
  destruct (c_def (E c)) as [df|] eqn:Df; [|discriminate]. rewrite Hs in HD. cbn [negb orb] in HD.
  destruct (c_class (E c)) eqn:K; try discriminate; try contradiction; destruct df as [y|t]; try contradiction.
  1,2,6: destruct v as [x| | | | |]; try discriminate; injection HD as HD; apply Z.eqb_eq in HD; cbn; (split; [reflexivity|]); (split; [reflexivity|]); left; exists x; rewrite HD; auto.
  1: destruct v as [|x| | | |]; try discriminate; injection HD as HD; cbn; (split; [reflexivity|]); (split; [reflexivity|]); right; right; exists x, y; auto.
  all: destruct v as [| |[b|]| | |]; try discriminate; destruct (cstr b) as [s|] eqn:Cs; try discriminate; cbn [opt_res bind] in HD; injection HD as HD; apply Heq in HD; subst t;
    cbn [string_set einfo with_need with_set with_dsize e_set e_kind fresh_info]; (split; [reflexivity|]); (split; [reflexivity|]); right;
    (destruct (cstr_split _ _ Cs) as (r & -> & Hz)); left; exists s; (split; [cbn [string_value]; exact Cs|]); (split; [cbn [string_value]; apply cstr_join; exact Hz|reflexivity]).
Qed.
Print Assumptions C18_default_restored.
Example C18_default_restored_ex : exists d m, is_default ex_schema (fun _ _ => false) (Leaf (ex_info 2 true 1 1) (VInt 7)) = Ok true /\
  get_child ex_schema (fun x => x) 3 1 2 (Master (ex_info 1 true (-1) (-1)) 0 []) = Ok (d, m) /\ int_value d = Some 7.
Proof. eexists. eexists. split; [reflexivity|]. split; reflexivity. Qed.

(** A child that is there is returned as it is, the first one with the ID, and the master stays as it was. *)
Theorem C18_existing_child : forall E td prof fuel c im chk pre d post,
  ~ has E (c_id (E c)) pre -> eid_of E (einfo d) = c_id (E c) ->
  get_child E td fuel prof c (Master im chk (pre ++ d :: post)) = Ok (d, Master im chk (pre ++ d :: post)).
Proof.
  intros E td prof fuel c im chk pre d post Hn Hd. unfold get_child. replace (find_child E (c_id (E c)) (pre ++ d :: post)) with (Some d); [reflexivity|]. symmetry.
  induction pre as [|x pre IH]; unfold find_child in *; cbn [app find].
  - rewrite Hd, Z.eqb_refl. reflexivity.
  - destruct (Z.eqb_spec (eid_of E (einfo x)) (c_id (E c))) as [K|K]; [elim Hn; exists x; split; [left; reflexivity|exact K]|]. apply IH. intros (y & Hy & Hi). apply Hn. exists y. split; [right; exact Hy|exact Hi].
Qed.
Print Assumptions C18_existing_child.
Example C18_existing_child_ex : let d := Leaf (ex_info 2 true 1 1) (VInt 9) in
  get_child ex_schema (fun x => x) 3 1 2 (Master (ex_info 1 true (-1) (-1)) 0 [d; Leaf (ex_info 2 true 1 1) (VInt 8)]) = Ok (d, Master (ex_info 1 true (-1) (-1)) 0 [d; Leaf (ex_info 2 true 1 1) (VInt 8)]).
Proof. reflexivity. Qed.
(** A new checksum element takes 6 bytes with its head, before any value is put in it. *)
Theorem C18_new_checksum : forall E td fuel prof c im chk ch, c_class (E c) = KCrc -> c_id (E c) = 191 -> ~ has E 191 ch ->
  exists d im', get_child E td fuel prof c (Master im chk ch) = Ok (d, Master im' chk (ch ++ [d])) /\ full_size (eid_of E (einfo d)) (e_dsize (einfo d)) (e_szlen (einfo d)) (e_fin (einfo d)) = 6.
Proof.
  intros E td fuel prof c im chk ch Hc Hi Hn. unfold get_child. rewrite (proj2 (find_child_none E _ _)) by (rewrite Hi; exact Hn). rewrite create_leaf by (rewrite Hc; discriminate). cbn [bind]. eexists. eexists. split; [reflexivity|].
  unfold default_leaf, fresh_elt, fresh_info, eid_of. cbn [kind_class]. rewrite Hc. destruct (c_def (E c)) as [[|]|]; cbn [einfo e_kind e_dsize e_szlen e_fin kind_class]; unfold kind_id; rewrite Hi; vm_compute; reflexivity.
Qed.
Print Assumptions C18_new_checksum.

(** * C49 *)
(** The copy of an element has the same tree and values; when the element can be written, so can the
    copy, and the same bytes come out. *)
Theorem C49_copy_renders_same : forall E e, copyable E e ->
  exists e', copy E e = Ok e' /\ alike e e' /\
    forall narrow flt_is wd alloc, (forall n, 0 <= n -> zlen (alloc n) = n) -> writable E narrow flt_is wd e -> omitted E flt_is wd e = false ->
      writable E narrow flt_is wd e' /\
      forall keep d p, 0 <= p <= zlen d -> p + fsize E flt_is wd e < 2 ^ 62 ->
      exists e1 e2 n d' p', element_render E narrow flt_is true alloc wd keep e (OFile d p) = Ok (ERR_NONE, n, e1, OFile d' p') /\
        element_render E narrow flt_is true alloc wd keep e' (OFile d p) = Ok (ERR_NONE, n, e2, OFile d' p').
Proof.
  intros E e Hc. destruct (copy_alike E e Hc) as (e' & H1 & H2). exists e'. split; [exact H1|]. split; [exact H2|].
  intros narrow flt_is wd alloc Ha Hw Ho. assert (Hw' := alike_writable E narrow flt_is wd _ _ H2 Hw). split; [exact Hw'|]. intros keep d p Hp Hs.
  assert (Ho' : omitted E flt_is wd e' = false) by (rewrite (alike_omitted E flt_is wd _ _ H2); exact Ho).
  pose proof (alike_fsize E flt_is wd _ _ H2) as Hf.
  unfold element_render. rewrite (render_top E narrow flt_is wd alloc Ha) by (auto; try (right; left; reflexivity); split; lia).
  rewrite (render_top E narrow flt_is wd alloc Ha _ _ keep) by (auto; try (right; left; reflexivity); split; lia). rewrite Hf, (alike_out E narrow flt_is wd _ _ H2).
  cbn [o_put]. do 5 eexists. split; reflexivity.
Qed.
Print Assumptions C49_copy_renders_same.
Definition ex_copied : elt :=
  Master (PropTree.fresh 1 true 0 (-1)) 1
    [Leaf (PropTree.fresh 2 true 0 1) (VInt 1);
     Leaf (PropTree.fresh 3 true 3 (-1)) (VStr (Some [119; 101; 98; 0; 7]));
     Master (PropTree.fresh 4 true 0 (-1)) 1 [Leaf (PropTree.fresh 7 true 8 4) (VFlt 4609434218613702656); Leaf (PropTree.fresh 8 true 0 1) (VInt (-2))]].
Example C49_copy_ex : copyable PropTree.ex_schema ex_copied /\ writable PropTree.ex_schema PropTree.ex_narrow PropTree.ex_flt_is false ex_copied /\
  omitted PropTree.ex_schema PropTree.ex_flt_is false ex_copied = false /\ exists e', copy PropTree.ex_schema ex_copied = Ok e' /\ e' <> ex_copied.
Proof.
  split; [|split; [|split; [reflexivity|]]].
  - repeat first [reflexivity | exact I | constructor]. exists [119; 101; 98; 0; 7], [119; 101; 98]. split; [reflexivity|]. split; [reflexivity|]. vm_compute. discriminate.
  - cbn [ex_copied writable]. unfold head_ok. PropTree.decide_ex.
  - eexists. split; [reflexivity|]. discriminate.
Qed.
(** A forced default size is not copied, nor the unknown size of a master; the copy of a string never
    set has a buffer of no bytes, read past its end when the value is asked for. *)
Theorem C49_forced_size_refuted : exists E e e' o1 o2 r1 r2, copy E e = Ok e' /\
  element_render E (fun x => x) (fun _ _ => false) true (fun n => []) true false e (OFile [] 0) = Ok (ERR_NONE, 7, r1, OFile o1 7) /\
  element_render E (fun x => x) (fun _ _ => false) true (fun n => []) true false e' (OFile [] 0) = Ok (ERR_NONE, 4, r2, OFile o2 4) /\ o1 <> o2.
Proof.
  exists ex_schema, (Leaf (ex_info 2 true (-1) 4) (VInt 5)). do 5 eexists. split; [reflexivity|]. split; [vm_compute; reflexivity|]. split; [vm_compute; reflexivity|]. discriminate.
Qed.
Print Assumptions C49_forced_size_refuted.
Theorem C49_unknown_size_refuted : exists E i chk ch e', e_fin i = false /\ copy E (Master i chk ch) = Ok e' /\ e_fin (einfo e') = true.
Proof. exists ex_schema, (mkInfo (Known 1) true true false 0 (-1) 8 (-1) (-1) (-1)), 0, []. eexists. split; [reflexivity|]. split; reflexivity. Qed.
Print Assumptions C49_unknown_size_refuted.
Theorem C49_unset_string_refuted : exists E c e', string_value (fresh_elt E (Known c)) = Some [] /\ copy E (fresh_elt E (Known c)) = Ok e' /\ string_value e' = None.
Proof. exists ex_schema, 3. eexists. split; [reflexivity|]. split; reflexivity. Qed.
Print Assumptions C49_unset_string_refuted.

(** * C50 *)
(** With a callback that deletes nothing, the check reports exactly: the known children that the profile
    disables; a second child of an ID that must be unique; the mandatory classes without default that
    are missing. *)
Theorem C50_reports : forall E prof f i chk ch l fuel, (forall r, f r = false) -> table E i l -> (length ch <= fuel)%nat ->
  exists reps, check_context E fuel (Some f) prof (Master i chk ch) = Ok (Master i chk ch, reps) /\
    (forall c, In (RProfile c) reps <-> In c ch /\ kind_class E (e_kind (einfo c)) <> KDummy /\
       exists l1 s l2, l = l1 ++ s :: l2 /\ sem_id E s = eid_of E (einfo c) /\ (forall s', In s' l1 -> sem_id E s' <> eid_of E (einfo c)) /\ ~ enabled prof s) /\
    (forall d, In (RMultiple d) reps <-> (exists a b c x, ch = a ++ c :: b ++ d :: x /\ eid_of E (einfo c) = eid_of E (einfo d) /\
         (forall y, In y (a ++ b) -> eid_of E (einfo y) <> eid_of E (einfo d))) /\
       (exists y, In y ch /\ eid_of E (einfo y) = eid_of E (einfo d) /\ kind_class E (e_kind (einfo y)) <> KDummy) /\
       exists l1 s l2, l = l1 ++ s :: l2 /\ sem_id E s = eid_of E (einfo d) /\ (forall s', In s' l1 -> sem_id E s' <> eid_of E (einfo d)) /\ s_uniq s = true) /\
    (forall c, In (RMissing c) reps <-> exists s, In s l /\ s_ctx s = c /\ s_mand s = true /\ c_def (E c) = None /\ ~ has E (c_id (E c)) ch).
Proof.
  intros E prof f i chk ch l fuel Hf (c0 & Hk & Hl) Hfu. cbn [check_context]. rewrite Hk, Hl.
  rewrite (check_quiet E prof l f Hf) by lia. rewrite Z.eqb_refl. cbn [rev app skipn]. eexists. split; [reflexivity|].
  assert (Hsem : forall c s, sem_of E l c = Some s <-> exists l1 l2, l = l1 ++ s :: l2 /\ sem_id E s = eid_of E (einfo c) /\ forall s', In s' l1 -> sem_id E s' <> eid_of E (einfo c)).
  { intros c s. unfold sem_of. clear. induction l as [|t l IH]; cbn [find].
    - split; [discriminate|]. intros (l1 & l2 & H & _). destruct l1; discriminate.
    - destruct (c_id (E (s_ctx t)) =? eid_of E (einfo c)) eqn:Q.
      + apply Z.eqb_eq in Q. split.
        * intros [= <-]. exists [], l. split; [reflexivity|]. split; [exact Q|]. intros s' [].
        * intros (l1 & l2 & H & H2 & H3). destruct l1 as [|t' l1]; [injection H as -> _; reflexivity|]. injection H as -> ->. exfalso. apply (H3 t'); [left; reflexivity|exact Q].
      + apply Z.eqb_neq in Q. rewrite IH. split.
        * intros (l1 & l2 & -> & H2 & H3). exists (t :: l1), l2. split; [reflexivity|]. split; [exact H2|]. intros s' [<-|H]; [exact Q|auto].
        * intros (l1 & l2 & H & H2 & H3). destruct l1 as [|t' l1]; [injection H as -> _; contradiction|]. injection H as -> ->. exists l1, l2. split; [reflexivity|]. split; [exact H2|].
          intros s' H. apply H3. right. exact H. }
  assert (Hsec : forall id d, second_child E id ch = Some d <-> exists a b c x, ch = a ++ c :: b ++ d :: x /\ eid_of E (einfo c) = id /\ eid_of E (einfo d) = id /\
      forall y, In y (a ++ b) -> eid_of E (einfo y) <> id).
  { intros id d. unfold second_child. clear.
    assert (One : forall ch r, (exists d0, filter (fun c => eid_of E (einfo c) =? id) ch = d0 :: r) -> True) by auto. clear One.
    assert (First : forall (l : list elt) d0 r, filter (fun c => eid_of E (einfo c) =? id) l = d0 :: r <->
        exists a x, l = a ++ d0 :: x /\ eid_of E (einfo d0) = id /\ (forall y, In y a -> eid_of E (einfo y) <> id) /\ filter (fun c => eid_of E (einfo c) =? id) x = r).
    { induction l as [|t l IH]; intros d0 r; cbn [filter].
      - split; [discriminate|]. intros (a & x & H & _). destruct a; discriminate.
      - destruct (eid_of E (einfo t) =? id) eqn:Q.
        + apply Z.eqb_eq in Q. split.
          * intros [= <- <-]. exists [], l. split; [reflexivity|]. split; [exact Q|]. split; [intros y []|reflexivity].
          * intros (a & x & H & H2 & H3 & H4). destruct a as [|t' a]; [injection H as -> ->; rewrite H4; reflexivity|]. injection H as -> ->. exfalso. apply (H3 t'); [left; reflexivity|exact Q].
        + apply Z.eqb_neq in Q. rewrite IH. split.
          * intros (a & x & -> & H2 & H3 & H4). exists (t :: a), x. split; [reflexivity|]. split; [exact H2|]. split; [|exact H4]. intros y [<-|H]; [exact Q|auto].
          * intros (a & x & H & H2 & H3 & H4). destruct a as [|t' a]; [injection H as -> _; contradiction|]. injection H as -> ->. exists a, x. split; [reflexivity|]. split; [exact H2|]. split; [|exact H4].
            intros y H. apply H3. right. exact H. }
    split.
    - intros H. destruct (filter _ ch) as [|c [|d' r]] eqn:F; try discriminate. injection H as ->. apply First in F. destruct F as (a & x & -> & H2 & H3 & H4).
      apply First in H4. destruct H4 as (b & x' & -> & H5 & H6 & H7). exists a, b, c, x'. split; [reflexivity|]. split; [exact H2|]. split; [exact H5|].
      intros y Hy. apply in_app_iff in Hy. destruct Hy; auto.
    - intros (a & b & c & x & -> & H2 & H3 & H4).
      assert (F : filter (fun c => eid_of E (einfo c) =? id) (a ++ c :: b ++ d :: x) = c :: d :: filter (fun c => eid_of E (einfo c) =? id) x).
      { apply First. exists a, (b ++ d :: x). split; [reflexivity|]. split; [exact H2|]. split; [intros y Hy; apply H4; apply in_app_iff; auto|].
        apply First. exists b, x. split; [reflexivity|]. split; [exact H3|]. split; [intros y Hy; apply H4; apply in_app_iff; auto|reflexivity]. }
      rewrite F. reflexivity. }
  assert (Hdum : forall c, is_dummy E c = false <-> kind_class E (e_kind (einfo c)) <> KDummy) by (intros c; unfold is_dummy; destruct (kind_class E _); split; congruence).
  assert (Hen : forall s, (Z.land (s_dis s) prof =? 0) = false <-> ~ enabled prof s).
  { intros s. rewrite <- (enabledb prof s). destruct (_ =? 0); split; congruence. }
  assert (Hmiss : forall r, In r (missing E (Some f) l ch) -> exists c, r = RMissing c).
  { intros r H. cbn [missing] in H. apply in_map_iff in H. destruct H as (s & <- & _). eauto. }
  assert (Hrep : forall r c, In r (rep E prof l ch c) <-> is_dummy E c = false /\ exists s, sem_of E l c = Some s /\
     ((r = RProfile c /\ ~ enabled prof s) \/ exists d, r = RMultiple d /\ s_uniq s = true /\ second_child E (c_id (E (s_ctx s))) ch = Some d)).
  { intros r c. unfold rep. destruct (is_dummy E c); [split; [intros []|intros [H _]; discriminate]|]. destruct (sem_of E l c) as [s|]; [|split; [intros []|intros (_ & s & H & _); discriminate]].
    rewrite in_app_iff. destruct (Z.land (s_dis s) prof =? 0) eqn:L.
    - assert (Hn : enabled prof s) by (apply enabledb; exact L). split.
      + intros [[]|H]. split; [reflexivity|]. exists s. split; [reflexivity|]. right. destruct (s_uniq s); [|destruct H]. destruct (second_child E _ ch) as [d|]; [|destruct H]. destruct H as [<-|[]]. eauto.
      + intros (_ & s' & H & H2). injection H as <-. destruct H2 as [[_ H2]|(d & -> & -> & ->)]; [contradiction|]. right. left. reflexivity.
    - assert (Hn : ~ enabled prof s) by (apply Hen; exact L). split.
      + intros [[<-|[]]|H]; (split; [reflexivity|]); exists s; (split; [reflexivity|]); [left; auto|right]. destruct (s_uniq s); [|destruct H]. destruct (second_child E _ ch) as [d|]; [|destruct H]. destruct H as [<-|[]]. eauto.
      + intros (_ & s' & H & H2). injection H as <-. destruct H2 as [[-> _]|(d & -> & -> & ->)]; [left; left; reflexivity|]. right. left. reflexivity. }
  split; [|split].
  - intros c. rewrite in_app_iff, in_flat_map. split.
    + intros [(x & Hx & H)|H]; [|destruct (Hmiss _ H); discriminate]. apply Hrep in H. destruct H as (H1 & s & H2 & [[H3 H4]|(d & H3 & _)]); [|discriminate]. injection H3 as ->.
      split; [exact Hx|]. split; [apply Hdum; exact H1|]. apply Hsem in H2. destruct H2 as (l1 & l2 & H5 & H6 & H7). exists l1, s, l2. auto.
    + intros (Hx & H1 & l1 & s & l2 & H2 & H3 & H4 & H5). left. exists c. split; [exact Hx|]. apply Hrep. split; [apply Hdum; exact H1|]. exists s. split; [apply Hsem; eauto|]. left. auto.
  - intros d. rewrite in_app_iff, in_flat_map. split.
    + intros [(x & Hx & H)|H]; [|destruct (Hmiss _ H); discriminate]. apply Hrep in H. destruct H as (H1 & s & H2 & [[H3 H4]|(d' & H3 & H4 & H5)]); [discriminate|]. injection H3 as <-.
      apply Hsec in H5. destruct H5 as (a & b & c & y & H6 & H7 & H8 & H9). apply Hsem in H2. destruct H2 as (l1 & l2 & G1 & G2 & G3). assert (Hid : c_id (E (s_ctx s)) = sem_id E s) by reflexivity.
      assert (Hxd : eid_of E (einfo x) = eid_of E (einfo d)) by congruence.
      split; [|split].
      * exists a, b, c, y. split; [exact H6|]. split; [congruence|]. intros z Hz. rewrite H8. apply H9. exact Hz.
      * exists x. split; [exact Hx|]. split; [exact Hxd|]. apply Hdum. exact H1.
      * exists l1, s, l2. split; [exact G1|]. rewrite <- Hxd. auto.
    + intros ((a & b & c & y & H6 & H7 & H8) & (x & Hx & Hxd & H1) & l1 & s & l2 & G1 & G2 & G3 & G4). left. exists x. split; [exact Hx|]. apply Hrep. split; [apply Hdum; exact H1|].
      exists s. rewrite <- Hxd in G2, G3. split; [apply Hsem; eauto|]. right. exists d. split; [reflexivity|]. split; [exact G4|]. apply Hsec. change (c_id (E (s_ctx s))) with (sem_id E s). rewrite G2, Hxd.
      exists a, b, c, y. auto.
  - intros c. rewrite in_app_iff, in_flat_map. split.
    + intros [(x & Hx & H)|H].
      * apply Hrep in H. destruct H as (_ & s & _ & [[H _]|(d & H & _)]); discriminate.
      * cbn [missing] in H. apply in_map_iff in H. destruct H as (s & Hs & H). injection Hs as <-. apply filter_In in H. destruct H as [H1 H2]. apply andb_true_iff in H2. destruct H2 as [H2 H4].
        apply andb_true_iff in H2. destruct H2 as [H2 H3]. exists s. split; [exact H1|]. split; [reflexivity|]. split; [exact H2|]. split; [destruct (c_def _); [discriminate|reflexivity]|].
        apply find_child_none. destruct (find_child _ _ _); [discriminate|reflexivity].
    + intros (s & H1 & <- & H2 & H3 & H4). right. cbn [missing]. apply in_map_iff. exists s. split; [reflexivity|]. apply filter_In. split; [exact H1|]. rewrite H2, H3. apply find_child_none in H4. rewrite H4. reflexivity.
Qed.
Print Assumptions C50_reports.
Definition ex_bad : elt := Master (ex_info 1 true 0 (-1)) 0 [Leaf (ex_info 6 true 1 1) (VInt 1); Leaf (ex_info 6 true 1 1) (VInt 2); Leaf (ex_info 2 true 1 1) (VInt 3)].
Example C50_ex : (exists l, table ex_schema (einfo ex_bad) l) /\ check_context ex_schema 3 (Some (fun _ => false)) 2 ex_bad =
  Ok (ex_bad, [RProfile (Leaf (ex_info 6 true 1 1) (VInt 1)); RMultiple (Leaf (ex_info 6 true 1 1) (VInt 2));
               RProfile (Leaf (ex_info 6 true 1 1) (VInt 2)); RMultiple (Leaf (ex_info 6 true 1 1) (VInt 2)); RMissing 4]).
Proof. split; [eexists; exists 1; split; reflexivity|]. vm_compute. reflexivity. Qed.

(** The check ends for every callback, and only removes children. *)
Theorem C50_ends : forall E cb prof i chk ch l fuel, table E i l -> (length ch * S (length ch) + length ch <= fuel)%nat ->
  exists i' ch' reps, check_context E fuel cb prof (Master i chk ch) = Ok (Master i' chk ch', reps) /\ incl ch' ch.
Proof.
  intros E cb prof i chk ch l fuel (c0 & Hk & Hl) Hf. cbn [check_context]. rewrite Hk, Hl.
  destruct (check_total E prof l cb fuel ch 0%nat []) as (ch' & r & -> & Hi); [lia|]. eauto.
Qed.
Print Assumptions C50_ends.
(** Deleting what is reported leaves violations unreported: after a deletion the first child is passed
    over. *)
Theorem C50_deletion_refuted : exists E prof e e' r c, check_context E 50 (Some (fun _ => true)) prof e = Ok (e', r) /\
  (exists i chk, e' = Master i chk [c]) /\ ~ In (RProfile c) r /\
  exists r', check_context E 50 (Some (fun _ => false)) prof e' = Ok (e', r') /\ In (RProfile c) r'.
Proof.
  exists ex_schema, 2, (Master (ex_info 1 true 0 (-1)) 0 [Leaf (ex_info 6 true 1 1) (VInt 1); Leaf (ex_info 6 true 1 1) (VInt 2)]). do 3 eexists. split; [vm_compute; reflexivity|].
  split; [eexists; eexists; reflexivity|]. split; [cbn; intros H; repeat (destruct H as [H|H]; [discriminate H|]); exact H|]. eexists. split; [vm_compute; reflexivity|]. left. reflexivity.
Qed.
Print Assumptions C50_deletion_refuted.
