(** Proofs about mkvalidator: children, numbers, profiles. *)
From Verif Require Import Base BaseProofs EbmlId EbmlIdSpec EbmlIdProofs IntElt IntEltSpec IntEltProofs EltHead Ebml Stream Tree TreeRead TreeSpec TreeProofs Create CreateSpec CreateProofs CreateProofs2 Frame BlockTime BlockTimeProofs Cues CuesSpec CuesProofs Str StrSpec StrProofs MkSchema MkSpec MkProofs Validator ValidatorSpec.
From Verif Require PropCreate.

Definition listedb (p c : Z) : bool := match c_sem (mk p) with Some l => existsb (fun s => s_ctx s =? c) l | None => false end.
Lemma listedb_ok p c : listedb p c = true -> listed p c.
Proof.
  unfold listedb, listed. destruct (c_sem (mk p)) as [l|] eqn:L; [|discriminate]. intros H. apply existsb_exists in H. destruct H as (s & Hs & H). exists l, s. split; [reflexivity|]. split; [exact Hs|]. lia.
Qed.

Lemma children_kids e : children e = kids e.
Proof. destruct e; reflexivity. Qed.

(** A child with the ID of a class listed in the parent is of that class. *)
Lemma child_class p i chk ch c d : elem p (Master i chk ch) -> listed p c -> In d ch -> eid_of mk (einfo d) = c_id (mk c) -> elem c d.
Proof.
  intros [Hs Hk] Hl Hin He. inversion Hs as [|? ? ? p' Hk' Hc HF]; subst. cbn [einfo] in Hk. rewrite Hk in Hk'. injection Hk' as <-.
  rewrite Forall_forall in HF. destruct (HF _ Hin) as [(j & v & n & -> & Hd & Hn)|Hsh].
  - exfalso. cbn [einfo] in He. unfold eid_of in He. rewrite Hd in He. cbn [kind_id] in He. apply (Hn _ Hl). congruence.
  - split; [exact Hsh|]. assert (Hi : inside c = true) by (apply (listed_inside p c Hl)).
    inversion Hsh as [j v c' Hk' Hin' Hlf|j k jch c' Hk' Hc' HF']; subst; cbn [einfo] in *; unfold eid_of in He; rewrite Hk' in He |- *; cbn [kind_id] in He; f_equal; apply id_inj; try assumption.
    destruct (master_table c' Hc') as [H _]. exact H.
Qed.
Lemma class_id c d : of_class c d -> eid_of mk (einfo d) = c_id (mk c).
Proof. unfold of_class, eid_of. intros ->. reflexivity. Qed.
Lemma child_iff p e c d : elem p e -> listed p c -> In d (kids e) -> (eid_of mk (einfo d) = c_id (mk c) <-> of_class c d).
Proof.
  intros He Hl Hin. destruct e as [|i chk ch]; [destruct Hin|]. split; [|apply class_id]. intros H. apply (child_class p i chk ch c d He Hl Hin H).
Qed.
Lemma child_shaped p e c d : elem p e -> listed p c -> In d (kids e) -> of_class c d -> elem c d.
Proof. intros He Hl Hin H. destruct e as [|i chk ch]; [destruct Hin|]. apply (child_class p i chk ch c d He Hl Hin). apply class_id. exact H. Qed.

Lemma find_kids p e c : elem p e -> listed p c -> forall l, incl l (kids e) ->
  match find_child mk (c_id (mk c)) l with
  | Some d => exists a b, l = a ++ d :: b /\ of_class c d /\ Forall (fun x => ~ of_class c x) a
  | None => Forall (fun x => ~ of_class c x) l
  end.
Proof.
  intros He Hl. induction l as [|x l IH]; intros Hi; [constructor|]. unfold find_child. cbn [find]. assert (Hx : In x (kids e)) by (apply Hi; left; reflexivity).
  pose proof (child_iff p e c x He Hl Hx) as Hc. destruct (eid_of mk (einfo x) =? c_id (mk c)) eqn:Q.
  - exists [], l. split; [reflexivity|]. split; [apply Hc; lia|constructor].
  - assert (Hn : ~ of_class c x) by (intros H; apply Hc in H; lia).
    specialize (IH ltac:(intros y Hy; apply Hi; right; exact Hy)). unfold find_child in IH. destruct (find _ l) as [d|].
    + destruct IH as (a & b & -> & H1 & H2). exists (x :: a), b. split; [reflexivity|]. split; [exact H1|]. constructor; assumption.
    + constructor; assumption.
Qed.
Lemma lookup_ok p e c : elem p e -> listed p c ->
  match lookup c e with Some d => first_of c e d /\ elem c d | None => none_of c e end.
Proof.
  intros He Hl. unfold lookup. rewrite children_kids. pose proof (find_kids p e c He Hl (kids e) (incl_refl _)) as H.
  destruct (find_child _ _ _) as [d|]; [|exact H]. split; [exact H|]. destruct H as (a & b & Hk & Hc & _). apply (child_shaped p e c d He Hl); [rewrite Hk; apply in_elt|exact Hc].
Qed.
Lemma first_fun c e d d' : first_of c e d -> first_of c e d' -> d = d'.
Proof.
  intros (a & b & H1 & H2 & H3) (a' & b' & H1' & H2' & H3'). rewrite H1 in H1'. clear H1. revert a' H1' H3'. induction a as [|x a IH]; intros [|y a'] H H3'; cbn [app] in H.
  - congruence.
  - injection H as -> H. apply Forall_cons_iff in H3'. destruct H3'. contradiction.
  - injection H as -> H. apply Forall_cons_iff in H3. destruct H3. contradiction.
  - injection H as -> H. apply Forall_cons_iff in H3. apply Forall_cons_iff in H3'. apply (IH (proj2 H3) a' H (proj2 H3')).
Qed.
Lemma first_none c e d : first_of c e d -> none_of c e -> False.
Proof. intros (a & b & H1 & H2 & H3) H. unfold none_of in H. rewrite H1 in H. rewrite Forall_forall in H. apply (H d); [apply in_elt|exact H2]. Qed.
Lemma lookup_first p e c d : elem p e -> listed p c -> (lookup c e = Some d <-> first_of c e d).
Proof.
  intros He Hl. pose proof (lookup_ok p e c He Hl) as H. destruct (lookup c e) as [d'|].
  - destruct H as [H _]. split; [congruence|]. intros Hd. f_equal. eapply first_fun; eassumption.
  - split; [discriminate|]. intros Hd. destruct (first_none _ _ _ Hd H).
Qed.
Lemma lookup_none p e c : elem p e -> listed p c -> (lookup c e = None <-> none_of c e).
Proof.
  intros He Hl. pose proof (lookup_ok p e c He Hl) as H. destruct (lookup c e) as [d'|].
  - destruct H as [H _]. split; [discriminate|]. intros Hd. destruct (first_none _ _ _ H Hd).
  - split; auto.
Qed.
Lemma all_of_ok p e c d : elem p e -> listed p c -> (In d (all_of c e) <-> In d (kids e) /\ of_class c d).
Proof.
  intros He Hl. unfold all_of. rewrite filter_In, children_kids. split; intros [H1 H2]; (split; [exact H1|]).
  - apply (child_iff p e c d He Hl H1). unfold is_type in H2. lia.
  - unfold is_type. apply class_id in H2. lia.
Qed.
Lemma all_of_elem p e c : elem p e -> listed p c -> Forall (elem c) (all_of c e).
Proof. intros He Hl. apply Forall_forall. intros d Hd. apply (all_of_ok p e c d He Hl) in Hd. destruct Hd. apply (child_shaped p e c d He Hl); assumption. Qed.

(** Numbers. *)
Definition int_class (c : Z) : bool := match c_class (mk c) with KUInt | KSInt => true | _ => false end.
Lemma elem_master p e : elem p e -> c_class (mk p) = KMaster -> exists i chk ch, e = Master i chk ch.
Proof.
  intros [Hs Hk] Hc. inversion Hs as [i v c Hk' Hi Hl|]; subst; [|eauto]. cbn [einfo] in Hk. rewrite Hk in Hk'. injection Hk' as <-. unfold leaf_ok in Hl. rewrite Hc in Hl. destruct Hl.
Qed.
Lemma listed_master p c : listed p c -> c_class (mk p) = KMaster.
Proof. intros H. apply (listed_inside p c H). Qed.
Lemma elem_int c e : elem c e -> int_class c = true -> exists i x, e = Leaf i (VInt x) /\ is_int64 x.
Proof.
  intros [Hs Hk] Hc. unfold int_class in Hc. inversion Hs as [i v c' Hk' Hi Hl|i k ch c' Hk' Hc' HF]; subst; cbn [einfo] in Hk; rewrite Hk in Hk'; injection Hk' as <-.
  - unfold leaf_ok in Hl. destruct (c_class (mk c)); try discriminate; destruct Hl as (x & -> & Hx); eauto.
  - rewrite Hc' in Hc. discriminate.
Qed.
Lemma int_fun c e v v' : int_is c e v -> int_is c e v' -> v = v'.
Proof.
  intros [[i H]|[H ->]] [[i' H']|[H' ->]]; try reflexivity.
  - pose proof (first_fun _ _ _ _ H H') as Q. congruence.
  - destruct (first_none _ _ _ H H').
  - destruct (first_none _ _ _ H' H).
Qed.
Definition int_def_ok (c : Z) : bool := match c_def (mk c) with Some (DInt v) => (- 2 ^ 63 <=? v) && (v <? 2 ^ 63) | Some (DStr _) => false | None => true end.
Lemma got_int_ok td prof p e c : elem p e -> listed p c -> int_class c = true -> int_def_ok c = true ->
  exists v, got_int td prof c e = Ok v /\ int_is c e v /\ is_int64 v.
Proof.
  intros He Hl Hc Hd. destruct (elem_master p e He (listed_master _ _ Hl)) as (i & chk & ch & ->). unfold got_int, got, get_child.
  pose proof (lookup_ok p _ c He Hl) as H. unfold lookup in H. cbn [children] in H. destruct (find_child mk (c_id (mk c)) ch) as [d|] eqn:F.
  - destruct H as [H1 H2]. destruct (elem_int c d H2 Hc) as (j & x & -> & Hx). cbn [bind fst int_of]. exists x. split; [reflexivity|]. split; [left; exists j; exact H1|exact Hx].
  - rewrite create_leaf by (unfold int_class in Hc; destruct (c_class (mk c)); discriminate). cbn [bind fst]. unfold default_leaf, int_class, int_def_ok, fresh_elt in *. cbn [kind_class].
    destruct (c_class (mk c)) eqn:K; try discriminate; destruct (c_def (mk c)) as [[y|]|] eqn:D; try discriminate; cbn [int_of int_set class_val]; eexists; (split; [reflexivity|]).
    all: assert (Hy : match c_def (mk c) with Some (DInt y) => is_int64 y | _ => True end) by (rewrite D; unfold is_int64; lia).
    all: rewrite D in Hy; (split; [right; split; [exact H|unfold default_int; rewrite D]|]); try reflexivity; unfold is_int64 in *; rewrite ?s64_small by lia; lia.
Qed.
Ltac mk_side := first [apply listedb_ok; vm_compute; reflexivity | vm_compute; reflexivity].
