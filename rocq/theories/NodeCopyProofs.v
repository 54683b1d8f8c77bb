From Verif Require Import Base BaseProofs Tree NodeData NodeCopy NodeCopySpec.

Lemma mask6 t : Z.land t 63 = t mod 64.
Proof. change 63 with (Z.ones 6). rewrite Z.land_ones by lia. reflexivity. Qed.

Lemma flags_zero t : (Z.land t (Z.lor F_RDONLY F_NOSAVE) =? 0) = negb (Z.testbit t 9) && negb (Z.testbit t 14).
Proof.
  assert (A : Z.lor F_RDONLY F_NOSAVE = Z.lor (2 ^ 9) (2 ^ 14)) by reflexivity.
  apply Bool.eq_iff_eq_true. rewrite Z.eqb_eq, Bool.andb_true_iff, !Bool.negb_true_iff. split.
  - intros E. split; [assert (B : Z.testbit (Z.land t (Z.lor F_RDONLY F_NOSAVE)) 9 = false) by (rewrite E; apply Z.bits_0)|
                      assert (B : Z.testbit (Z.land t (Z.lor F_RDONLY F_NOSAVE)) 14 = false) by (rewrite E; apply Z.bits_0)];
      rewrite Z.land_spec in B; cbn in B; rewrite Bool.andb_true_r in B; exact B.
  - intros (B & C). apply Z.bits_inj'. intros n Hn. rewrite Z.land_spec, A, Z.lor_spec, !Z.pow2_bits_eqb, Z.bits_0 by lia.
    destruct (Z.eqb_spec 9 n) as [<-|]; [rewrite B; reflexivity|]. destruct (Z.eqb_spec 14 n) as [<-|]; [rewrite C; reflexivity|].
    apply Bool.andb_false_r.
Qed.

Definition rv (dup : list (Z * Z)) (v : pval) : pval :=
  match v with VPlain d => VPlain d | VNode k => VNode (dup_replace dup k) | VPin k i => VPin (dup_replace dup k) i end.

Lemma replace_ok dup k : stands_for dup k (dup_replace dup k).
Proof.
  induction dup as [|(o & d) dup IH]; cbn [dup_replace]; [apply sf_same; auto|].
  destruct (Z.eqb_spec o k) as [->|N].
  - apply (sf_dup _ _ [] dup d); auto.
  - revert IH. generalize (dup_replace dup k). intros x [a b d' -> H|H].
    + apply (sf_dup _ _ ((o, d) :: a) b); [reflexivity|]. cbn. intros [?|?]; auto.
    + apply sf_same. cbn. intros [?|?]; auto.
Qed.

Lemma stands_fun dup k a b : stands_for dup k a -> stands_for dup k b -> a = b.
Proof.
  assert (G : forall dup k x, stands_for dup k x -> x = dup_replace dup k).
  { clear. intros dup k x [a b d -> H|H].
    - induction a as [|(o & d') a IH]; cbn [app dup_replace].
      + rewrite Z.eqb_refl. reflexivity.
      + cbn in H. destruct (Z.eqb_spec o k); [tauto|]. apply IH. tauto.
    - induction dup as [|(o & d) dup IH]; cbn [dup_replace]; [reflexivity|].
      cbn in H. destruct (Z.eqb_spec o k); [tauto|]. apply IH. tauto. }
  intros A B. rewrite (G _ _ _ A), (G _ _ _ B). reflexivity.
Qed.

Lemma copied_rv dup v : copied dup v (rv dup v).
Proof. destruct v; constructor; apply replace_ok. Qed.
Lemma copied_fun dup v w : copied dup v w -> w = rv dup v.
Proof. intros [d|k k' H|k k' i H]; cbn [rv]; [reflexivity| |]; rewrite (stands_fun _ _ _ _ H (replace_ok dup k)); reflexivity. Qed.

Section Copy.
Context (ms : Z -> Z) (acc : Z -> pval -> bool) (dup : list (Z * Z)) (src : cnode).

(** The entries that have a value set. *)
Definition active (m : param) : bool :=
  match q_type m src with
  | None => false
  | Some t => negb (Z.testbit t 9) && negb (Z.testbit t 14) && negb (t mod 64 =? 27) &&
      match type_size (t mod 64) with Some n => negb (n =? 0) | None => false end
  end.

Definition typed_in (l : list param) : Prop := forall m t, In m l -> q_type m src = Some t ->
  0 <= t /\ t mod 64 < 42 /\
  match cn_vals src (q_id m) with Some (VNode _) => t mod 64 = 10 | Some (VPin _ _) => t mod 64 = 25 | _ => True end.

Lemma size_some ty : 0 <= ty < 42 -> exists n, type_size ty = Some n /\ 0 <= n <= 4096 /\ max_data_size ms 0 ty = max_data_size ms 0 ty.
Proof.
  intros H. unfold type_size. rewrite mask6, Z.mod_small by lia.
  destruct (nth_error param_size (Z.to_nat ty)) as [n|] eqn:E.
  - exists n. split; [reflexivity|]. split; [|reflexivity]. apply nth_error_In in E. unfold param_size, MAXDATA in E. cbn in E.
    repeat (destruct E as [<-|E]; [lia|]). destruct E.
  - exfalso. apply nth_error_None in E. unfold param_size in E. cbn [length] in E. lia.
Qed.

Lemma type_size0 : type_size 0 = Some 0. Proof. reflexivity. Qed.

Lemma copy_param_ok m p : typed_in [m] -> ms (q_id m) <= 4096 ->
  copy_param ms acc dup src m p =
    Ok (if active m then match cn_vals src (q_id m) with Some v => set_val acc p (q_id m) (rv dup v) | None => p end else p).
Proof.
  intros T S. unfold copy_param, active. destruct (q_type m src) as [t|] eqn:E; [|reflexivity].
  destruct (T m t (or_introl eq_refl) E) as (T0 & T1 & T2).
  rewrite flags_zero, !mask6. destruct (negb (Z.testbit t 9) && negb (Z.testbit t 14)); [|reflexivity]. cbn [andb].
  assert (R : 0 <= t mod 64 < 64) by (apply Z.mod_pos_bound; lia).
  destruct (size_some (t mod 64) ltac:(lia)) as (n & N & B & _).
  destruct (Z.eqb_spec (t mod 64) 0) as [Z0|Z0].
  - cbn [negb]. rewrite Z0, type_size0. cbn [negb]. reflexivity.
  - cbn [negb]. change T_EXPR with 27. destruct (Z.eqb_spec (t mod 64) 27) as [|NE]; cbn [negb andb]; [reflexivity|].
    unfold max_data_size. rewrite mask6, Z.mod_mod by lia. rewrite (proj2 (Z.eqb_neq _ 0)) by auto. rewrite N. cbn [opt_res bind].
    set (n' := if (n =? MAXDATA) && negb (t mod 64 =? T_STRING) then if ms (q_id m) =? 0 then MAXDATA else ms (q_id m) else n).
    assert (N' : (n' =? 0) = (n =? 0) /\ n' <= 4096).
    { unfold n', MAXDATA. destruct ((n =? 4096) && _) eqn:D.
      - apply Bool.andb_true_iff in D as (D & _). apply Z.eqb_eq in D. subst n.
        destruct (Z.eqb_spec (ms (q_id m)) 0); [split; [reflexivity|lia]|]. split; [|lia]. apply Z.eqb_neq. auto.
      - split; [reflexivity|lia]. }
    destruct N' as (-> & N'). destruct (n =? 0); cbn [negb]; [reflexivity|].
    destruct (cn_vals src (q_id m)) as [v|]; [|reflexivity].
    rewrite (proj2 (Z.ltb_ge MAXDATA n')) by (unfold MAXDATA; lia). f_equal. f_equal.
    destruct v; cbn [retype rv]; [reflexivity| |]; rewrite T2; reflexivity.
Qed.

(** What a property becomes. *)
Definition becomes (l : list param) (old : option pval) (id : Z) : option pval :=
  match cn_vals src id with
  | Some v => if existsb (fun m => (q_id m =? id) && active m) l && acc id (rv dup v) then Some (rv dup v) else old
  | None => old
  end.

Lemma set_val_at p id v i : cn_vals (set_val acc p id v) i = if (i =? id) && acc id v then Some v else cn_vals p i.
Proof. unfold set_val. destruct (acc id v); cbn; destruct (i =? id); reflexivity. Qed.
Lemma set_val_rest p id v : cn_class (set_val acc p id v) = cn_class p /\ cn_data (set_val acc p id v) = cn_data p.
Proof. unfold set_val. destruct (acc id v); auto. Qed.

Definition after (l : list param) (p p' : cnode) : Prop :=
  cn_class p' = cn_class p /\ cn_data p' = cn_data p /\ forall i, cn_vals p' i = becomes l (cn_vals p i) i.

Lemma after_none p : after [] p p.
Proof. split; [auto|]. split; [auto|]. intros i. unfold becomes. cbn. destruct (cn_vals src i); reflexivity. Qed.

Lemma after_app a b p q r : after a p q -> after b q r -> after (a ++ b) p r.
Proof.
  intros (A1 & A2 & A3) (B1 & B2 & B3). split; [congruence|]. split; [congruence|].
  intros i. rewrite B3, A3. unfold becomes. destruct (cn_vals src i) as [v|]; [|reflexivity]. rewrite existsb_app.
  destruct (existsb _ a), (existsb _ b), (acc i (rv dup v)); reflexivity.
Qed.

Lemma after_one m p : after [m] p (if active m then match cn_vals src (q_id m) with Some v => set_val acc p (q_id m) (rv dup v) | None => p end else p).
Proof.
  unfold after. destruct (active m) eqn:A.
  - destruct (cn_vals src (q_id m)) as [v|] eqn:E.
    + split; [apply set_val_rest|]. split; [apply set_val_rest|]. intros i. rewrite set_val_at. unfold becomes. cbn [existsb]. rewrite A.
      rewrite (Z.eqb_sym i). destruct (Z.eqb_spec (q_id m) i) as [<-|].
      * rewrite E. cbn. reflexivity.
      * cbn. destruct (cn_vals src i); reflexivity.
    + split; [auto|]. split; [auto|]. intros i. unfold becomes. cbn [existsb]. rewrite A.
      destruct (Z.eqb_spec (q_id m) i) as [<-|]; [rewrite E; reflexivity|]. cbn. destruct (cn_vals src i); reflexivity.
  - split; [auto|]. split; [auto|]. intros i. unfold becomes. cbn [existsb]. rewrite A, Bool.andb_false_r. cbn. destruct (cn_vals src i); reflexivity.
Qed.

Lemma copy_table_ok l : forall p, typed_in l -> (forall m, In m l -> ms (q_id m) <= 4096) ->
  exists p', copy_table ms acc dup src l p = Ok p' /\ after l p p'.
Proof.
  induction l as [|m l IH]; intros p T S; cbn [copy_table].
  - exists p. split; [reflexivity|apply after_none].
  - rewrite copy_param_ok; [|intros m' t [<-|[]]; apply T; left; auto|apply S; left; auto]. cbn [bind].
    set (p1 := if active m then _ else _). assert (A : after [m] p p1) by apply after_one.
    destruct (IH p1) as (p' & E & B); [intros m' t I; apply T; right; auto|intros m' I; apply S; right; auto|].
    exists p'. split; [exact E|]. apply (after_app [m] l p p1 p'); auto.
Qed.

Lemma copy_data_ok c : forall p, well_typed c src -> sizes_fit ms c -> exists p', copy_data ms acc dup src c p = Ok p' /\ after (concat (rev c)) p p'.
Proof.
  induction c as [|l c IH]; intros p T S; cbn [copy_data].
  - exists p. split; [reflexivity|apply after_none].
  - destruct (IH p) as (p1 & E1 & A1); [intros l' m t I; apply T; right; auto|intros l' m I; apply S; right; auto|].
    rewrite E1. cbn [bind]. destruct (copy_table_ok l p1) as (p2 & E2 & A2).
    + intros m t I. apply (T l m t (or_introl eq_refl) I).
    + intros m I. apply (S l m (or_introl eq_refl) I).
    + exists p2. split; [exact E2|]. cbn [rev]. rewrite concat_app. cbn [concat]. rewrite app_nil_r. apply (after_app _ _ p p1 p2); auto.
Qed.

Lemma active_saved c id : well_typed c src ->
  existsb (fun m => (q_id m =? id) && active m) (concat (rev c)) = true <-> exists ty, saved c src id ty.
Proof.
  intros T. rewrite existsb_exists. split.
  - intros (m & I & H). apply in_concat in I as (l & L & I). apply in_rev in L. apply Bool.andb_true_iff in H as (H & A). apply Z.eqb_eq in H.
    unfold active in A. destruct (q_type m src) as [t|] eqn:E; [|discriminate]. destruct (T l m t L I E) as (T0 & _).
    apply Bool.andb_true_iff in A as (A & A4). apply Bool.andb_true_iff in A as (A & A3). apply Bool.andb_true_iff in A as (A1 & A2).
    apply Bool.negb_true_iff in A1, A2, A3. apply Z.eqb_neq in A3.
    exists (t mod 64), l, m, t. repeat (split; [auto|]).
    destruct (type_size (t mod 64)) as [n|]; [|discriminate]. exists n. split; [auto|]. apply Bool.negb_true_iff in A4. apply Z.eqb_neq in A4. auto.
  - intros (ty & l & m & t & L & I & H & E & -> & B9 & B14 & T0 & N & n & S & N0). exists m. split.
    + apply in_concat. exists l. split; [apply in_rev in L; auto|auto].
    + unfold active. rewrite E, B9, B14, S. cbn [negb andb]. rewrite (proj2 (Z.eqb_neq _ _) N), (proj2 (Z.eqb_neq _ _) N0), (proj2 (Z.eqb_eq _ _) H). reflexivity.
Qed.
End Copy.

Lemma is_expr_ok e : is_expr (Z.land (Datatypes.snd (Datatypes.fst e)) 63) = expression e.
Proof. unfold is_expr, expression. rewrite mask6. cbv zeta. unfold T_EXPRSTRING, T_EXPRPARAM, T_EXPR. destruct (_ =? 27), (_ =? 31), (_ =? 32); reflexivity. Qed.

Lemma copy_exprs_ok edup mem l : forall k d, (forall j, mem j = true) -> copy_exprs edup mem k l d = rev (map (held edup) (filter expression l)) ++ d.
Proof.
  induction l as [|((id & t) & b) l IH]; intros k d M; cbn [copy_exprs filter]; [reflexivity|].
  pose proof (is_expr_ok (id, t, b)) as X. cbn [Datatypes.fst Datatypes.snd] in X. rewrite X.
  destruct (expression (id, t, b)); rewrite IH by auto; [|reflexivity].
  rewrite M. cbn [map rev]. rewrite <- app_assoc. cbn [app]. unfold held at 2. cbn [Datatypes.fst Datatypes.snd]. rewrite mask6. reflexivity.
Qed.

Lemma copy_exprs_sub edup mem l : forall k d, exists x, copy_exprs edup mem k l d = x ++ d /\ forall e, In e x -> In e (map (held edup) (filter expression l)).
Proof.
  induction l as [|((id & t) & b) l IH]; intros k d; cbn [copy_exprs filter]; [exists []; split; [reflexivity|intros e []]|].
  pose proof (is_expr_ok (id, t, b)) as X. cbn [Datatypes.fst Datatypes.snd] in X. rewrite X.
  destruct (expression (id, t, b)); [|apply IH].
  destruct (mem k).
  - destruct (IH (S k) ((id, Z.land t 63, if Z.land t 63 =? T_EXPR then edup b else b) :: d)) as (x & E & H).
    exists (x ++ [(id, Z.land t 63, if Z.land t 63 =? T_EXPR then edup b else b)]). rewrite E, <- app_assoc. split; [reflexivity|].
    intros e I. apply in_app_iff in I as [I|[<-|[]]]; [right; auto|]. left. unfold held. cbn [Datatypes.fst Datatypes.snd]. rewrite mask6. reflexivity.
  - destruct (IH (S k) d) as (x & E & H). exists x. split; [auto|]. intros e I. right. auto.
Qed.
