From Verif Require Import Base BaseProofs Tree NodeData NodeDataSpec.

Definition vals (l : list (Z * list Z)) (c : Z) : list (list Z) := map snd (filter (fun e => fst e =? c) l).

Lemma vals_cons c' v l c : vals ((c', v) :: l) c = if c' =? c then v :: vals l c else vals l c.
Proof. unfold vals. cbn [filter fst]. destruct (c' =? c); reflexivity. Qed.
Lemma lookup_vals l c : lookup l c = hd_error (vals l c).
Proof.
  induction l as [|[c' v] l IH]; [reflexivity|]. rewrite vals_cons. cbn [lookup]. destruct (c' =? c); [reflexivity|exact IH].
Qed.
Lemma vals_drop l c c2 : vals (drop l c) c2 = if c =? c2 then tl (vals l c2) else vals l c2.
Proof.
  induction l as [|[c' v] l IH]; cbn [drop]; [destruct (c =? c2); reflexivity|].
  destruct (Z.eqb_spec c' c) as [->|Ne].
  - rewrite vals_cons. destruct (c =? c2); reflexivity.
  - rewrite !vals_cons, IH. destruct (Z.eqb_spec c' c2) as [->|]; [|reflexivity].
    destruct (Z.eqb_spec c c2); [congruence|reflexivity].
Qed.
Lemma vals_over l c v c2 : vals (overwrite l c v) c2
  = if c =? c2 then match vals l c2 with [] => [] | _ :: t => v :: t end else vals l c2.
Proof.
  induction l as [|[c' v'] l IH]; cbn [overwrite]; [destruct (c =? c2); reflexivity|].
  destruct (Z.eqb_spec c' c) as [->|Ne].
  - rewrite !vals_cons. destruct (c =? c2); reflexivity.
  - rewrite !vals_cons, IH. destruct (Z.eqb_spec c' c2) as [->|]; [|reflexivity].
    destruct (Z.eqb_spec c c2); [congruence|reflexivity].
Qed.
Lemma in_drop e l c : In e (drop l c) -> In e l.
Proof.
  induction l as [|[c' v] l IH]; cbn [drop In]; [tauto|]. destruct (c' =? c); cbn [In]; tauto.
Qed.
Lemma in_over e l c v : In e (overwrite l c v) -> e = (c, v) \/ In e l.
Proof.
  induction l as [|[c' v'] l IH]; cbn [overwrite In]; [tauto|].
  destruct (Z.eqb_spec c' c) as [->|]; cbn [In]; intros [H|H]; auto. apply IH in H. tauto.
Qed.

Lemma str_bytes_ok w rest : ~ In 0 w -> str_bytes ((w ++ [0]) ++ rest) = Some (w ++ [0]).
Proof.
  induction w as [|c w IH]; intros H; [reflexivity|]. cbn [app str_bytes].
  destruct (Z.eqb_spec c 0) as [->|]; [exfalso; apply H; left; reflexivity|].
  rewrite IH; [reflexivity|]. intros K. apply H. right. exact K.
Qed.

Lemma all_zero_repeat v : all_zero v = true -> v = repeat 0 (length v).
Proof.
  induction v as [|c v IH]; cbn [all_zero forallb repeat length]; [reflexivity|]. intros H. apply andb_true_iff in H as [H1 H2].
  apply Z.eqb_eq in H1. subst c. f_equal. apply IH, H2.
Qed.
Lemma all_zero_rep n : all_zero (repeat 0 n) = true.
Proof. induction n as [|n IH]; [reflexivity|exact IH]. Qed.
Lemma blank_eq v : blank v = all_zero v.
Proof.
  unfold blank. destruct (list_eq_dec Z.eq_dec v (repeat 0 (length v))) as [E|E].
  - rewrite E. symmetry. apply all_zero_rep.
  - destruct (all_zero v) eqn:Z0; [|reflexivity]. elim E. apply all_zero_repeat, Z0.
Qed.

Section Data.
Context (W : Z) (ms : Z -> Z).

Lemma bytes_ok id ty v rest : value ms id ty v -> data_bytes ms id ty (Some (v ++ rest)) = Ok v.
Proof.
  unfold value, data_bytes. destruct (is_str ty).
  - intros (w & -> & H). rewrite (str_bytes_ok w rest H). reflexivity.
  - intros (n & E & Hn & Hl). rewrite E. cbn [opt_res bind]. unfold zlen in *. rewrite app_length.
    destruct (Z.ltb_spec (Z.of_nat (length v + length rest)) n); [lia|].
    f_equal. rewrite firstn_app. replace (Z.to_nat n) with (length v) by lia.
    rewrite firstn_all, Nat.sub_diag. cbn [firstn]. apply app_nil_r.
Qed.
Lemma value_nonempty id ty v : value ms id ty v -> v <> [].
Proof.
  unfold value. destruct (is_str ty).
  - intros (w & -> & _). destruct w; discriminate.
  - intros (n & _ & Hn & Hl) ->. unfold zlen in Hl. cbn [length] in Hl. lia.
Qed.

Lemma code_eq id ty : key_ok W id ty -> code W id ty = id * 256 + ty.
Proof.
  intros [[H0 H1] H2]. unfold code. rewrite Z.shiftl_mul_pow2 by lia. change (2 ^ 8) with 256.
  assert (HW : 8 <= W). { destruct (Z.le_gt_cases 8 W) as [H|H]; [exact H|]. rewrite (Z.pow_neg_r 2 (W - 8)) in H1 by lia. lia. }
  assert (E : 2 ^ W = 256 * 2 ^ (W - 8)).
  { replace W with (8 + (W - 8)) at 1 by lia. rewrite Z.pow_add_r by lia. reflexivity. }
  rewrite Z.mod_small by (rewrite E; lia). apply lor_256. lia.
Qed.
Lemma code_inj id ty id2 ty2 : key_ok W id ty -> key_ok W id2 ty2 ->
  (code W id ty =? code W id2 ty2) = ((id =? id2) && (ty =? ty2)).
Proof.
  intros H1 H2. rewrite (code_eq _ _ H1), (code_eq _ _ H2). destruct H1 as [_ H1], H2 as [_ H2].
  destruct (Z.eqb_spec (id * 256 + ty) (id2 * 256 + ty2)); destruct (Z.eqb_spec id id2); destruct (Z.eqb_spec ty ty2);
    cbn [andb]; lia.
Qed.
Lemma land63 ty : 0 < ty < 42 -> Z.land ty 63 = ty.
Proof. intros H. change 63 with (Z.ones 6). rewrite Z.land_ones by lia. apply Z.mod_small. lia. Qed.
Lemma type_size_some ty : 0 < ty < 42 -> exists n, type_size ty = Some n.
Proof.
  intros H. unfold type_size. rewrite (land63 ty H).
  destruct (nth_error param_size (Z.to_nat ty)) eqn:E; [eauto|].
  apply nth_error_None in E. change (length param_size) with 42%nat in E. lia.
Qed.

Record dinv (past : list sop) (s : nst) : Prop := mkDinv {
  d_vals : forall id ty, key_ok W id ty -> vals (n_data s) (code W id ty) = stack (id, ty) past;
  d_ent : forall c v, In (c, v) (n_data s) -> exists id ty, key_ok W id ty /\ c = code W id ty /\ value ms id ty v }.

Lemma stack_snoc k past o : stack k (past ++ [o]) = top_change k (stack k past) o.
Proof. unfold stack. rewrite fold_left_app. reflexivity. Qed.

Lemma remove_vals s id ty c2 : vals (n_data (remove_data W s id ty)) c2
  = if code W id ty =? c2 then tl (vals (n_data s) c2) else vals (n_data s) c2.
Proof.
  unfold remove_data, get_data. rewrite lookup_vals. destruct (vals (n_data s) (code W id ty)) as [|v t] eqn:E; cbn [hd_error].
  - destruct (Z.eqb_spec (code W id ty) c2) as [<-|]; [rewrite E; reflexivity|reflexivity].
  - cbn [n_data]. apply vals_drop.
Qed.
Lemma remove_in s id ty e : In e (n_data (remove_data W s id ty)) -> In e (n_data s).
Proof. unfold remove_data. destruct (get_data W s id ty); [|auto]. cbn [n_data]. apply in_drop. Qed.

Lemma add_ok s id ty v rest : key_ok W id ty -> value ms id ty v ->
  add_data W ms s id ty (Some (v ++ rest))
  = Ok (mkNst ((code W id ty, v) :: n_data s) (if ty =? T_NODE_REF then ref_add (n_refs s) (le_ptr v) 1 else n_refs s)).
Proof.
  intros K V. unfold add_data. rewrite (land63 ty (proj2 K)), (bytes_ok id ty v rest V). cbn [bind].
  pose proof (value_nonempty _ _ _ V). destruct v; [congruence|reflexivity].
Qed.

(** What one operation does. *)
Lemma dstep_ok past s o : dinv past s -> op_ok W ms o ->
  exists s', dstep W ms s (to_dop o) = Ok s' /\ dinv (past ++ [o]) s'.
Proof.
  intros [Hv He] [K V].
  destruct o as [id ty v rest|id ty|id ty v rest|id ty]; cbn [to_dop dstep op_key fst snd] in *.
  - unfold set_data. rewrite (land63 ty (proj2 K)), (bytes_ok id ty v rest V).
    destruct (type_size_some ty (proj2 K)) as [n ->]. cbn [opt_res bind]. cbv zeta.
    assert (Add : forall s1, (forall c2, vals (n_data s1) c2 = if code W id ty =? c2 then tl (vals (n_data s) c2) else vals (n_data s) c2) ->
              (forall e, In e (n_data s1) -> In e (n_data s)) -> all_zero v = false ->
              exists s', add_data W ms s1 id ty (Some (v ++ rest)) = Ok s' /\ dinv (past ++ [SSet id ty v rest]) s').
    { intros s1 H1 H2 Z0. rewrite (add_ok s1 id ty v rest K V). eexists. split; [reflexivity|]. constructor; cbn [n_data].
      - intros id2 ty2 K2. rewrite vals_cons, H1, stack_snoc, (Hv id2 ty2 K2). unfold top_change. cbn [op_key fst snd].
        rewrite (code_inj _ _ _ _ K K2). destruct (_ && _); [rewrite blank_eq, Z0|]; reflexivity.
      - intros c w [E|E]; [injection E as <- <-; exists id, ty; auto|]. apply He, H2, E. }
    assert (Rem : all_zero v = true -> dinv (past ++ [SSet id ty v rest]) (remove_data W s id ty)).
    { intros Z0. constructor.
      - intros id2 ty2 K2. rewrite remove_vals, stack_snoc, (Hv id2 ty2 K2). unfold top_change. cbn [op_key fst snd].
        rewrite (code_inj _ _ _ _ K K2). destruct (_ && _); [rewrite blank_eq, Z0|]; reflexivity.
      - intros c w E. apply He. eapply remove_in. exact E. }
    destruct (n =? MAXDATA).
    + destruct (all_zero v) eqn:Z0; [eexists; split; [reflexivity|auto]|].
      apply Add; [intros c2; apply remove_vals|intros e; apply remove_in|reflexivity].
    + destruct (all_zero v) eqn:Z0; [eexists; split; [reflexivity|auto]|].
      unfold get_data. rewrite lookup_vals. destruct (vals (n_data s) (code W id ty)) as [|v0 t] eqn:Ev; cbn [hd_error].
      * apply Add; auto. intros c2. destruct (Z.eqb_spec (code W id ty) c2) as [<-|]; [rewrite Ev; reflexivity|reflexivity].
      * eexists. split; [reflexivity|]. constructor; cbn [n_data].
        -- intros id2 ty2 K2. rewrite vals_over, stack_snoc, (Hv id2 ty2 K2). unfold top_change. cbn [op_key fst snd].
           rewrite (code_inj _ _ _ _ K K2). destruct (Z.eqb_spec id id2) as [<-|]; [|reflexivity].
           destruct (Z.eqb_spec ty ty2) as [<-|]; [|reflexivity]. cbn [andb]. rewrite blank_eq, Z0, <- (Hv id ty K), Ev. reflexivity.
        -- intros c w E. apply in_over in E as [E|E]; [injection E as -> ->; exists id, ty; auto|apply He, E].
  - unfold set_data. cbn [data_bytes bind]. destruct (type_size_some ty (proj2 K)) as [n ->]. cbn [opt_res bind all_zero forallb]. cbv zeta.
    assert (Rem : dinv (past ++ [SNull id ty]) (remove_data W s id ty)).
    { constructor.
      - intros id2 ty2 K2. rewrite remove_vals, stack_snoc, (Hv id2 ty2 K2). unfold top_change. cbn [op_key fst snd].
        rewrite (code_inj _ _ _ _ K K2). destruct (_ && _); reflexivity.
      - intros c w E. apply He. eapply remove_in. exact E. }
    destruct (n =? MAXDATA); (eexists; split; [reflexivity|exact Rem]).
  - rewrite (add_ok s id ty v rest K V). eexists. split; [reflexivity|]. constructor; cbn [n_data].
    + intros id2 ty2 K2. rewrite vals_cons, stack_snoc, (Hv id2 ty2 K2). unfold top_change. cbn [op_key fst snd].
      rewrite (code_inj _ _ _ _ K K2). destruct (_ && _); reflexivity.
    + intros c w [E|E]; [injection E as <- <-; exists id, ty; auto|]. apply He, E.
  - eexists. split; [reflexivity|]. constructor.
    + intros id2 ty2 K2. rewrite remove_vals, stack_snoc, (Hv id2 ty2 K2). unfold top_change. cbn [op_key fst snd].
      rewrite (code_inj _ _ _ _ K K2). destruct (_ && _); reflexivity.
    + intros c w E. apply He. eapply remove_in. exact E.
Qed.

Lemma dsteps_ok : forall l past s, dinv past s -> Forall (op_ok W ms) l ->
  exists s', dsteps W ms s (map to_dop l) = Ok s' /\ dinv (past ++ l) s'.
Proof.
  induction l as [|o l IH]; intros past s I F; cbn [map dsteps].
  - exists s. rewrite app_nil_r. auto.
  - inversion F as [|? ? F1 F2]; subst. destruct (dstep_ok past s o I F1) as (s1 & -> & I1). cbn [bind].
    destruct (IH _ s1 I1 F2) as (s2 & E & I2). exists s2. rewrite <- app_assoc in I2. auto.
Qed.
Lemma dinv0 : dinv [] nst0.
Proof. constructor; [reflexivity|intros c v []]. Qed.

(** References. *)
Definition counted (s : nst) : Prop := forall p, p <> 0 -> n_refs s p = held (n_data s) p.

Lemma held_drop l c v p : lookup l c = Some v ->
  held (drop l c) p = held l p - (if (c mod 64 =? T_NODE_REF) && (le_ptr v =? p) then 1 else 0).
Proof.
  induction l as [|[c' v'] l IH]; cbn [lookup drop held]; [discriminate|].
  destruct (Z.eqb_spec c' c) as [->|]; intros E.
  - injection E as ->. lia.
  - cbn [held]. rewrite (IH E). lia.
Qed.
Lemma ref_add_ne f p k q : q <> 0 -> ref_add f p k q = f q + (if p =? q then k else 0).
Proof.
  intros H. unfold ref_add. destruct (Z.eqb_spec q p) as [->|].
  - rewrite Z.eqb_refl. destruct (Z.eqb_spec p 0); [congruence|]. reflexivity.
  - cbn [andb]. destruct (Z.eqb_spec p q); [congruence|]. lia.
Qed.
Lemma counted_remove s id ty : counted s -> counted (remove_data W s id ty).
Proof.
  intros C p Hp. unfold remove_data. destruct (get_data W s id ty) as [v|] eqn:G; [|apply C, Hp].
  unfold get_data in G. cbn [n_data n_refs]. rewrite (held_drop _ _ _ p G).
  change 63 with (Z.ones 6). rewrite Z.land_ones by lia. change (2 ^ 6) with 64.
  destruct (_ =? T_NODE_REF); cbn [andb]; [|rewrite (C p Hp); lia].
  rewrite ref_add_ne by exact Hp. rewrite (C p Hp). destruct (le_ptr v =? p); lia.
Qed.
Lemma code_mod id ty : key_ok W id ty -> code W id ty mod 64 = ty.
Proof.
  intros K. rewrite (code_eq _ _ K). destruct K as [_ K].
  replace (id * 256 + ty) with (ty + (id * 4) * 64) by lia. rewrite Z.mod_add by lia. apply Z.mod_small. lia.
Qed.
Lemma counted_add s s' id ty v rest : key_ok W id ty -> value ms id ty v -> counted s ->
  add_data W ms s id ty (Some (v ++ rest)) = Ok s' -> counted s'.
Proof.
  intros K V C E p Hp. rewrite (add_ok s id ty v rest K V) in E. injection E as <-. cbn [n_data n_refs held].
  rewrite (code_mod _ _ K). destruct (ty =? T_NODE_REF); cbn [andb]; [|rewrite (C p Hp); lia].
  rewrite ref_add_ne by exact Hp. rewrite (C p Hp). destruct (le_ptr v =? p); lia.
Qed.
Lemma held_over l c v p : c mod 64 <> T_NODE_REF -> held (overwrite l c v) p = held l p.
Proof.
  intros H. induction l as [|[c' v'] l IH]; cbn [overwrite held]; [reflexivity|].
  destruct (Z.eqb_spec c' c) as [->|]; cbn [held]; [|lia].
  destruct (Z.eqb_spec (c mod 64) T_NODE_REF); [congruence|]. cbn [andb]. reflexivity.
Qed.

Lemma dstep_counted past s o s' : dinv past s -> op_ok W ms o -> counted s ->
  match o with SSet id ty v _ => ty = T_NODE_REF -> blank v = true \/ stack (id, ty) past = [] | _ => True end ->
  dstep W ms s (to_dop o) = Ok s' -> counted s'.
Proof.
  intros I [K V] C Hc E.
  destruct o as [id ty v rest|id ty|id ty v rest|id ty]; cbn [to_dop dstep op_key fst snd] in *.
  - unfold set_data in E. rewrite (land63 ty (proj2 K)), (bytes_ok id ty v rest V) in E.
    destruct (type_size_some ty (proj2 K)) as [n En]. rewrite En in E. cbn [opt_res bind] in E. cbv zeta in E.
    destruct (n =? MAXDATA).
    + destruct (all_zero v); [injection E as <-; apply counted_remove, C|].
      eapply counted_add; [exact K|exact V| |exact E]. apply counted_remove, C.
    + destruct (all_zero v) eqn:Z0; [injection E as <-; apply counted_remove, C|].
      destruct (get_data W s id ty) as [v0|] eqn:G.
      * injection E as <-. intros p Hp. cbn [n_data n_refs].
        rewrite held_over; [apply C, Hp|]. rewrite (code_mod _ _ K). intros Et.
        destruct (Hc Et) as [H|H]; [rewrite blank_eq in H; congruence|].
        unfold get_data in G. rewrite lookup_vals, (d_vals _ _ I id ty K), H in G. discriminate.
      * eapply counted_add; [exact K|exact V|exact C|exact E].
  - unfold set_data in E. cbn [data_bytes bind] in E. destruct (type_size_some ty (proj2 K)) as [n En]. rewrite En in E.
    cbn [opt_res bind all_zero forallb] in E. cbv zeta in E.
    destruct (n =? MAXDATA); injection E as <-; apply counted_remove, C.
  - eapply counted_add; [exact K|exact V|exact C|exact E].
  - injection E as <-. apply counted_remove, C.
Qed.

Lemma dsteps_counted : forall l past s s', dinv past s -> Forall (op_ok W ms) l -> careful past l -> counted s ->
  dsteps W ms s (map to_dop l) = Ok s' -> counted s'.
Proof.
  induction l as [|o l IH]; intros past s s' I F Hl C E; cbn [map dsteps] in E.
  - injection E as <-. exact C.
  - inversion F as [|? ? F1 F2]; subst. destruct (dstep_ok past s o I F1) as (s1 & E1 & I1). rewrite E1 in E. cbn [bind] in E.
    cbn [careful] in Hl. destruct Hl as [Hc Hl].
    apply (IH _ s1 s' I1 F2 Hl); [|exact E].
    exact (dstep_counted past s o s1 I F1 C Hc E1).
Qed.

Lemma free_all_held : forall l r p, p <> 0 -> free_all l r p = r p - held l p.
Proof.
  induction l as [|[c v] l IH]; intros r p Hp; cbn [free_all held]; [lia|].
  rewrite (IH _ _ Hp). change 63 with (Z.ones 6). rewrite Z.land_ones by lia. change (2 ^ 6) with 64.
  destruct (_ =? T_NODE_REF); cbn [andb]; [|lia]. rewrite ref_add_ne by exact Hp. destruct (le_ptr v =? p); lia.
Qed.
End Data.

Lemma stack_other k l : Forall (fun o => op_key o <> k) l -> forall st, fold_left (top_change k) l st = st.
Proof.
  induction 1 as [|o l H F IH]; intros st; [reflexivity|]. cbn [fold_left]. rewrite <- (IH st) at 2. f_equal.
  unfold top_change. destruct (Z.eqb_spec (fst (op_key o)) (fst k)); [|reflexivity].
  destruct (Z.eqb_spec (snd (op_key o)) (snd k)); [|reflexivity]. exfalso. apply H.
  destruct (op_key o), k. cbn [fst snd] in *. congruence.
Qed.
