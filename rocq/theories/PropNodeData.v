From Verif Require Import Base BaseProofs Tree NodeData NodeDataSpec NodeDataProofs.

(** C101: for every history of sets, additions and removals the data found for an identifier and a type
    is the top of its own stack. *)
Theorem C101_history W ms l :
  Forall (op_ok W ms) l ->
  exists s, dsteps W ms nst0 (map to_dop l) = Ok s /\
    forall id ty, key_ok W id ty -> get_data W s id ty = hd_error (stack (id, ty) l).
Proof.
  intros F. destruct (dsteps_ok W ms l [] nst0 (dinv0 W ms) F) as (s & E & I). exists s. split; [exact E|].
  intros id ty K. unfold get_data. rewrite lookup_vals, (d_vals _ _ _ _ I id ty K). reflexivity.
Qed.
Print Assumptions C101_history.
(** A string, an integer (TYPE_INT, type 2) set, hidden by an added one, and uncovered by a set to zero. *)
Definition ex_l : list sop :=
  [SSet 300 T_STRING [65; 66; 0] [7; 7]; SSet 300 2 [1; 0; 0; 0] []; SAdd 300 2 [2; 0; 0; 0] [9];
   SSet 301 2 [3; 0; 0; 0] []; SSet 300 2 [4; 0; 0; 0] []; SSet 301 2 [0; 0; 0; 0] []; SSet 300 T_STRING [67; 0] []].
Lemma ex_l_ok : Forall (op_ok 32 (fun _ => 0)) ex_l.
Proof.
  assert (K : forall id ty, 0 <= id < 1000 -> 0 < ty < 42 -> key_ok 32 id ty).
  { intros. unfold key_ok. change (2 ^ (32 - 8)) with 16777216. lia. }
  assert (V2 : forall id v, zlen v = 4 -> value (fun _ => 0) id 2 v).
  { intros. exists 4. split; [reflexivity|]. lia. }
  unfold ex_l. repeat (apply Forall_cons; [split; [apply K; cbn [op_key fst snd]; unfold T_STRING; lia|]|]); [..|constructor];
    try (apply V2; reflexivity).
  - exists [65; 66]. split; [reflexivity|]. cbn [In]. lia.
  - exists [67]. split; [reflexivity|]. cbn [In]. lia.
Qed.
Example C101_history_ex :
  Forall (op_ok 32 (fun _ => 0)) ex_l /\ stack (300, 2) ex_l = [[4; 0; 0; 0]; [1; 0; 0; 0]] /\
  stack (301, 2) ex_l = [] /\ stack (300, T_STRING) ex_l = [[67; 0]].
Proof. split; [exact ex_l_ok|]. split; [|split]; vm_compute; reflexivity. Qed.

(** What was set is read back until something is done with the same identifier and type. *)
Theorem C101_readback W ms l id ty v rest l2 :
  Forall (op_ok W ms) (l ++ SSet id ty v rest :: l2) -> Forall (fun o => op_key o <> (id, ty)) l2 ->
  tl (stack (id, ty) l) = [] ->
  exists s, dsteps W ms nst0 (map to_dop (l ++ SSet id ty v rest :: l2)) = Ok s /\
    read_data W ms s id ty (zlen v) = Ok (Some v).
Proof.
  intros F O T. destruct (dsteps_ok W ms _ [] nst0 (dinv0 W ms) F) as (s & E & I). exists s. split; [exact E|].
  apply Forall_app in F as [_ F]. inversion F as [|? ? [K V] _]; subst. cbn [op_key fst snd] in K.
  assert (Hs : stack (id, ty) (l ++ SSet id ty v rest :: l2) = if blank v then [] else [v]).
  { unfold stack. rewrite fold_left_app. cbn [fold_left]. rewrite (stack_other _ _ O).
    change (fold_left (top_change (id, ty)) l []) with (stack (id, ty) l).
    unfold top_change. cbn [op_key fst snd]. rewrite !Z.eqb_refl, T. reflexivity. }
  unfold read_data, get_data. rewrite lookup_vals, (d_vals _ _ _ _ I id ty K). cbn [app]. rewrite Hs, blank_eq.
  destruct (all_zero v) eqn:Z0; cbn [hd_error].
  - destruct (Z.eqb_spec ty T_STRING) as [->|N].
    + destruct V as (w & -> & Hw). destruct w as [|c w]; [reflexivity|]. exfalso.
      cbn [app all_zero forallb] in Z0. apply andb_true_iff in Z0 as [Z0 _]. apply Z.eqb_eq in Z0. apply Hw. left. exact Z0.
    + unfold zlen. rewrite Nat2Z.id. rewrite <- (all_zero_repeat v Z0). reflexivity.
  - destruct (Z.eqb_spec ty T_STRING) as [->|N].
    + destruct V as (w & -> & Hw). unfold copy_str. rewrite removelast_last. unfold zlen. rewrite app_length. cbn [length].
      replace (Z.to_nat (Z.of_nat (length w + 1) - 1)) with (length w) by lia. rewrite firstn_all. reflexivity.
    + pose proof (bytes_ok ms id ty v [] V) as B. rewrite app_nil_r in B. rewrite B. cbn [bind]. rewrite Z.ltb_irrefl. reflexivity.
Qed.
Print Assumptions C101_readback.
Example C101_readback_ex :
  let l := [SSet 300 2 [1; 0; 0; 0] []; SSet 300 T_STRING [65; 66; 0] [7; 7]] in
  exists s, dsteps 32 (fun _ => 0) nst0 (map to_dop (l ++ [SSet 300 2 [5; 0; 0; 0] []])) = Ok s /\
    read_data 32 (fun _ => 0) s 300 2 4 = Ok (Some [5; 0; 0; 0]) /\
    read_data 32 (fun _ => 0) s 300 T_STRING 3 = Ok (Some [65; 66; 0]).
Proof. eexists. split; [vm_compute; reflexivity|]. split; vm_compute; reflexivity. Qed.

(** Every entry holds a whole value of its type, so that it is given back with the size it was taken with
    (DataFree computes the size again from the bytes). *)
Theorem C101_sizes W ms l s c v :
  Forall (op_ok W ms) l -> dsteps W ms nst0 (map to_dop l) = Ok s -> In (c, v) (n_data s) ->
  data_bytes ms (c / 256) (c mod 64) (Some v) = Ok v /\ 0 < zlen v.
Proof.
  intros F E H. destruct (dsteps_ok W ms l [] nst0 (dinv0 W ms) F) as (s' & E' & I).
  rewrite E in E'. injection E' as <-. destruct (d_ent _ _ _ _ I c v H) as (id & ty & K & -> & V).
  rewrite (code_mod W ms id ty K), (code_eq W ms id ty K).
  replace ((id * 256 + ty) / 256) with id by (destruct K; lia).
  pose proof (bytes_ok ms id ty v [] V) as B. rewrite app_nil_r in B. split; [exact B|].
  pose proof (value_nonempty ms id ty v V). destruct v; [congruence|]. unfold zlen. cbn [length]. lia.
Qed.
Print Assumptions C101_sizes.
Example C101_sizes_ex : exists s, dsteps 32 (fun _ => 0) nst0 (map to_dop ex_l) = Ok s /\
  n_data s = [(code 32 300 4, [67; 0]); (code 32 300 2, [4; 0; 0; 0]); (code 32 300 2, [1; 0; 0; 0])].
Proof. eexists. split; [vm_compute; reflexivity|]. vm_compute. reflexivity. Qed.

(** What a value of a type is: as many bytes as the type has; for strings any bytes up to the zero; for binary data
    and expressions as many as the identifier declares, or 4096. *)
Theorem C101_types ms id v :
  (forall ty n, In (ty, n) fixed_sizes -> (value ms id ty v <-> zlen v = n)) /\
  (forall ty, In ty [4; 31; 32] -> (value ms id ty v <-> exists w, v = w ++ [0] /\ ~ In 0 w)) /\
  (forall ty, In ty [16; 27] -> 0 <= ms id -> (value ms id ty v <-> zlen v = if ms id =? 0 then 4096 else ms id)) /\
  max_data_size ms id 4 = Some 4096.
Proof.
  assert (G : forall ty m, is_str ty = false -> max_data_size ms id ty = Some m -> 0 < m -> (value ms id ty v <-> zlen v = m)).
  { intros ty m S M P. unfold value. rewrite S. split; [intros (k & K & _ & L); congruence|intros L; exists m; tauto]. }
  split; [|split; [|split]].
  - intros ty n H. unfold fixed_sizes in H. cbn [In] in H.
    repeat (destruct H as [H|H]; [assert (ty = fst (ty, n) /\ n = snd (ty, n)) as [H1 H2] by (split; reflexivity); rewrite <- H in H1, H2; cbn [fst snd] in H1, H2; subst ty n; apply G; [reflexivity|reflexivity|lia]|]). destruct H.
  - intros ty [<-|[<-|[<-|[]]]]; unfold value; tauto.
  - intros ty H M. apply G; [destruct H as [<-|[<-|[]]]; reflexivity| |destruct (Z.eqb_spec (ms id) 0); lia]. destruct H as [<-|[<-|[]]]; reflexivity.
  - reflexivity.
Qed.
Print Assumptions C101_types.
Example C101_types_ex : value (fun _ => 3) 7 16 [1; 2; 3] /\ ~ value (fun _ => 3) 7 2 [1; 2; 3] /\ value (fun _ => 3) 7 4 [65; 0].
Proof.
  split; [exists 3; split; [reflexivity|split; [lia|reflexivity]]|]. split; [|exists [65]; split; [reflexivity|intros [X|[]]; discriminate X]].
  intros H. apply (proj1 (C101_types (fun _ => 3) 7 [1; 2; 3]) 2 4) in H; [discriminate H|]. right; right; left. reflexivity.
Qed.

(** An addition hides what was there: after a removal it is back, whatever was done with other data. *)
Theorem C101_hide W ms l id ty v rest l2 :
  Forall (op_ok W ms) (l ++ SAdd id ty v rest :: l2 ++ [SRem id ty]) -> Forall (fun o => op_key o <> (id, ty)) l2 ->
  exists s s', dsteps W ms nst0 (map to_dop l) = Ok s /\
    dsteps W ms nst0 (map to_dop (l ++ SAdd id ty v rest :: l2 ++ [SRem id ty])) = Ok s' /\
    get_data W s' id ty = get_data W s id ty.
Proof.
  intros F O. destruct (C101_history W ms _ F) as (s' & E' & G').
  apply Forall_app in F as [F1 F2]. destruct (C101_history W ms _ F1) as (s & E & G).
  exists s, s'. split; [exact E|]. split; [exact E'|].
  inversion F2 as [|? ? [K _] _]; subst. cbn [op_key fst snd] in K.
  rewrite (G' id ty K), (G id ty K). f_equal. unfold stack. rewrite fold_left_app. cbn [fold_left].
  rewrite fold_left_app, (stack_other _ _ O). cbn [fold_left]. unfold top_change. cbn [op_key fst snd].
  rewrite !Z.eqb_refl. reflexivity.
Qed.
Print Assumptions C101_hide.
Example C101_hide_ex : exists s, dsteps 32 (fun _ => 0) nst0
    (map to_dop [SSet 300 2 [1; 0; 0; 0] []; SAdd 300 2 [2; 0; 0; 0] []; SSet 5 2 [3; 0; 0; 0] []; SRem 300 2]) = Ok s /\
  get_data 32 s 300 2 = Some [1; 0; 0; 0].
Proof. eexists. split; [vm_compute; reflexivity|]. vm_compute. reflexivity. Qed.

(** Not so for identifiers of more than 24 bits where uint_fast32_t has 32: the upper byte is lost, and
    what is set for one is read for another. *)
Theorem C101_wrap_refuted :
  ~ (forall l, Forall (fun o => 0 <= fst (op_key o) < 2 ^ 32 /\ 0 < snd (op_key o) < 42) l ->
       exists s, dsteps 32 (fun _ => 0) nst0 (map to_dop l) = Ok s /\
         forall id ty, 0 <= id < 2 ^ 32 -> 0 < ty < 42 -> get_data 32 s id ty = hd_error (stack (id, ty) l)).
Proof.
  intros H. destruct (H [SSet 16777516 2 [1; 0; 0; 0] []]) as (s & E & G).
  { constructor; [|constructor]. cbn [op_key fst snd]. change (2 ^ 32) with 4294967296. lia. }
  specialize (G 300 2 ltac:(change (2 ^ 32) with 4294967296; lia) ltac:(lia)).
  vm_compute in E. injection E as <-. vm_compute in G. discriminate.
Qed.
Print Assumptions C101_wrap_refuted.

(** C102: when no reference is set over another one, each referenced node has as many references as
    there are entries that refer to it, and deleting the node gives all of them back. *)
Theorem C102_references W ms l :
  Forall (op_ok W ms) l -> careful [] l ->
  exists s, dsteps W ms nst0 (map to_dop l) = Ok s /\
    forall p, p <> 0 -> n_refs s p = held (n_data s) p /\ free_all (n_data s) (n_refs s) p = 0.
Proof.
  intros F C. destruct (dsteps_ok W ms l [] nst0 (dinv0 W ms) F) as (s & E & I). exists s. split; [exact E|].
  intros p Hp. assert (R : n_refs s p = held (n_data s) p).
  { eapply (dsteps_counted W ms l [] nst0 s (dinv0 W ms) F C); [|exact E|exact Hp]. intros q _. reflexivity. }
  split; [exact R|]. rewrite (free_all_held ms) by exact Hp. lia.
Qed.
Print Assumptions C102_references.
Definition ref p : list Z := [p; 0; 0; 0; 0; 0; 0; 0].
Definition ex_r : list sop :=
  [SSet 1 T_NODE_REF (ref 5) []; SSet 2 T_NODE_REF (ref 5) []; SAdd 1 T_NODE_REF (ref 6) []; SSet 3 T_NODE_REF (ref 6) [];
   SSet 1 T_NODE_REF (ref 0) []].
Example C102_references_ex :
  Forall (op_ok 32 (fun _ => 0)) ex_r /\ careful [] ex_r /\
  exists s, dsteps 32 (fun _ => 0) nst0 (map to_dop ex_r) = Ok s /\ n_refs s 5 = 2 /\ n_refs s 6 = 1.
Proof.
  split; [|split].
  - assert (K : forall id ty, 0 <= id < 1000 -> 0 < ty < 42 -> key_ok 32 id ty).
    { intros. unfold key_ok. change (2 ^ (32 - 8)) with 16777216. lia. }
    unfold ex_r. repeat (apply Forall_cons; [split; [apply K; cbn [op_key fst snd]; unfold T_NODE_REF; lia|]|]); [..|constructor];
      (exists 8; split; [reflexivity|]; split; [lia|reflexivity]).
  - unfold ex_r. cbn [careful]. split; [right; reflexivity|]. split; [right; reflexivity|]. split; [exact I|].
    split; [right; reflexivity|]. split; [left; reflexivity|exact I].
  - eexists. split; [vm_compute; reflexivity|]. split; vm_compute; reflexivity.
Qed.

(** Setting a reference over another one takes none on the new node and gives none back of the old one:
    the old one is never released, the new one is released without having been taken. *)
Theorem C102_set_refuted :
  exists l s, Forall (op_ok 32 (fun _ => 0)) l /\ dsteps 32 (fun _ => 0) nst0 (map to_dop l) = Ok s /\
    get_data 32 s 1 T_NODE_REF = Some (ref 6) /\ n_refs s 6 = 0 /\ n_refs s 5 = 1 /\
    free_all (n_data s) (n_refs s) 5 = 1 /\ free_all (n_data s) (n_refs s) 6 = -1.
Proof.
  exists [SSet 1 T_NODE_REF (ref 5) []; SSet 1 T_NODE_REF (ref 6) []]. eexists. split.
  - assert (K : key_ok 32 1 T_NODE_REF).
    { unfold key_ok, T_NODE_REF. change (2 ^ (32 - 8)) with 16777216. lia. }
    repeat (apply Forall_cons; [split; [exact K|]|]); [..|constructor];
      (exists 8; split; [reflexivity|]; split; [lia|reflexivity]).
  - split; [vm_compute; reflexivity|]. split; [|split; [|split; [|split]]]; vm_compute; reflexivity.
Qed.
Print Assumptions C102_set_refuted.

(** C102: whatever is stored, nothing is ever counted for a reference to no node. *)
Lemma ref_add_null f p k : ref_add f p k 0 = f 0.
Proof. unfold ref_add. destruct (Z.eqb_spec 0 p) as [<-|]; reflexivity. Qed.
Lemma dstep_null W ms s o s' : dstep W ms s o = Ok s' -> n_refs s' 0 = n_refs s 0.
Proof.
  assert (A : forall t id ty d t', add_data W ms t id ty d = Ok t' -> n_refs t' 0 = n_refs t 0).
  { intros t id ty d t'. unfold add_data. destruct (data_bytes ms id (Z.land ty 63) d) as [| | |v]; cbn [bind]; try discriminate.
    destruct v; intros E; injection E as <-; [reflexivity|]. cbn [n_refs]. destruct (ty =? T_NODE_REF); [apply ref_add_null|reflexivity]. }
  assert (R : forall t id ty, n_refs (remove_data W t id ty) 0 = n_refs t 0).
  { intros t id ty. unfold remove_data. destruct (get_data W t id ty); cbn [n_refs]; [|reflexivity].
    destruct (_ =? T_NODE_REF); [apply ref_add_null|reflexivity]. }
  destruct o as [id ty d|id ty d|id ty]; unfold dstep.
  - unfold set_data. repeat match goal with
      | |- context [match ?x with _ => _ end] => destruct x; cbn [bind]; try discriminate
      | |- context [bind ?x _] => destruct x; cbn [bind]; try discriminate
    end; intros E; first [apply A in E; rewrite E; first [reflexivity|apply R] | injection E as <-; cbn [n_refs]; first [reflexivity|apply R]].
  - apply A.
  - intros E. injection E as <-. apply R.
Qed.
Theorem C102_null W ms l s :
  dsteps W ms nst0 l = Ok s -> n_refs s 0 = 0 /\ free_all (n_data s) (n_refs s) 0 = 0.
Proof.
  intros E. assert (N : n_refs s 0 = 0).
  { change 0 with (n_refs nst0 0) at 2. revert E. generalize nst0. induction l as [|o l IH]; intros t; cbn [dsteps].
    - intros E. injection E as <-. reflexivity.
    - destruct (dstep W ms t o) as [| | |t'] eqn:D; cbn [bind]; try discriminate. intros E. rewrite (IH _ E). exact (dstep_null _ _ _ _ _ D). }
  split; [exact N|]. apply (eq_trans (y := n_refs s 0)); [|exact N]. generalize (n_refs s). induction (n_data s) as [|[c v] d IH]; intros r; cbn [free_all]; [reflexivity|].
  rewrite IH. destruct (_ =? T_NODE_REF); [apply ref_add_null|reflexivity].
Qed.
Print Assumptions C102_null.
Example C102_null_ex : exists s, dsteps 32 (fun _ => 0) nst0 [DAdd 1 T_NODE_REF (Some (ref 0)); DAdd 2 T_NODE_REF (Some (ref 5))] = Ok s /\ n_refs s 5 = 1 /\ zlen (n_data s) = 2.
Proof. eexists. split; [reflexivity|]. split; reflexivity. Qed.

(** C103: fractions compared by EqFrac, for fields within 32 bits. *)
Definition in32 (x : Z) : Prop := - 2 ^ 31 <= x < 2 ^ 31.
Theorem C103_fractions a b :
  in32 (fst a) -> in32 (snd a) -> in32 (fst b) -> in32 (snd b) -> (eq_frac a b = true <-> same_frac a b).
Proof.
  destruct a as [x y], b as [u v]. unfold in32, eq_frac, same_frac. cbn [fst snd]. change (2 ^ 31) with 2147483648.
  intros Hx Hy Hu Hv.
  assert (S : forall z w, -2147483648 <= z < 2147483648 -> -2147483648 <= w < 2147483648 -> s_wrap 64 (z * w) = z * w).
  { intros z w Hz Hw. assert (-4611686018427387904 <= z * w <= 4611686018427387904) by nia.
    unfold s_wrap. change (2 ^ 64) with 18446744073709551616. change (2 ^ (64 - 1)) with 9223372036854775808.
    destruct (Z.ltb_spec ((z * w) mod 18446744073709551616) 9223372036854775808); lia. }
  destruct (Z.eqb_spec y v) as [->|N]; cbn [andb].
  - destruct (Z.eqb_spec x u) as [->|N2].
    + split; [|reflexivity]. intros _. destruct (Z.eq_dec v 0); [left|right]; auto.
    + destruct (Z.eqb_spec v 0) as [->|Nv]; [split; auto|]. rewrite !S by assumption. rewrite Z.eqb_eq.
      split; [right; repeat split; lia|intros [H|H]; lia].
  - destruct (Z.eqb_spec y 0) as [->|Ny].
    + rewrite Z.eqb_eq. split; [left; auto|intros [H|H]; lia].
    + destruct (Z.eqb_spec v 0) as [->|Nv]; [split; [discriminate|intros [H|H]; lia]|].
      rewrite !S by assumption. rewrite Z.eqb_eq. split; [right; repeat split; lia|intros [H|H]; lia].
Qed.
Print Assumptions C103_fractions.
Example C103_fractions_ex : eq_frac (1, 2) (-3, -6) = true /\ eq_frac (1, 2) (2, 3) = false /\ eq_frac (1, 0) (7, 0) = true.
Proof. vm_compute. auto. Qed.

(** So it is an equivalence there. *)
Theorem C103_equivalence a b c :
  in32 (fst a) -> in32 (snd a) -> in32 (fst b) -> in32 (snd b) -> in32 (fst c) -> in32 (snd c) ->
  eq_frac a a = true /\ eq_frac a b = eq_frac b a /\ (eq_frac a b = true -> eq_frac b c = true -> eq_frac a c = true).
Proof.
  intros A1 A2 B1 B2 C1 C2. split; [unfold eq_frac; rewrite !Z.eqb_refl; reflexivity|]. split.
  - apply eq_true_iff_eq. rewrite !C103_fractions by assumption. unfold same_frac. lia.
  - rewrite !C103_fractions by assumption. unfold same_frac. intros [H|H] [K|K]; try lia. right.
    split; [tauto|]. split; [tauto|]. destruct H as (_ & Hb & H), K as (_ & _ & K).
    apply (Z.mul_reg_l _ _ (snd b) Hb).
    transitivity ((fst a * snd b) * snd c); [ring|]. rewrite H. transitivity ((fst b * snd c) * snd a); [ring|]. rewrite K. ring.
Qed.
Print Assumptions C103_equivalence.
Example C103_equivalence_ex : eq_frac (1, 2) (2, 4) = true /\ eq_frac (2, 4) (3, 6) = true /\ eq_frac (1, 2) (3, 6) = true.
Proof. vm_compute. auto. Qed.

(** Fields of 64 bits (int_fast32_t there): the products wrap, and different fractions compare equal. *)
Theorem C103_wide_refuted : exists a b, eq_frac a b = true /\ ~ same_frac a b /\
  - 2 ^ 63 <= fst a < 2 ^ 63 /\ - 2 ^ 63 <= snd a < 2 ^ 63 /\ - 2 ^ 63 <= fst b < 2 ^ 63 /\ - 2 ^ 63 <= snd b < 2 ^ 63.
Proof.
  exists (2 ^ 40, 2 ^ 40), (2 ^ 41, 2 ^ 42). split; [vm_compute; reflexivity|]. split.
  - unfold same_frac. cbn [fst snd]. intros [[H _]|(_ & _ & H)]; vm_compute in H; discriminate.
  - cbn [fst snd]. change (2 ^ 40) with 1099511627776. change (2 ^ 41) with 2199023255552. change (2 ^ 42) with 4398046511104.
    change (2 ^ 63) with 9223372036854775808. lia.
Qed.
Print Assumptions C103_wide_refuted.
