(** C149: the names of types and units. *)
From Verif Require Import Base BaseProofs Tree Str StrSpec StrProofs StrProofs2 DurationsProofs MkArgsProofs TextProofs2 TypeNames TypeNamesSpec.

Definition textb (s : list Z) : bool := forallb (fun b => (0 <? b) && (b <? 256)) s.
Lemma textb_ok s : textb s = true -> text s.
Proof. intros H. apply Forall_forall. intros x I. unfold textb in H. rewrite forallb_forall in H. specialize (H x I). lia. Qed.
Definition tableb (t : list (option (list Z))) : bool := forallb (fun e => match e with Some n => textb n | None => true end) t.
Lemma table_text t i n : tableb t = true -> nth_error t i = Some (Some n) -> text n.
Proof. intros H E. apply nth_error_In in E. unfold tableb in H. rewrite forallb_forall in H. specialize (H _ E). apply textb_ok. exact H. Qed.
Fixpoint differ (t : list (option (list Z))) : bool :=
  match t with
  | [] => true
  | e :: t => (match e with Some n => forallb (fun e' => match e' with Some n' => match order n n' with Eq => false | _ => true end | None => true end) t | None => true end) && differ t
  end.
Lemma differ_ok t : tableb t = true -> differ t = true -> forall i j n m, nth_error t i = Some (Some n) -> nth_error t j = Some (Some m) -> same_text n m -> i = j.
Proof.
  intros T D i. revert t T D. induction i as [|i IH]; intros [|e t] T D [|j] n m E1 E2 S; cbn [nth_error] in E1, E2; try discriminate; try reflexivity.
  - injection E1 as ->. exfalso. cbn [differ] in D. apply andb_prop in D as [D _]. rewrite forallb_forall in D. specialize (D _ (nth_error_In _ _ E2)). cbn in D.
    cbn [tableb forallb] in T. apply andb_prop in T as [T1 T2]. apply order_eq in S; [rewrite S in D; discriminate|apply textb_ok; exact T1|exact (table_text t j m T2 E2)].
  - injection E2 as ->. exfalso. cbn [differ] in D. apply andb_prop in D as [D _]. rewrite forallb_forall in D. specialize (D _ (nth_error_In _ _ E1)). cbn in D.
    cbn [tableb forallb] in T. apply andb_prop in T as [T1 T2]. apply same_text_sym in S. apply order_eq in S; [rewrite S in D; discriminate|apply textb_ok; exact T1|exact (table_text t i n T2 E1)].
  - f_equal. cbn [differ] in D. apply andb_prop in D as [_ D]. cbn [tableb forallb] in T. apply andb_prop in T as [_ T]. exact (IH t T D j n m E1 E2 S).
Qed.
Lemma place_unique t s i j : tableb t = true -> differ t = true -> place_of t s i -> place_of t s j -> i = j.
Proof.
  intros T D (Hi & n & E & S) (Hj & m & F & R). assert (Z.to_nat i = Z.to_nat j); [|lia]. apply (differ_ok t T D _ _ n m E F). exact (same_trans _ _ _ (same_text_sym _ _ S) R).
Qed.
Lemma named_ok t s u i : tableb t = true -> text s -> 0 <= i < zlen t -> exists b, is_named t i (s ++ 0 :: u) = Ok b /\ (b = true <-> place_of t s i).
Proof.
  intros T Ts Hi. unfold is_named, at_table. destruct (Z.ltb_spec i 0) as [|_]; [lia|]. destruct (nth_error t (Z.to_nat i)) as [[n|]|] eqn:E.
  - cbn [Tree.bind]. pose proof (table_text t _ n T E) as Tn. rewrite same_text_id by assumption. eexists. split; [reflexivity|]. split.
    + intros O. split; [lia|]. exists n. split; [exact E|]. apply order_eq; [assumption..|]. destruct (order s n); congruence.
    + intros (_ & n' & E' & S). rewrite E in E'. injection E' as <-. apply order_eq in S; [rewrite S; reflexivity|assumption..].
  - cbn [Tree.bind]. exists false. split; [reflexivity|]. split; [discriminate|]. intros (_ & n' & E' & S). rewrite E in E'. discriminate.
  - apply nth_error_None in E. unfold zlen in Hi. lia.
Qed.
Lemma place_lt t s i : place_of t s i -> i < zlen t.
Proof. intros (H & n & E & _). assert (nth_error t (Z.to_nat i) <> None) as N by congruence. apply nth_error_Some in N. unfold zlen. lia. Qed.

Lemma land_unit j : 0 <= j < 64 -> Z.land (Z.shiftl j TUNIT_SHIFT) TUNIT_MASK = Z.shiftl (j mod 32) 24.
Proof. intros H. change TUNIT_MASK with (Z.shiftl (Z.ones 5) 24). change TUNIT_SHIFT with 24. rewrite <- Z.shiftl_land. rewrite Z.land_ones by lia. reflexivity. Qed.
Lemma find_unit_ok s u : text s -> forall fuel j, 1 <= j <= 32 -> 32 < Z.of_nat fuel + j ->
  exists r, find_unit fuel j (s ++ 0 :: u) = Ok r /\ ((exists k, j <= k /\ place_of param_format s k /\ r = k * 2 ^ 24) \/ ((forall k, j <= k -> ~ place_of param_format s k) /\ r = 0)).
Proof.
  intros Ts. induction fuel as [|fuel IH]; intros j Hj Hf; [lia|]. cbn [find_unit]. rewrite land_unit by lia. rewrite Z.shiftl_mul_pow2 by lia.
  destruct (Z.eqb_spec (j mod 32 * 2 ^ 24) 0) as [E|E].
  - exists 0. split; [reflexivity|right]. split; [|reflexivity]. intros k Hk P. apply place_lt in P. change (zlen param_format) with 32 in P. assert (j = 32) by (assert (j mod 32 = 0) by lia; lia). lia.
  - assert (j < 32). { destruct (Z.eq_dec j 32) as [->|]; [elim E; reflexivity|lia]. }
    destruct (named_ok param_format s u j eq_refl Ts) as (b & -> & B). { change (zlen param_format) with 32. lia. }
    cbn [Tree.bind]. destruct b.
    + eexists. split; [reflexivity|left]. exists j. split; [lia|]. split; [apply B; reflexivity|]. change TUNIT_SHIFT with 24. apply Z.shiftl_mul_pow2. lia.
    + destruct (IH (j + 1)) as (r & -> & R); [lia..|]. exists r. split; [reflexivity|]. destruct R as [(k & Hk & P & ->)|[N ->]]; [left; exists k; split; [lia|split; [exact P|reflexivity]]|right].
      split; [|reflexivity]. intros k Hk P. destruct (Z.eq_dec j k) as [->|]; [apply B in P; discriminate|apply (N k); [lia|exact P]].
Qed.

Lemma lor_unit i k : 0 <= i < 64 -> 0 <= k -> Z.lor i (k * 2 ^ 24) = i + k * 2 ^ 24.
Proof. intros Hi Hk. apply lor_high; lia. Qed.
Lemma no_empty : nameless param_format [].
Proof.
  intros i P. pose proof (place_lt _ _ _ P) as L. change (zlen param_format) with 32 in L. destruct P as (H & n & E & S). inversion S. subst n.
  assert (X : forallb (fun e => match e with Some [] => false | _ => true end) param_format = true) by reflexivity. rewrite forallb_forall in X. specialize (X _ (nth_error_In _ _ E)). discriminate X.
Qed.
Lemma find_type_ok s t format : text s -> (forall f, format = Some f -> text f) -> forall u fuel i, 0 <= i <= 42 -> 42 < Z.of_nat fuel + i ->
  exists r, find_type fuel i (s ++ 0 :: t) (option_map (fun f => f ++ 0 :: u) format) = Ok r /\
   ((exists k v, i <= k /\ place_of param_name s k /\ unit_found format v /\ r = k + v) \/ ((forall k, i <= k -> ~ place_of param_name s k) /\ r = 0)).
Proof.
  intros Ts Tf u. induction fuel as [|fuel IH]; intros i Hi Hf; [lia|]. cbn [find_type]. change MAX_PARAMTYPE with 42. destruct (Z.ltb_spec i 42).
  - destruct (named_ok param_name s t i eq_refl Ts) as (b & -> & B). { change (zlen param_name) with 42. lia. } cbn [Tree.bind]. destruct b.
    + assert (P : place_of param_name s i) by (apply B; reflexivity). destruct format as [[|c f]|]; cbn [option_map app].
      * exists i. split; [reflexivity|left]. exists i, 0. split; [lia|]. split; [exact P|]. split; [right; split; [exact no_empty|reflexivity]|lia].
      * assert (T : text (c :: f)) by (apply Tf; reflexivity). pose proof (text_cons _ _ T) as [C _]. destruct (Z.eqb_spec c 0); [lia|].
        destruct (find_unit_ok (c :: f) u T 33 1) as (r & E & R); [lia..|]. cbn [app] in E. rewrite E. cbn [Tree.bind]. eexists. split; [reflexivity|left]. exists i, r. split; [lia|]. split; [exact P|].
        destruct R as [(k & Hk & Pk & ->)|[N ->]]; (split; [|]).
        -- left. exists k. split; [exact Pk|reflexivity].
        -- apply lor_unit; lia.
        -- right. split; [|reflexivity]. intros k Pk. destruct (Z.eq_dec k 0) as [->|]; [destruct Pk as (_ & nm & X & _); discriminate X|]. apply (N k); [destruct Pk; lia|exact Pk].
        -- rewrite Z.lor_0_r. lia.
      * exists i. split; [reflexivity|left]. exists i, 0. repeat split; [lia|apply P..|lia].
    + destruct (IH (i + 1)) as (r & -> & R); [lia..|]. exists r. split; [reflexivity|]. destruct R as [(k & v & Hk & P & U & ->)|[N ->]]; [left; exists k, v; split; [lia|split; [exact P|split; [exact U|reflexivity]]]|right].
      split; [|reflexivity]. intros k Hk P. destruct (Z.eq_dec i k) as [->|]; [apply B in P; discriminate|apply (N k); [lia|exact P]].
  - exists 0. split; [reflexivity|right]. split; [|reflexivity]. intros k Hk P. apply place_lt in P. change (zlen param_name) with 42 in P. lia.
Qed.

(** C149: for every text and format, the type of that name is found, with the unit of that name; 0 when there is no such type.  Units
    that are not there are left out. *)
Theorem C149_found s t format u : text s -> (forall f, format = Some f -> text f) ->
  exists r, find_data_type (s ++ 0 :: t) (option_map (fun f => f ++ 0 :: u) format) = Ok r /\
   ((exists k v, place_of param_name s k /\ unit_found format v /\ r = k + v) \/ (nameless param_name s /\ r = 0)).
Proof.
  intros Ts Tf. destruct (find_type_ok s t format Ts Tf u 43 0) as (r & E & R); [lia..|]. exists r. split; [exact E|]. destruct R as [(k & v & _ & R)|[N R]]; [left; exists k, v; exact R|right].
  split; [|exact R]. intros k P. apply (N k); [destruct P; lia|exact P].
Qed.
Print Assumptions C149_found.

(** C149: no name stands for two types or for two units. *)
Theorem C149_unique s i j : (place_of param_name s i -> place_of param_name s j -> i = j) /\ (place_of param_format s i -> place_of param_format s j -> i = j).
Proof. split; apply place_unique; reflexivity. Qed.
Print Assumptions C149_unique.

(** C149: what a type and a unit are called is found again: for all numbers with a type there is and any other bits. *)
Theorem C149_again x y tn un t u : 0 <= x < 2 ^ 32 -> 0 <= y < 2 ^ 32 -> type_name x = Ok (Some tn) -> unit_name y = Ok (Some un) ->
  find_data_type (tn ++ 0 :: t) (Some (un ++ 0 :: u)) = Ok (Z.land x TYPE_MASK + Z.land y TUNIT_MASK).
Proof.
  intros Hx Hy Nx Ny. unfold type_name, unit_name, at_table in Nx, Ny.
  destruct (Z.ltb_spec (Z.land x TYPE_MASK) 0) as [|X0]; [discriminate|]. destruct (Z.ltb_spec (Z.shiftr (Z.land y TUNIT_MASK) TUNIT_SHIFT) 0) as [|Y0]; [discriminate|].
  destruct (nth_error param_name _) as [a|] eqn:A; [|discriminate]. injection Nx as ->. destruct (nth_error param_format _) as [b|] eqn:B; [|discriminate]. injection Ny as ->.
  pose proof (table_text param_name _ tn eq_refl A) as Tt. pose proof (table_text param_format _ un eq_refl B) as Tu.
  assert (R : forall s, same_text s s) by (induction s; constructor; [left; reflexivity|assumption]).
  assert (Px : place_of param_name tn (Z.land x TYPE_MASK)) by (split; [lia|exists tn; split; [exact A|apply R]]).
  assert (Py : place_of param_format un (Z.shiftr (Z.land y TUNIT_MASK) TUNIT_SHIFT)) by (split; [lia|exists un; split; [exact B|apply R]]).
  destruct (C149_found tn t (Some un) u Tt) as (r & E & F). { intros f [= <-]. exact Tu. } cbn [option_map] in E. rewrite E. f_equal.
  destruct F as [(k & v & Pk & Uv & ->)|[N _]]; [|elim (N _ Px)]. rewrite (proj1 (C149_unique tn k _) Pk Px). f_equal.
  destruct Uv as [(j & Pj & ->)|[N _]]; [|elim (N _ Py)]. rewrite (proj2 (C149_unique un j _) Pj Py).
  rewrite <- Z.shiftl_mul_pow2 by lia. change TUNIT_SHIFT with 24. change TUNIT_MASK with (Z.shiftl (Z.ones 5) 24).
  apply Z.bits_inj'. intros n Hn. destruct (Z.ltb_spec n 24).
  - rewrite Z.shiftl_spec_low by lia. rewrite Z.land_spec. rewrite (Z.shiftl_spec_low _ 24 n) by lia. symmetry. apply andb_false_r.
  - rewrite Z.shiftl_spec, Z.shiftr_spec by lia. f_equal. lia.
Qed.
Print Assumptions C149_again.

(** C149: the names of units are read within their table, for all numbers. *)
Theorem C149_units x : 0 <= x < 2 ^ 32 -> exists n, unit_name x = Ok n.
Proof.
  intros H. unfold unit_name, at_table. change TUNIT_MASK with (Z.shiftl (Z.ones 5) 24). change TUNIT_SHIFT with 24. rewrite Z.shiftr_land. rewrite (Z.shiftr_shiftl_l (Z.ones 5) 24 24) by lia. cbn [Z.sub]. change (Z.shiftl (Z.ones 5) (24 - 24)) with (Z.ones 5). rewrite Z.land_ones by lia.
  set (i := Z.shiftr x 24 mod 2 ^ 5). assert (I : 0 <= i < 32) by (unfold i; apply Z.mod_pos_bound; lia). destruct (Z.ltb_spec i 0); [lia|].
  destruct (nth_error param_format (Z.to_nat i)) as [n|] eqn:E; [exists n; reflexivity|]. apply nth_error_None in E. change (length param_format) with 32%nat in E. lia.
Qed.
Print Assumptions C149_units.

(** C149: those of types are for the types there are, and for no other number: those of 42 to 63 are read outside the table. *)
Theorem C149_types_refuted x : 0 <= x < 2 ^ 32 -> (x mod 64 < 42 <-> exists n, type_name x = Ok n) /\ (42 <= x mod 64 <-> type_name x = Bad).
Proof.
  intros H. unfold type_name, at_table. change TYPE_MASK with (Z.ones 6). rewrite Z.land_ones by lia. change (2 ^ 6) with 64.
  set (i := x mod 64). assert (I : 0 <= i < 64) by (unfold i; apply Z.mod_pos_bound; lia). destruct (Z.ltb_spec i 0); [lia|].
  destruct (nth_error param_name (Z.to_nat i)) as [n|] eqn:E.
  - assert (L : (Z.to_nat i < 42)%nat) by (apply (nth_error_Some param_name); congruence). split; split; intros; try lia; [exists n; reflexivity|discriminate].
  - apply nth_error_None in E. change (length param_name) with 42%nat in E. split; split; intros X; try lia; [destruct X; discriminate|reflexivity].
Qed.
Print Assumptions C149_types_refuted.

(** C149: the type "none" is not told from a name that is not there. *)
Theorem C149_none_refuted s t : text s -> nameless param_name s -> find_data_type (s ++ 0 :: t) None = find_data_type ([110; 111; 110; 101] ++ [0]) None.
Proof.
  intros Ts N. destruct (C149_found s t None [] Ts) as (r & E & F); [discriminate|]. cbn [option_map] in E. rewrite E. destruct F as [(k & v & P & _)|[_ ->]]; [elim (N k P)|]. vm_compute. reflexivity.
Qed.
Print Assumptions C149_none_refuted.

(** "Integer" with "HEX", and a type with a unit that is not there. *)
Example C149_ex : find_data_type [73; 110; 116; 101; 103; 101; 114; 0] (Some [72; 69; 88; 0]) = Ok (2 + 16 * 2 ^ 24) /\ find_data_type [115; 105; 122; 101; 0; 9] (Some [120; 0]) = Ok 41 /\
  find_data_type [120; 0] None = Ok 0 /\ type_name (2 + 128) = Ok (Some [105; 110; 116; 101; 103; 101; 114]) /\ unit_name (2 ^ 28 + 5) = Ok (Some [104; 101; 120]) /\ text [73; 110; 116] .
Proof. repeat split; try (vm_compute; reflexivity). repeat constructor; lia. Qed.
Example C149_none_ex : text [120] /\ nameless param_name [120].
Proof.
  split; [repeat constructor; lia|]. intros i P. assert (X : find_data_type [120; 0] None = Ok 0) by reflexivity. destruct P as (H & n & E & S). inversion S as [|? y ? n' Y N]. subst. inversion N. subst.
  assert (Z : forallb (fun e => match e with Some [_] => false | _ => true end) param_name = true) by reflexivity. rewrite forallb_forall in Z. specialize (Z _ (nth_error_In _ _ E)). discriminate Z.
Qed.
