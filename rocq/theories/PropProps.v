(** C110, C111: properties of nodes. *)
From Verif Require Import Base BaseProofs Arr ArrProofs Ebml Tree NodeData Props PropsSpec PropsProofs PropsProofs2 PropsProofs3.

(** A class with data, a bit, a function and a handler, and a parent with another bit, a handler and data that is hidden. *)
Definition demo : chain :=
  [[mkE 5 (MEvent 50); mkE 3 (MData 20 8 2 (Some 9)); mkE 4 (MData 24 16 0 None); mkE 4 (MBit 2); mkE 2 (MSet 22)];
   [mkE 3 (MData 21 0 0 None); mkE 5 (MEvent 51); mkE 4 (MBit 1); mkE 6 (MData 24 16 2 None); mkE 6 (MBit 8); mkE 7 (MData 3 24 2 None)]].
Lemma demo_tidy : tidy WSet demo /\ tidy WGet demo.
Proof.
  assert (B : bits_there demo).
  { intros p l s e ofs fl u E He Em. destruct p as [|l1 [|l2 p]]; [injection E as <- <-|injection E as _ <- <-|destruct p; discriminate].
    - cbn [In] in He. repeat (destruct He as [<-|He]; [first [discriminate Em|exists (mkE 4 (MBit 2)); split; [cbn; tauto|split; [reflexivity|eexists; reflexivity]]]|]). destruct He.
    - cbn [In] in He. repeat (destruct He as [<-|He]; [first [discriminate Em|exists (mkE 6 (MBit 8)); split; [cbn; tauto|split; [reflexivity|eexists; reflexivity]]]|]). destruct He. }
  assert (P : forall w, bits_paired w demo).
  { intros w l b m [<-|[<-|[]]] _ _; [exists (mkE 4 (MData 24 16 0 None))|exists (mkE 6 (MData 24 16 2 None))]; (split; [cbn; tauto|right; reflexivity]) || idtac.
    all: exists (mkE 3 (MData 21 0 0 None)); split; [cbn; tauto|right; reflexivity]. }
  assert (A : forall w, handlers_apart w demo).
  { intros w a b f Ha Hb I Ta Tb Em. cbn [demo concat app In] in Ha, Hb.
    repeat (destruct Ha as [<-|Ha]; [first [discriminate Em|repeat (destruct Hb as [<-|Hb]; [first [discriminate I|eexists; reflexivity]|]); destruct Hb]|]). destruct Ha. }
  split; (split; [apply A|split; [exact B|apply P]]).
Qed.

(** Whatever the tables, a property is found as the nearest declaration says; handlers are all called. *)
Theorem C110_property w c id : tidy w c -> exists a, property w c id = Ok a /\ resolved w c id a.
Proof. exact (property_ok w c id). Qed.
Print Assumptions C110_property.
Example C110_property_ex : tidy WSet demo /\ property WSet demo 5 = Ok (AEvents [50; 51]) /\ property WGet demo 3 = Ok (AData 20 8 2 (Some 9) None) /\
  property WSet demo 4 = Ok (AData 24 16 0 None (Some 2)) /\ property WSet demo 6 = Ok (AData 24 16 2 None (Some 8)) /\ property WSet demo 2 = Ok (ACall 22) /\ property WGet demo 2 = Ok ANone.
Proof. split; [exact (proj1 demo_tidy)|]. repeat split; vm_compute; reflexivity. Qed.

(** What the nearest declaration says is one thing. *)
Theorem C110_one w c id a b : resolved w c id a -> resolved w c id b -> a = b.
Proof. exact (resolved_one w c id a b). Qed.
Print Assumptions C110_one.
Example C110_one_ex : resolved WSet demo 5 (AEvents [50; 51]).
Proof. destruct (C110_property WSet demo 5 (proj1 demo_tidy)) as (a & E & R). vm_compute in E. injection E as <-. exact R. Qed.

(** Declarations of other IDs play no part. *)
Theorem C110_others w c c' id : tidy w c -> tidy w c' ->
  Forall2 (fun l l' => filter (fun e => e_id e =? id) l = filter (fun e => e_id e =? id) l') c c' -> property w c id = property w c' id.
Proof.
  intros T T' F. destruct (property_ok w c id T) as (a & E & R). rewrite E. symmetry. apply property_is; [exact T'|]. 
  assert (K : filter (isid id) (concat c) = filter (isid id) (concat c')).
  { clear - F. induction F as [|l l' c c' H _ IH]; [reflexivity|]. cbn [concat]. rewrite !filter_app. f_equal; [exact H|exact IH]. }
  assert (N : forall (P : entry -> Prop) e, (forall x, P x -> e_id x = id) -> nearest P c e -> nearest P c' e).
  { intros P e HP (p & s & Ec & He & Hp). rewrite Ec, filter_app in K. cbn [filter] in K. replace (isid id e) with true in K by (symmetry; unfold isid; specialize (HP e He); lia).
    assert (G : forall l f g, filter (isid id) l = f ++ e :: g -> Forall (fun x => ~ P x) f -> exists p s, l = p ++ e :: s /\ Forall (fun x => ~ P x) p).
    { induction l as [|x l IH]; intros f g Q Hf; cbn [filter] in Q; [destruct f; discriminate|]. destruct (isid id x) eqn:X.
      - destruct f as [|y f]; injection Q as -> Q; [exists [], l; split; [reflexivity|constructor]|]. apply Forall_cons_iff in Hf. destruct Hf as [Hy Hf]. destruct (IH f g Q Hf) as (p1 & s1 & -> & H1). exists (y :: p1), s1. split; [reflexivity|]. constructor; assumption.
      - destruct (IH f g Q Hf) as (p1 & s1 & -> & H1). exists (x :: p1), s1. split; [reflexivity|]. constructor; [|exact H1]. intros Px. specialize (HP x Px). unfold isid in X. lia. }
    destruct (G (concat c') (filter (isid id) p) (filter (isid id) s) (eq_sym K)) as (p1 & s1 & E1 & H1); [apply Forall_forall; intros x Hx; apply filter_In in Hx; rewrite Forall_forall in Hp; apply Hp; tauto|].
    exists p1, s1. auto. }
  assert (H0 : forall l, handlers id l = handlers id (filter (isid id) l)).
  { induction l as [|[i m] l IH]; [reflexivity|]. cbn [filter]. unfold isid at 1. cbn [e_id]. destruct (Z.eqb_spec i id) as [Q|Q].
    - destruct m; cbn [handlers]; try exact IH. destruct (Z.eq_dec i id); [f_equal|]; exact IH.
    - destruct m; cbn [handlers]; try exact IH. destruct (Z.eq_dec i id); [contradiction|exact IH]. }
  assert (A1 : forall x, about w id x -> e_id x = id) by (intros x [? _]; assumption). assert (B1 : forall x, bit_of id x -> e_id x = id) by (intros x [? _]; assumption).
  destruct R as [H|e f Ne I|e f Ne I|e ty ofs fl u Ne I Ty|e ofs fl u b m Ne I Nb Ib].
  - apply R_none. apply Forall_forall. intros x Hx Ax. rewrite Forall_forall in H. apply (H x); [|exact Ax]. assert (Q : In x (filter (isid id) (concat c'))) by (apply filter_In; split; [exact Hx|unfold isid; destruct Ax; lia]).
    rewrite <- K in Q. apply filter_In in Q. tauto.
  - apply (R_call w c' id e f); [apply N; assumption|exact I].
  - rewrite H0, K, <- H0. apply (R_events w c' id e f); [apply N; assumption|exact I].
  - apply (R_data w c' id e ty ofs fl u); [apply N; assumption|exact I|exact Ty].
  - apply (R_bit w c' id e ofs fl u b m); [apply N; assumption|exact I|apply N; assumption|exact Ib].
Qed.
Print Assumptions C110_others.
Example C110_others_ex : property WSet demo 4 = property WSet [[mkE 4 (MData 24 16 0 None); mkE 4 (MBit 2)]; [mkE 9 (MSet 1); mkE 4 (MBit 1)]] 4.
Proof. vm_compute. reflexivity. Qed.

(** Without handlers kept apart the answer depends on declarations of other IDs: a function is called, or taken for a
    handler. *)
Theorem C110_mixed_refuted : exists c c' id,
  Forall2 (fun l l' => filter (fun e => e_id e =? id) l = filter (fun e => e_id e =? id) l') c c' /\
  property WSet c id = Ok (ACall 7) /\ property WSet c' id = Bad.
Proof.
  exists [[mkE 5 (MSet 7)]; [mkE 5 (MEvent 8)]], [[mkE 5 (MSet 7); mkE 6 (MSet 9)]; [mkE 5 (MEvent 8)]], 5.
  split; [repeat constructor|]. split; vm_compute; reflexivity.
Qed.
Print Assumptions C110_mixed_refuted.

(** A bit declared again, alone, in a derived class is not used, unless the class declares anything else. *)
Theorem C110_bit_refuted : exists c c' id,
  Forall2 (fun l l' => filter (fun e => e_id e =? id) l = filter (fun e => e_id e =? id) l') c c' /\
  property WGet c id = Ok (AData 24 0 0 None (Some 1)) /\ property WGet c' id = Ok (AData 24 0 0 None (Some 4)) /\ resolved WGet c id (AData 24 0 0 None (Some 4)).
Proof.
  exists [[mkE 5 (MBit 4)]; [mkE 5 (MData 24 0 0 None); mkE 5 (MBit 1)]], [[mkE 5 (MBit 4); mkE 6 (MGet 9)]; [mkE 5 (MData 24 0 0 None); mkE 5 (MBit 1)]], 5.
  split; [repeat constructor|]. split; [vm_compute; reflexivity|]. split; [vm_compute; reflexivity|].
  apply (R_bit _ _ _ (mkE 5 (MData 24 0 0 None)) 0 0 None (mkE 5 (MBit 4)) 4); [|reflexivity| |reflexivity].
  - exists [mkE 5 (MBit 4)], [mkE 5 (MBit 1)]. split; [reflexivity|]. split; [split; [reflexivity|left; reflexivity]|]. constructor; [intros [_ []]|constructor].
  - exists [], [mkE 5 (MData 24 0 0 None); mkE 5 (MBit 1)]. split; [reflexivity|]. split; [split; [reflexivity|eexists; reflexivity]|constructor].
Qed.
Print Assumptions C110_bit_refuted.

(** ** C111 *)
(** What is set is read back, nothing else in the object changes, and only the update function can report an error. *)
Theorem C111_set_get ms ue c id e ty ofs fl u n o v : tidy WGet c -> tidy WSet c -> keeps c id e -> e_meta e = MData ty ofs fl u -> Z.testbit fl 0 = false ->
  ~ In ty [3; 4; 23; 24; 30; 31; 32] -> max_data_size ms id ty = Some n -> zlen v = n -> 0 <= ofs -> ofs + n <= zlen o ->
  exists err o', set_prop ms ue WSet c o id (Some v) = Ok (err, o') /\ get_prop ms c o' id n = Ok (0, v) /\
    zlen o' = zlen o /\ (forall j, j < ofs \/ ofs + n <= j -> aget o' j = aget o j) /\ (o' <> o -> err = match u with Some f => ue f | None => 0 end) /\ (o' = o -> err = 0 \/ exists f, u = Some f /\ err = ue f).
Proof.
  intros TG TS K Em B NS Hm Hv H1 H2. destruct (keeps_both c id e ty ofs fl u K Em B) as [NG NT]. cbn [In] in NS.
  assert (S0 : special ty = false) by (unfold special, T_STRING, T_NODE_REF, T_EXPRSTRING, T_EXPRPARAM; cbn [existsb]; lia). pose proof (zlen_nonneg v).
  unfold set_prop, get_prop. rewrite (property_is WGet c id (AData ty ofs fl u None) TG) by (apply (R_data _ _ _ e); [exact NG|exact Em|lia]).
  rewrite (property_is WSet c id (AData ty ofs fl u None) TS) by (apply (R_data _ _ _ e); [exact NT|exact Em|lia]). cbn [bind].
  destruct (set_plain ms ue o id ty ofs fl u n (Some v) S0 Hm ltac:(lia) H1 H2) as [(now & El & Ln & Eq & ->)|[_ ->]]; [intros ? [= <-]; exact Hv| |].
  - exists 0, o. split; [reflexivity|]. rewrite (get_plain ms o id ty ofs n S0 Hm), El. cbn [bind]. assert (Q3 : ty <> 3) by (clear - NS; intros ->; apply NS; left; reflexivity). apply (eq_data_exact ms ue ty now v Q3) in Eq. subst now. split; [reflexivity|]. split; [reflexivity|]. split; [reflexivity|]. split; [intros Q; contradiction Q; reflexivity|left; reflexivity].
  - exists (upd_of ue u), (wr o ofs v). split; [reflexivity|]. rewrite (get_plain ms _ id ty ofs n S0 Hm). rewrite <- Hv at 1. rewrite load_wr by lia. cbn [bind]. split; [reflexivity|].
    split; [apply wr_len; lia|]. split; [intros j Hj; apply wr_out; lia|]. unfold upd_of. split; [reflexivity|]. intros _. destruct u as [f|]; [right; exists f; auto|left; reflexivity].
Qed.
Print Assumptions C111_set_get.
Lemma demo_keeps : keeps demo 3 (mkE 3 (MData 20 8 2 (Some 9))) /\ keeps demo 4 (mkE 4 (MData 24 16 0 None)) /\ keeps demo 7 (mkE 7 (MData 3 24 2 None)).
Proof.
  split; [|split].
  - exists [mkE 5 (MEvent 50)]. eexists. split; [reflexivity|]. split; [left; split; [reflexivity|left; reflexivity]|]. repeat (constructor; [intros [[Q _]|[Q _]]; discriminate Q|]). constructor.
  - exists [mkE 5 (MEvent 50); mkE 3 (MData 20 8 2 (Some 9))]. eexists. split; [reflexivity|]. split; [left; split; [reflexivity|left; reflexivity]|]. repeat (constructor; [intros [[Q _]|[Q _]]; discriminate Q|]). constructor.
  - exists (removelast (concat demo)). exists []. split; [reflexivity|]. split; [left; split; [reflexivity|left; reflexivity]|]. repeat (constructor; [intros [[Q _]|[Q _]]; discriminate Q|]). constructor.
Qed.
Example C111_set_get_ex : set_prop (fun _ => 0) (fun _ => -1) WSet demo (repeat 5 40) 3 (Some [1; 2; 3; 4]) = Ok (-1, repeat 5 8 ++ [1; 2; 3; 4] ++ repeat 5 28) /\
  get_prop (fun _ => 0) demo (repeat 5 8 ++ [1; 2; 3; 4] ++ repeat 5 28) 3 4 = Ok (0, [1; 2; 3; 4]) /\ keeps demo 3 (mkE 3 (MData 20 8 2 (Some 9))) /\ tidy WGet demo /\ tidy WSet demo.
Proof. split; [vm_compute; reflexivity|]. split; [vm_compute; reflexivity|]. split; [exact (proj1 demo_keeps)|]. destruct demo_tidy; auto. Qed.

(** A boolean kept in a bit is read back. *)
Theorem C111_bits ms ue c id e ofs fl u b m o v : tidy WGet c -> tidy WSet c -> keeps c id e -> e_meta e = MData 24 ofs fl u -> Z.testbit fl 0 = false ->
  nearest (bit_of id) c b -> e_meta b = MBit m -> 0 < m < 2 ^ 32 -> byte_list o -> zlen v = 8 -> 0 <= ofs -> ofs + 4 <= zlen o ->
  exists err o' r, set_prop ms ue WSet c o id (Some v) = Ok (err, o') /\ get_prop ms c o' id 8 = Ok (0, r) /\ zlen o' = zlen o /\
    (le_ptr r = 1 /\ (exists x, In x v /\ x <> 0) \/ le_ptr r = 0 /\ Forall (fun x => x = 0) v) /\ (forall j, j < ofs \/ ofs + 4 <= j -> aget o' j = aget o j).
Proof.
  intros TG TS K Em B Nb Ib Hm Ho Hv H1 H2. destruct (keeps_both c id e 24 ofs fl u K Em B) as [NG NT].
  unfold set_prop, get_prop. rewrite (property_is WGet c id (AData 24 ofs fl u (Some m)) TG) by (apply (R_bit _ _ _ e _ _ _ b); assumption).
  rewrite (property_is WSet c id (AData 24 ofs fl u (Some m)) TS) by (apply (R_bit _ _ _ e _ _ _ b); assumption). cbn [bind].
  assert (V : forall x, x = negb (all_zero v) -> le_ptr (bool_bytes x) = 1 /\ (exists x, In x v /\ x <> 0) \/ le_ptr (bool_bytes x) = 0 /\ Forall (fun x => x = 0) v).
  { intros x ->. destruct (all_zero v) eqn:A; cbn [negb].
    - right. split; [reflexivity|]. apply Forall_forall. intros y Hy. unfold all_zero in A. rewrite forallb_forall in A. specialize (A y Hy). lia.
    - left. split; [reflexivity|]. clear - A. induction v as [|y v IH]; [discriminate|]. unfold all_zero in A. cbn [forallb] in A. destruct (Z.eqb_spec y 0) as [Q|Q]; [destruct (IH A) as (z & Hz & Nz); exists z; split; [right; exact Hz|exact Nz]|exists y; split; [left; reflexivity|exact Q]]. }
  destruct (set_bit ms ue o id ofs fl u m (Some v) Ho ltac:(lia) H1 H2) as (w & El & Bw & [[On ->]|(w' & -> & Lw & Ew)]); [intros ? [= <-]; exact Hv| |].
  - exists 0, o. eexists. split; [reflexivity|]. rewrite get_bit, El. cbn [bind]. split; [reflexivity|]. split; [reflexivity|]. split; [apply V; exact On|reflexivity].
  - exists (upd_of ue u), (wr o ofs w'). eexists. split; [reflexivity|]. rewrite get_bit. rewrite <- Lw at 1. rewrite load_wr by lia. cbn [bind]. split; [reflexivity|]. split; [apply wr_len; lia|].
    split; [|intros j Hj; apply wr_out; lia]. apply V. rewrite Ew. destruct (negb (all_zero v)).
    + pose proof (or_has (le_ptr w) m ltac:(lia)). replace (Z.land (Z.lor (le_ptr w) m) m =? 0) with false by lia. reflexivity.
    + rewrite clear_has. reflexivity.
Qed.
Print Assumptions C111_bits.
Example C111_bits_ex : set_prop (fun _ => 0) (fun _ => -1) WSet demo (repeat 5 40) 4 (Some (bool_bytes true)) = Ok (0, repeat 5 16 ++ [7] ++ repeat 5 23) /\
  get_prop (fun _ => 0) demo (repeat 5 16 ++ [7] ++ repeat 5 23) 4 8 = Ok (0, bool_bytes true) /\ keeps demo 4 (mkE 4 (MData 24 16 0 None)).
Proof. split; [vm_compute; reflexivity|]. split; [vm_compute; reflexivity|]. exact (proj1 (proj2 demo_keeps)). Qed.

(** Setting without data stores zeros. *)
Theorem C111_null ms ue c id e ty ofs fl u n o : (forall i, 0 <= ms i) -> tidy WGet c -> tidy WSet c -> keeps c id e -> e_meta e = MData ty ofs fl u -> Z.testbit fl 0 = false ->
  ~ In ty [4; 23; 24; 30; 31; 32] -> max_data_size ms id ty = Some n -> 0 <= ofs -> ofs + n <= zlen o ->
  exists err o' r, set_prop ms ue WSet c o id None = Ok (err, o') /\ get_prop ms c o' id n = Ok (0, r) /\ zlen r = n /\ Forall (fun x => x = 0) r.
Proof.
  intros Hms TG TS K Em B NS Hm H1 H2. destruct (keeps_both c id e ty ofs fl u K Em B) as [NG NT]. cbn [In] in NS. pose proof (mds_nonneg ms ue id ty n Hms Hm) as Hn.
  assert (S0 : special ty = false) by (unfold special, T_STRING, T_NODE_REF, T_EXPRSTRING, T_EXPRPARAM; cbn [existsb]; lia).
  unfold set_prop, get_prop. rewrite (property_is WGet c id (AData ty ofs fl u None) TG) by (apply (R_data _ _ _ e); [exact NG|exact Em|lia]).
  rewrite (property_is WSet c id (AData ty ofs fl u None) TS) by (apply (R_data _ _ _ e); [exact NT|exact Em|lia]). cbn [bind].
  destruct (set_plain ms ue o id ty ofs fl u n None S0 Hm Hn H1 H2) as [(now & El & Ln & Eq & ->)|[Lv ->]]; [intros ? [=]| |].
  - exists 0, o, now. split; [reflexivity|]. rewrite (get_plain ms o id ty ofs n S0 Hm), El. cbn [bind]. split; [reflexivity|]. split; [exact Ln|]. cbn [eq_data] in Eq. apply Forall_forall. intros x Hx. unfold all_zero in Eq. rewrite forallb_forall in Eq. specialize (Eq x Hx). lia.
  - exists (upd_of ue u). eexists. exists (repeat 0 (Z.to_nat n)). split; [reflexivity|]. rewrite (get_plain ms _ id ty ofs n S0 Hm). rewrite <- Lv at 2. rewrite load_wr by lia. cbn [bind]. split; [reflexivity|]. split; [exact Lv|]. apply Forall_forall. intros x Hx. apply repeat_spec in Hx. exact Hx.
Qed.
Print Assumptions C111_null.
Example C111_null_ex : set_prop (fun _ => 0) (fun _ => 0) WSet demo (repeat 5 40) 7 None = Ok (0, repeat 5 24 ++ repeat 0 16) /\ keeps demo 7 (mkE 7 (MData 3 24 2 None)).
Proof. split; [vm_compute; reflexivity|]. exact (proj2 (proj2 demo_keeps)). Qed.

(** Other properties keep their value: their data lies elsewhere, or in other bits of the same word. *)
Theorem C111_others ms ue w c id id' ty ofs fl u mask n ty' ofs' fl' u' mask' n' o d err o' size :
  tidy w c -> tidy WGet c -> (forall i, 0 <= ms i) -> byte_list o -> (forall m, mask = Some m -> 0 <= m < 2 ^ 32) ->
  resolved w c id (AData ty ofs fl u mask) -> resolved WGet c id' (AData ty' ofs' fl' u' mask') ->
  max_data_size ms id ty = Some n -> max_data_size ms id' ty' = Some n' ->
  apart ofs (match mask with Some _ => 4 | None => n end) mask ofs' (match mask' with Some _ => 4 | None => n' end) mask' ->
  set_prop ms ue w c o id d = Ok (err, o') -> get_prop ms c o' id' size = get_prop ms c o id' size.
Proof.
  intros TS TG Hms Ho Hmask RS RG Hn Hn' AP. unfold set_prop, get_prop. rewrite (property_is w c id _ TS RS), (property_is WGet c id' _ TG RG). cbn [bind]. intros E.
  pose proof (mds_nonneg ms ue id ty n Hms Hn) as N0. pose proof (mds_nonneg ms ue id' ty' n' Hms Hn') as N0'.
  destruct (set_effect ms ue o id ty ofs fl u mask d err o' Ho Hmask E) as [->|(k & -> & H1 & H2 & Hk)]; [reflexivity|].
  assert (LK : zlen k = match mask with Some _ => 4 | None => n end).
  { destruct mask as [m|]; [exact (proj1 Hk)|]. rewrite Hn in Hk. destruct Hk as [Hk|(_ & n0 & Hk & Q & _)]; [congruence|assert (n = n0) by congruence; lia]. }
  assert (L : forall k', 0 <= k' -> (ofs + zlen k <= ofs' \/ ofs' + k' <= ofs) -> load (wr o ofs k) ofs' k' = load o ofs' k').
  { intros k' Hk' Q. apply load_ext; [apply wr_len; lia| |exact Hk']. intros i Hi. apply wr_out; lia. }
  unfold get_value. destruct (special ty'); [reflexivity|]. rewrite Hn'. cbn [opt_res bind].
  inversion AP as [ofs1 k1 m1 ofs2 k2 m2 Q A1 A2 A3 A4 A5 A6|ofs1 k1 m1 k2 m2 Q A1 A2 A3 A4 A5 A6].
  - rewrite <- LK in Q. destruct mask' as [m'|]; [rewrite (L 4 ltac:(lia) Q); reflexivity|rewrite (L n' N0' Q); reflexivity].
  - rewrite <- A3, <- A6 in *. destruct Hk as (L4 & x & Ex & Ey). rewrite <- L4 at 1. rewrite load_wr by lia. rewrite A4 in Ex. rewrite <- A4 in *. rewrite Ex. cbn [bind].
    destruct (negb (size =? 8)); [reflexivity|]. do 4 f_equal. destruct Ey as [-> | ->]; [rewrite or_other by exact Q|rewrite clear_other by exact Q]; reflexivity.
Qed.
Print Assumptions C111_others.
Example C111_others_ex : apart 16 4 (Some 2) 16 4 (Some 8) /\ apart 8 4 None 16 4 (Some 8) /\ resolved WSet demo 4 (AData 24 16 0 None (Some 2)) /\ resolved WGet demo 6 (AData 24 16 2 None (Some 8)).
Proof.
  split; [apply ap_bits; reflexivity|]. split; [apply ap_bytes; lia|]. split.
  - destruct (C110_property WSet demo 4 (proj1 demo_tidy)) as (a & E & R). vm_compute in E. injection E as <-. exact R.
  - destruct (C110_property WGet demo 6 (proj2 demo_tidy)) as (a & E & R). vm_compute in E. injection E as <-. exact R.
Qed.

(** Data of another size is refused, and so is what cannot be set; the object does not change. *)
Theorem C111_refused ms ue w c id o d : tidy w c ->
  (forall ty ofs fl u mask n v, resolved w c id (AData ty ofs fl u mask) -> ~ In ty [4; 23; 30; 31; 32] -> max_data_size ms id ty = Some n -> d = Some v -> zlen v <> n -> set_prop ms ue w c o id d = Ok (-3, o)) /\
  (Forall (fun e => ~ about w id e) (concat c) -> set_prop ms ue w c o id d = Ok (-4, o)).
Proof.
  intros T. split.
  - intros ty ofs fl u mask n v R NS Hm -> Hv. unfold set_prop. rewrite (property_is w c id _ T R). cbn [bind In] in *. unfold set_value.
    replace (special ty) with false by (unfold special, T_STRING, T_NODE_REF, T_EXPRSTRING, T_EXPRPARAM; cbn [existsb]; lia). rewrite Hm. cbn [opt_res bind]. replace (zlen v =? n) with false by lia. reflexivity.
  - intros N. unfold set_prop. rewrite (property_is w c id ANone T) by (apply R_none; exact N). reflexivity.
Qed.
Print Assumptions C111_refused.
Example C111_refused_ex : set_prop (fun _ => 0) (fun _ => 0) WSet demo (repeat 5 40) 3 (Some [1]) = Ok (-3, repeat 5 40) /\ set_prop (fun _ => 0) (fun _ => 0) WSet demo (repeat 5 40) 99 (Some [1]) = Ok (-4, repeat 5 40).
Proof. split; vm_compute; reflexivity. Qed.

(** The update function is called, unless comparison is asked for and the data is already there. *)
Theorem C111_update ms ue c id e ty ofs fl f n o v : tidy WGet c -> tidy WSet c -> keeps c id e -> e_meta e = MData ty ofs fl (Some f) -> Z.testbit fl 0 = false ->
  ~ In ty [3; 4; 23; 24; 30; 31; 32] -> max_data_size ms id ty = Some n -> zlen v = n -> 0 <= ofs -> ofs + n <= zlen o ->
  exists err o', set_prop ms ue WSet c o id (Some v) = Ok (err, o') /\
    (Z.testbit fl 1 = true /\ get_prop ms c o id n = Ok (0, v) -> err = 0 /\ o' = o) /\ (Z.testbit fl 1 = false \/ get_prop ms c o id n <> Ok (0, v) -> err = ue f).
Proof.
  intros TG TS K Em B NS Hm Hv H1 H2. destruct (keeps_both c id e ty ofs fl (Some f) K Em B) as [NG NT]. cbn [In] in NS.
  assert (S0 : special ty = false) by (unfold special, T_STRING, T_NODE_REF, T_EXPRSTRING, T_EXPRPARAM; cbn [existsb]; lia). pose proof (zlen_nonneg v).
  unfold set_prop, get_prop. rewrite (property_is WGet c id (AData ty ofs fl (Some f) None) TG) by (apply (R_data _ _ _ e); [exact NG|exact Em|lia]).
  rewrite (property_is WSet c id (AData ty ofs fl (Some f) None) TS) by (apply (R_data _ _ _ e); [exact NT|exact Em|lia]). cbn [bind].
  rewrite (get_plain ms o id ty ofs n S0 Hm). unfold set_value. rewrite S0, Hm. cbn [opt_res bind]. rewrite Hv, Z.eqb_refl. cbn [negb].
  destruct (load_ok o ofs n H1 ltac:(lia) H2) as (now & -> & L & _). cbn [bind].
  assert (C : (Z.land fl DFLAG_CMP =? 0) = negb (Z.testbit fl 1)).
  { unfold DFLAG_CMP. destruct (Z.testbit fl 1) eqn:T; cbn [negb].
    - apply Z.eqb_neq. intros Q. assert (X : Z.testbit (Z.land fl 2) 1 = true) by (rewrite Z.land_spec, T; reflexivity). rewrite Q in X. discriminate.
    - apply Z.eqb_eq. apply Z.bits_inj'. intros i Hi. rewrite Z.land_spec, Z.testbit_0_l. destruct (Z.eq_dec i 1) as [->|N]; [rewrite T; reflexivity|]. change 2 with (2 ^ 1). rewrite (Z.pow2_bits_false 1 i) by lia. apply andb_false_r. }
  rewrite C, negb_involutive. destruct (Z.testbit fl 1 && eq_data ty now (Some v)) eqn:X.
  - apply andb_true_iff in X. destruct X as [X1 X2]. assert (Q3 : ty <> 3) by lia. apply (eq_data_exact ms ue ty now v Q3) in X2. subst now. exists 0, o. split; [reflexivity|]. split; [auto|]. intros [Q|Q]; [congruence|contradiction Q; reflexivity].
  - rewrite store_wr by lia. cbn [bind]. exists (ue f), (wr o ofs v). split; [reflexivity|]. split; [|reflexivity]. intros [Q1 Q2]. exfalso. injection Q2 as ->. rewrite Q1 in X. cbn [andb eq_data] in X. replace (ty =? 3) with false in X by lia. destruct (list_eq_dec Z.eq_dec v v); [discriminate|contradiction].
Qed.
Print Assumptions C111_update.
Example C111_update_ex : set_prop (fun _ => 0) (fun _ => -1) WSet demo (repeat 5 40) 3 (Some [5; 5; 5; 5]) = Ok (0, repeat 5 40) /\ set_prop (fun _ => 0) (fun _ => -1) WSet demo (repeat 5 40) 3 (Some [5; 5; 5; 6]) = Ok (-1, repeat 5 11 ++ [6] ++ repeat 5 28).
Proof. split; vm_compute; reflexivity. Qed.

(** Reading with another size, or what cannot be read, is refused. *)
Theorem C111_read_refused ms c id o size : tidy WGet c ->
  (forall ty ofs fl u mask n, resolved WGet c id (AData ty ofs fl u mask) -> ~ In ty [4; 23; 30; 31; 32] -> max_data_size ms id ty = Some n -> size <> n -> get_prop ms c o id size = Ok (-3, [])) /\
  (Forall (fun e => ~ about WGet id e) (concat c) -> get_prop ms c o id size = Ok (-4, [])).
Proof.
  intros T. split.
  - intros ty ofs fl u mask n R NS Hm Hs. unfold get_prop. rewrite (property_is WGet c id _ T R). cbn [bind In] in *. unfold get_value.
    replace (special ty) with false by (unfold special, T_STRING, T_NODE_REF, T_EXPRSTRING, T_EXPRPARAM; cbn [existsb]; lia). destruct mask as [m|].
    + inversion R; subst. rewrite mds24 in Hm. injection Hm as <-. replace (size =? 8) with false by lia. reflexivity.
    + rewrite Hm. cbn [opt_res bind]. replace (n =? size) with false by lia. reflexivity.
  - intros N. unfold get_prop. rewrite (property_is WGet c id ANone T) by (apply R_none; exact N). reflexivity.
Qed.
Print Assumptions C111_read_refused.
Example C111_read_refused_ex : get_prop (fun _ => 0) demo (repeat 5 40) 4 4 = Ok (-3, []) /\ get_prop (fun _ => 0) demo (repeat 5 40) 2 4 = Ok (-4, []).
Proof. split; vm_compute; reflexivity. Qed.

(** A fraction of the same value but written another way is not stored, when it is compared first. *)
Theorem C111_fraction_refuted : exists c id o v, tidy WGet c /\ tidy WSet c /\ zlen v = 16 /\
  set_prop (fun _ => 0) (fun _ => 0) WSet c o id (Some v) = Ok (0, o) /\ get_prop (fun _ => 0) c o id 16 <> Ok (0, v).
Proof.
  exists demo, 7, (repeat 0 24 ++ le_bytes 8 1 ++ le_bytes 8 2), (le_bytes 8 2 ++ le_bytes 8 4). split; [exact (proj2 demo_tidy)|]. split; [exact (proj1 demo_tidy)|]. split; [reflexivity|]. split; [vm_compute; reflexivity|vm_compute; discriminate].
Qed.
Print Assumptions C111_fraction_refuted.

(** A class cannot make data of its parent read-only: setting goes to the declaration of the parent. *)
Theorem C111_readonly_refuted : exists c id o v o', tidy WGet c /\ tidy WSet c /\ nearest (about WGet id) c (mkE id (MData 20 0 DFLAG_RDONLY None)) /\
  set_prop (fun _ => 0) (fun _ => 0) WSet c o id (Some v) = Ok (0, o') /\ get_prop (fun _ => 0) c o' id 4 = Ok (0, v) /\ get_prop (fun _ => 0) c o id 4 <> Ok (0, v).
Proof.
  set (c := [[mkE 3 (MData 20 0 DFLAG_RDONLY None)]; [mkE 3 (MData 20 0 0 None)]]). exists c, 3, (repeat 0 8), [1; 2; 3; 4], ([1; 2; 3; 4] ++ repeat 0 4).
  assert (T : forall w, tidy w c).
  { intros w. split; [|split].
    - intros a b f Ha _ _ _ _ Em. cbn [c concat app In] in Ha. destruct Ha as [<-|[<-|[]]]; discriminate Em.
    - intros p l s e ofs fl u E He Em. exfalso. assert (Q : In l c) by (rewrite E; apply in_elt). destruct Q as [<-|[<-|[]]]; destruct He as [<-|[]]; discriminate Em.
    - intros l b m [<-|[<-|[]]] [<-|[]] Em; discriminate Em. }
  split; [apply T|]. split; [apply T|]. split; [exists [], [mkE 3 (MData 20 0 0 None)]; split; [reflexivity|]; split; [split; [reflexivity|left; reflexivity]|constructor]|].
  split; [vm_compute; reflexivity|]. split; [vm_compute; reflexivity|vm_compute; discriminate].
Qed.
Print Assumptions C111_readonly_refuted.
