From Coq Require Import String Ascii.
From Verif Require Import Base BaseProofs Tree Str StrSpec StrProofs StrProofs2 Scan Path MkArgs MkArgsSpec.

Lemma same_ok a b : text a -> text b -> (same a b = true <-> same_text a b).
Proof.
  intros Ha Hb. unfold same. destruct (icmp_gen a b [] [] Ha Hb) as (r & _ & S & E). rewrite E.
  rewrite <- (order_eq a b Ha Hb). red in S. rewrite <- S, Z.eqb_eq. split; [intros ->; reflexivity|apply Z.compare_eq].
Qed.
Lemma same_trans a b c : same_text a b -> same_text b c -> same_text a c.
Proof.
  intros H. revert c. induction H as [|x y a b H H' IH]; intros c K; inversion K; subst; constructor; [|apply IH; assumption].
  unfold same_letter in *. lia.
Qed.
Lemma same_cong p x y : text p -> text x -> text y -> same_text p x -> same p y = same x y.
Proof.
  intros Hp Hx Hy H. apply eq_true_iff_eq. rewrite (same_ok p y Hp Hy), (same_ok x y Hx Hy). split; intros K.
  - exact (same_trans _ _ _ (same_text_sym _ _ H) K).
  - exact (same_trans _ _ _ H K).
Qed.
Lemma text_dec (l : list Z) : forallb (fun b => (0 <? b) && (b <? 256)) l = true -> text l.
Proof. intros H. apply Forall_forall. intros x Hx. rewrite forallb_forall in H. specialize (H x Hx). apply andb_true_iff in H. lia. Qed.
Ltac txtd := apply text_dec; vm_compute; reflexivity.

Lemma flag_cong p x : text p -> text x -> same_text p x -> flag p = flag x.
Proof. intros Hp Hx H. unfold flag. rewrite !(fun y Hy => same_cong p x y Hp Hx Hy H) by txtd. reflexivity. Qed.
Lemma value_cong p x v s : text p -> text x -> same_text p x -> value p v s = value x v s.
Proof. intros Hp Hx H. unfold value. rewrite !(fun y Hy => same_cong p x y Hp Hx Hy H) by txtd. reflexivity. Qed.

Lemma cut_fit full a : zlen a < full -> cut full a = a.
Proof. intros H. unfold cut. apply firstn_all2. unfold zlen in H. lia. Qed.

Lemma names_text n : In n (alone_names ++ value_names) -> text (txt n).
Proof. intros H. cbn [alone_names value_names app In] in H. repeat (destruct H as [<-|H]; [txtd|]). destruct H. Qed.

Definition apply (i : item) (s : settings) : res settings :=
  match i with
  | Alone n => match flag n with Some f => Ok (f s) | None => Bad end
  | With n v => match value n v s with Some (Ok (Some s)) => Ok s | _ => Bad end
  end.

Lemma same_false a b : text a -> text b -> ~ same_text a b -> same a b = false.
Proof. intros Ha Hb H. destruct (same a b) eqn:E; [|reflexivity]. elim H. apply (same_ok a b Ha Hb). exact E. Qed.
Lemma no_flag_none p : text p -> no_flag p -> flag p = None.
Proof.
  intros Hp H. unfold flag.
  rewrite (same_false p N_KEEP), (same_false p N_REMUX), (same_false p N_LIVE), (same_false p N_UNSAFE), (same_false p N_OPT),
    (same_false p N_OPTNV), (same_false p N_REGR), (same_false p N_NOOPT), (same_false p N_QUIET), (same_false p N_VERSION), (same_false p N_HELP);
    [reflexivity|..]; try exact Hp; try txtd; intros K.
  1: apply (H "--help"%string); [cbn; tauto|exact K].
  1: apply (H "--version"%string); [cbn; tauto|exact K].
  1: apply (H "--quiet"%string); [cbn; tauto|exact K].
  1: apply (H "--no-optimize"%string); [cbn; tauto|exact K].
  1: apply (H "--regression"%string); [cbn; tauto|exact K].
  1: apply (H "--optimize_nv"%string); [cbn; tauto|exact K].
  1: apply (H "--optimize"%string); [cbn; tauto|exact K].
  1: apply (H "--unsafe"%string); [cbn; tauto|exact K].
  1: apply (H "--live"%string); [cbn; tauto|exact K].
  1: apply (H "--remux"%string); [cbn; tauto|exact K].
  1: apply (H "--keep-cues"%string); [cbn; tauto|exact K].
Qed.
Lemma no_option_none p v s : text p -> no_option p -> value p v s = None.
Proof.
  intros Hp H. unfold value. rewrite (same_false p N_DOCTYPE), (same_false p N_SCALE), (same_false p N_ALT), (same_false p N_COMP);
    [reflexivity|..]; try exact Hp; try txtd; intros K.
  1: apply (H "--compalgo"%string); [cbn; tauto|exact K].
  1: apply (H "--alt-3d"%string); [cbn; tauto|exact K].
  1: apply (H "--timecodescale"%string); [cbn; tauto|exact K].
  1: apply (H "--doctype"%string); [cbn; tauto|exact K].
Qed.
Lemma no_option_flag p : no_option p -> no_flag p.
Proof. intros H n Hn. apply H. apply in_or_app. left. exact Hn. Qed.

Lemma given_snoc n l i : given n (l ++ [i]) <-> given n l \/ named n i.
Proof.
  split.
  - intros (j & Hj & N). apply in_app_or in Hj. destruct Hj as [Hj|[->|[]]]; [left; exists j; auto|right; exact N].
  - intros [(j & Hj & N)|N]; [exists j; split; [apply in_or_app; left; exact Hj|exact N]|].
    exists i. split; [apply in_or_app; right; left; reflexivity|exact N].
Qed.
Lemma given_nil n : ~ given n [].
Proof. intros (j & [] & _). Qed.
Lemma named_c i m n : text (name_of i) -> In m (alone_names ++ value_names) -> In n (alone_names ++ value_names) -> same_text (name_of i) (txt m) ->
  (named n i <-> same (txt m) (txt n) = true).
Proof.
  intros Ht Hm Hn H. pose proof (names_text m Hm) as Tm. pose proof (names_text n Hn) as Tn. unfold named.
  rewrite <- (same_ok _ _ Ht Tn), (same_cong _ _ _ Ht Tm Tn H). reflexivity.
Qed.
Lemma snoc_cases {A} (l a b : list A) x y : l ++ [x] = a ++ y :: b -> (b = [] /\ a = l /\ y = x) \/ exists b', b = b' ++ [x] /\ l = a ++ y :: b'.
Proof.
  intros E. destruct b as [|z b0].
  - left. apply app_inj_tail in E. destruct E as [-> ->]. auto.
  - right. destruct (@exists_last _ (z :: b0)) as (b' & w & Eb); [discriminate|]. rewrite Eb in *.
    rewrite app_comm_cons, app_assoc in E. apply app_inj_tail in E. destruct E as [-> ->]. exists b'. auto.
Qed.
Lemma last_snoc n l i v : last_given n (l ++ [i]) v <-> (exists m, i = With m v /\ same_text m (txt n)) \/ (~ named n i /\ last_given n l v).
Proof.
  split.
  - intros (a & m & b & E & S & G). destruct (snoc_cases _ _ _ _ _ E) as [(-> & -> & <-)|(b' & -> & ->)].
    + left. exists m. auto.
    + right. rewrite given_snoc in G. split; [tauto|]. exists a, m, b'. tauto.
  - intros [(m & -> & S)|(N & a & m & b & -> & S & G)].
    + exists l, m, []. split; [reflexivity|]. split; [exact S|apply given_nil].
    + exists a, m, (b ++ [i]). split; [rewrite <- app_assoc; reflexivity|]. split; [exact S|]. rewrite given_snoc. tauto.
Qed.
Definition nv_last (l : list item) : Prop := exists a i b, l = a ++ i :: b /\ named "--optimize_nv" i /\ ~ given "--optimize" b.
Lemma nv_snoc l x : nv_last (l ++ [x]) <-> named "--optimize_nv" x \/ (~ named "--optimize" x /\ nv_last l).
Proof.
  split.
  - intros (a & i & b & E & S & G). destruct (snoc_cases _ _ _ _ _ E) as [(-> & -> & <-)|(b' & -> & ->)]; [left; exact S|].
    right. rewrite given_snoc in G. split; [tauto|]. exists a, i, b'. tauto.
  - intros [N|(N & a & i & b & -> & S & G)].
    + exists l, x, []. split; [reflexivity|]. split; [exact N|apply given_nil].
    + exists a, i, (b ++ [x]). split; [rewrite <- app_assoc; reflexivity|]. split; [exact S|]. rewrite given_snoc. tauto.
Qed.
Definition alt_in (id : Z) (l : list item) : Prop := exists n v, In (With n v) l /\ same_text n (txt "--alt-3d") /\ string_to_int (v ++ [0]) 0 = Ok id.
Lemma alt_snoc id l x : alt_in id (l ++ [x]) <-> alt_in id l \/ exists n v, x = With n v /\ same_text n (txt "--alt-3d") /\ string_to_int (v ++ [0]) 0 = Ok id.
Proof.
  split.
  - intros (n & v & H & S & E). apply in_app_or in H. destruct H as [H|[->|[]]]; [left; exists n, v; auto|right; exists n, v; auto].
  - intros [(n & v & H & S & E)|(n & v & -> & S & E)]; exists n, v; (split; [apply in_or_app; cbn [In]; tauto|auto]).
Qed.
Lemma nth_skipn_z {A} (l : list A) d n : forall p, nth n (skipn p l) d = nth (p + n) l d.
Proof. induction l as [|x l IH]; intros [|p]; cbn [skipn Nat.add]; [reflexivity|destruct n; reflexivity|reflexivity|]. rewrite IH. reflexivity. Qed.
Lemma nth_firstn_z {A} (l : list A) d n : forall m, (n < m)%nat -> nth n (firstn m l) d = nth n l d.
Proof. revert n. induction l as [|x l IH]; intros n [|m] H; try lia; [rewrite firstn_nil; reflexivity|]. destruct n; cbn [firstn nth]; [reflexivity|]. apply IH. lia. Qed.
Lemma mark_ok l id : 0 <= id -> exists l', mark_alt l id = Ok l' /\ l' <> [] /\ forall k, 0 <= k -> (nth (Z.to_nat k) l' false = true <-> nth (Z.to_nat k) l false = true \/ k = id).
Proof.
  intros H. unfold mark_alt. replace (id <? 0) with false by lia. eexists. split; [reflexivity|].
  set (n := Z.to_nat id).
  set (l1 := if (length l <? n + 1)%nat then l ++ repeat false (n + 1 - length l) else l).
  assert (L1 : (n < length l1)%nat).
  { unfold l1. destruct (Nat.ltb_spec (length l) (n + 1)); [rewrite app_length, repeat_length; lia|lia]. }
  assert (N1 : forall k, nth k l1 false = nth k l false).
  { intros k. unfold l1. destruct (Nat.ltb_spec (length l) (n + 1)) as [Hl|]; [|reflexivity].
    destruct (Nat.ltb_spec k (length l)); [apply app_nth1; assumption|]. rewrite app_nth2 by assumption.
    rewrite (nth_overflow l) by assumption. apply nth_repeat. }
  split; [destruct (firstn n l1); discriminate|].
  assert (L2 : length (firstn n l1) = n) by (rewrite firstn_length; lia).
  intros k Hk. set (k' := Z.to_nat k). assert (Ek : k' = n <-> k = id) by (subst k' n; lia).
  destruct (Nat.lt_trichotomy k' n) as [C|[C|C]].
  - rewrite app_nth1 by lia. rewrite nth_firstn_z by exact C. rewrite N1. intuition lia.
  - rewrite app_nth2 by lia. replace (k' - _)%nat with O by lia. cbn [nth]. intuition.
  - rewrite app_nth2 by lia. rewrite L2. replace (k' - n)%nat with (S (k' - n - 1)) by lia. cbn [nth].
    rewrite nth_skipn_z. replace (n + 1 + (k' - n - 1))%nat with k' by lia. rewrite N1. intuition lia.
Qed.

(** One option more. *)
Ltac nm i m n B := let H := fresh in
  assert (H : named n i <-> same (txt m) (txt n) = true) by (apply named_c; [exact B|cbn; tauto|cbn; tauto|assumption]);
  let b := eval vm_compute in (same (txt m) (txt n)) in
  lazymatch b with
  | true => apply (fun X => proj2 X eq_refl) in H
  | false => assert (~ named n i) by (let K := fresh in intros K; apply (proj1 H) in K; vm_compute in K; discriminate); clear H
  end.
Ltac allnames i m B :=
  nm i m "--keep-cues"%string B; nm i m "--remux"%string B; nm i m "--live"%string B; nm i m "--unsafe"%string B; nm i m "--optimize"%string B;
  nm i m "--optimize_nv"%string B; nm i m "--regression"%string B; nm i m "--no-optimize"%string B; nm i m "--quiet"%string B; nm i m "--version"%string B;
  nm i m "--help"%string B; nm i m "--doctype"%string B; nm i m "--timecodescale"%string B; nm i m "--alt-3d"%string B; nm i m "--compalgo"%string B.
Lemma no_alt i id : ~ named "--alt-3d" i -> ~ exists n v, i = With n v /\ same_text n (txt "--alt-3d") /\ string_to_int (v ++ [0]) 0 = Ok id.
Proof. intros H (n & v & -> & S & _). apply H. exact S. Qed.
Lemma no_last n i v : ~ named n i -> ~ exists m, i = With m v /\ same_text m (txt n).
Proof. intros H (m & -> & S). apply H. exact S. Qed.
(* the fields *)
Lemma f_same (x : bool) n l i : (x = true <-> given n l) -> ~ named n i -> (x = true <-> given n (l ++ [i])).
Proof. rewrite given_snoc. tauto. Qed.
Lemma f_new n l i : named n i -> (true = true <-> given n (l ++ [i])).
Proof. rewrite given_snoc. tauto. Qed.
Lemma f_same2 (x : bool) n m l i : (x = true <-> given n l \/ given m l) -> ~ named n i -> ~ named m i -> (x = true <-> given n (l ++ [i]) \/ given m (l ++ [i])).
Proof. rewrite !given_snoc. tauto. Qed.
Lemma f_new2 n m l i : named n i \/ named m i -> (true = true <-> given n (l ++ [i]) \/ given m (l ++ [i])).
Proof. rewrite !given_snoc. tauto. Qed.
Lemma f_nv_same (x : bool) l i : (x = false <-> nv_last l) -> ~ named "--optimize" i -> ~ named "--optimize_nv" i -> (x = false <-> nv_last (l ++ [i])).
Proof. rewrite nv_snoc. tauto. Qed.
Lemma f_nv_on l i : named "--optimize" i -> ~ named "--optimize_nv" i -> (true = false <-> nv_last (l ++ [i])).
Proof. rewrite nv_snoc. intuition discriminate. Qed.
Lemma f_nv_off l i : named "--optimize_nv" i -> (false = false <-> nv_last (l ++ [i])).
Proof. rewrite nv_snoc. tauto. Qed.
Lemma f_none (P : Prop) n l i : (~ given n l -> P) -> ~ named n i -> ~ given n (l ++ [i]) -> P.
Proof. rewrite given_snoc. tauto. Qed.
Lemma f_last (P : list Z -> Prop) n l i : (forall v, last_given n l v -> P v) -> ~ named n i -> forall v, last_given n (l ++ [i]) v -> P v.
Proof. intros H N v. rewrite last_snoc. intros [X|[_ X]]; [elim (no_last _ _ _ N X)|exact (H v X)]. Qed.
Lemma f_alt0 (P : Prop) l i : (P <-> ~ given "--alt-3d" l) -> ~ named "--alt-3d" i -> (P <-> ~ given "--alt-3d" (l ++ [i])).
Proof. rewrite given_snoc. tauto. Qed.
Lemma f_alt (P : Z -> Prop) l i : (forall id, 0 <= id -> (P id <-> alt_in id l)) -> ~ named "--alt-3d" i -> forall id, 0 <= id -> (P id <-> alt_in id (l ++ [i])).
Proof. intros H N id Hid. rewrite alt_snoc, (H id Hid). pose proof (no_alt i id N). tauto. Qed.
Ltac fld A :=
  destruct A; constructor; cbn [o_keep o_remux o_live o_unsafe o_opt o_optv o_noopt o_regr o_quiet o_version o_usage o_dst o_scale o_zlib o_alt
    set_keep set_remux set_live set_unsafe set_opt set_noopt set_regr set_quiet set_version set_dst set_scale set_zlib set_alt orb];
  first [apply f_same; assumption | apply f_new; assumption | apply f_same2; assumption | apply f_new2; (left; assumption) || (right; assumption) |
    apply f_nv_same; assumption | apply f_nv_on; assumption | apply f_nv_off; assumption | eapply f_none; [eassumption|assumption] |
    eapply f_last; [eassumption|assumption] | apply f_alt0; assumption | eapply f_alt; [eassumption|assumption] | idtac].

Lemma alone_snoc l s m n f : In m alone_names -> same_text n (txt m) -> text n -> flag n = Some f -> asked l s -> asked (l ++ [Alone n]) (f s).
Proof.
  intros Hm S T E A. rewrite (flag_cong n (txt m) T (names_text m (in_or_app _ _ _ (or_introl Hm))) S) in E.
  assert (S' : same_text (name_of (Alone n)) (txt m)) by exact S.
  cbn [alone_names In] in Hm.
  repeat (destruct Hm as [<-|Hm];
    [match type of S with same_text _ (txt ?m) =>
       vm_compute in E; injection E as <-;
       allnames (Alone n) m T
     end; clear S S'|]); [..|destruct Hm].
  all: fld A.
Qed.
