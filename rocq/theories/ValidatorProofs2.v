(** Proofs about mkvalidator: the verdict and the rules of the profile. *)
From Verif Require Import Base BaseProofs EbmlId EbmlIdSpec EbmlIdProofs IntElt IntEltSpec IntEltProofs EltHead Ebml Stream Tree TreeRead TreeSpec TreeProofs Create CreateSpec CreateProofs CreateProofs2 Frame BlockTime BlockTimeProofs Cues CuesSpec CuesProofs Str StrSpec StrProofs MkSchema MkSpec MkProofs Validator ValidatorSpec ValidatorProofs.
From Verif Require PropCreate.

(** ** The verdict *)
Lemma result_gen l : (forall m, In m l -> counted m -> 0 < code m) -> forall r, r <= 0 ->
  fold_left add_result l r <= 0 /\ (fold_left add_result l r = 0 <-> r = 0 /\ clean l).
Proof.
  induction l as [|m l IH]; intros H r Hr; cbn [fold_left].
  - split; [exact Hr|]. split; [intros ->; split; [reflexivity|constructor]|intros [-> _]; reflexivity].
  - assert (Hl : forall m, In m l -> counted m -> 0 < code m) by (intros x Hx; apply H; right; exact Hx).
    assert (Hm : counted m -> 0 < code m) by (apply H; left; reflexivity).
    assert (Ha : add_result r m <= 0 /\ (counted m -> add_result r m <> 0) /\ (~ counted m -> add_result r m = r)).
    { destruct m as [c|c|c|c]; cbn [add_result counted code] in *; try (split; [lia|]; split; [intros []|reflexivity]).
      - specialize (Hm I). assert (Hn : Z.lor r (- c) < 0) by (apply Z.lor_neg; lia). split; [lia|]. split; [lia|intros []; exact I].
      - specialize (Hm I). split; [lia|]. split; [lia|intros []; exact I]. }
    destruct Ha as (A1 & A2 & A3). destruct (IH Hl (add_result r m) A1) as [I1 I2]. split; [exact I1|]. rewrite I2.
    assert (D : counted m \/ ~ counted m) by (destruct m; cbn; auto).
    unfold clean. rewrite Forall_cons_iff. destruct D as [D|D].
    + split; [intros [Q _]; destruct (A2 D Q)|intros (_ & Q & _); contradiction].
    + rewrite (A3 D). tauto.
Qed.
(** Exit status. *)
Lemma lor_low a b : Z.lor a b mod 256 = 0 <-> a mod 256 = 0 /\ b mod 256 = 0.
Proof.
  change 256 with (2 ^ 8). rewrite <- !Z.land_ones by lia. rewrite Z.land_lor_distr_l. apply Z.lor_eq_0_iff.
Qed.
Lemma opp_low c : (- c) mod 256 = 0 <-> c mod 256 = 0.
Proof. lia. Qed.
Lemma status_gen l : (forall c, ~ In (Fatal c) l) -> forall r,
  fold_left add_result l r mod 256 = 0 <-> r mod 256 = 0 /\ forall c, In (Err c) l -> c mod 256 = 0.
Proof.
  induction l as [|m l IH]; intros H r; cbn [fold_left].
  - split; [intros Hr; split; [exact Hr|intros c []]|tauto].
  - assert (Hl : forall c, ~ In (Fatal c) l) by (intros c Hc; apply (H c); right; exact Hc). rewrite IH by exact Hl. destruct m as [c|c|c|c]; cbn [add_result].
    + rewrite lor_low, opp_low. split.
      * intros [[H1 H2] H3]. split; [exact H1|]. intros c' [[= <-]|Hc]; auto.
      * intros [H1 H2]. split; [split; [exact H1|]|]; [apply H2; left; reflexivity|intros c' Hc; apply H2; right; exact Hc].
    + destruct (H c). left. reflexivity.
    + split; intros [H1 H2]; (split; [exact H1|]); [intros c' [[=]|Hc]; auto|intros c' Hc; apply H2; right; exact Hc].
    + split; intros [H1 H2]; (split; [exact H1|]); [intros c' [[=]|Hc]; auto|intros c' Hc; apply H2; right; exact Hc].
Qed.

(** ** Profile *)
Lemma split_first {A} (P : A -> Prop) (D : forall x, P x \/ ~ P x) l x : In x l -> P x -> exists a y b, l = a ++ y :: b /\ P y /\ forall z, In z a -> ~ P z.
Proof.
  induction l as [|z l IH]; intros Hi Hx; [destruct Hi|]. destruct (D z) as [Hz|Hz].
  - exists [], z, l. split; [reflexivity|]. split; [exact Hz|]. intros ? [].
  - destruct Hi as [->|Hi]; [contradiction|]. destruct (IH Hi Hx) as (a & y & b & -> & H1 & H2). exists (z :: a), y, b. split; [reflexivity|]. split; [exact H1|].
    intros w [<-|Hw]; auto.
Qed.
Lemma known_dummy c : inside c = true -> c_class (mk c) = KDummy -> False.
Proof.
  intros Hc K. pose proof (mk_all (fun c x => match c_class x with KDummy => false | _ => true end) ltac:(vm_compute; reflexivity) c Hc) as T. cbn beta in T. rewrite K in T. discriminate.
Qed.
Lemma shaped_ind2 (P : elt -> Prop) :
  (forall i v c, e_kind i = Known c -> inside c = true -> leaf_ok c v -> P (Leaf i v)) ->
  (forall i chk ch c, e_kind i = Known c -> c_class (mk c) = KMaster -> Forall (fun d => foreign c d \/ shaped d) ch -> Forall (fun d => shaped d -> P d) ch -> P (Master i chk ch)) ->
  forall e, shaped e -> P e.
Proof.
  intros HL HM e. induction e as [i v|i chk ch IH] using elt_ind2; intros H; inversion H; subst; [eapply HL; eassumption|]. eapply HM; eassumption.
Qed.
Lemma report_spec prof p i chk ch l : elem p (Master i chk ch) -> c_sem (mk p) = Some l ->
  exists reps, check_context mk (length ch) (Some (fun _ => false)) prof (Master i chk ch) = Ok (Master i chk ch, reps) /\
    forall m, In m (when (chk =? 1) (Err 0x203) ++ map report_msg reps) <-> exists c, m = Err c /\ violates prof c (Master i chk ch).
Proof.
  intros He Hl. assert (Hk : e_kind i = Known p) by apply He. assert (Ht : table mk i l) by (exists p; auto).
  destruct (PropCreate.C50_reports mk prof (fun _ => false) i chk ch l (length ch) (fun _ => eq_refl) Ht (le_n _)) as (reps & Hr & HP & HM & HN).
  exists reps. split; [exact Hr|]. assert (Hls : forall s, In s l -> listed p (s_ctx s)) by (intros s Hs; exists l, s; auto).
  assert (Hid : forall s d, In s l -> In d ch -> (sem_id mk s = eid_of mk (einfo d) <-> of_class (s_ctx s) d)).
  { intros s d Hs Hd. rewrite <- (child_iff p _ (s_ctx s) d He (Hls s Hs) Hd). unfold sem_id. split; congruence. }
  assert (Huni : forall s s' d, In s l -> In s' l -> sem_id mk s = eid_of mk (einfo d) -> sem_id mk s' = eid_of mk (einfo d) -> s = s').
  { intros s s' d Hs Hs' H1 H2. destruct (master_table p (sem_master p l Hl)) as (_ & l' & a & b & Hl' & _ & _ & _ & Hin & Hnd). rewrite Hl in Hl'. injection Hl' as <-.
    assert (Hc : s_ctx s = s_ctx s') by (apply id_inj; [apply (Hin s Hs)|apply (Hin s' Hs')|unfold sem_id in *; congruence]).
    clear - Hnd Hs Hs' Hc. induction l as [|x l IH]; [destruct Hs|]. cbn [map] in Hnd. apply NoDup_cons_iff in Hnd. destruct Hnd as [N1 N2].
    destruct Hs as [->|Hs], Hs' as [->|Hs']; try reflexivity; [| |auto]; exfalso; apply N1; [rewrite Hc|rewrite <- Hc]; apply in_map; assumption. }
  assert (Hfst : forall s d, In s l -> sem_id mk s = eid_of mk (einfo d) -> exists l1 l2, l = l1 ++ s :: l2 /\ forall s', In s' l1 -> sem_id mk s' <> eid_of mk (einfo d)).
  { intros s d Hs Hd. destruct (split_first (fun s => sem_id mk s = eid_of mk (einfo d)) ltac:(intros; cbn beta; lia) l s Hs Hd) as (l1 & y & l2 & E & Hy & Hn).
    assert (y = s) as -> by (apply (Huni y s d); try assumption; rewrite E; apply in_elt). exists l1, l2. auto. }
  assert (Hnd : forall s d, In s l -> of_class (s_ctx s) d -> kind_class mk (e_kind (einfo d)) <> KDummy).
  { intros s d Hs Hd K. rewrite Hd in K. cbn [kind_class] in K. apply (known_dummy (s_ctx s)); [apply (listed_inside p); auto|exact K]. }
  intros m. rewrite in_app_iff, in_map_iff. split.
  - intros [H|(r & <- & H)].
    + unfold when in H. destruct (chk =? 1) eqn:Q; [|destruct H]. destruct H as [<-|[]]. exists 0x203. split; [reflexivity|]. exists i, chk, ch, l. split; [reflexivity|]. split; [exact Ht|]. left. split; [reflexivity|lia].
    + destruct r as [c|d|c]; cbn [report_msg].
      * apply HP in H. destruct H as (H1 & H2 & l1 & s & l2 & E & H3 & H4 & H5). exists 0x201. split; [reflexivity|]. exists i, chk, ch, l. split; [reflexivity|]. split; [exact Ht|].
        right; left. split; [reflexivity|]. assert (Hs : In s l) by (rewrite E; apply in_elt). exists c, s. split; [exact H1|]. split; [exact Hs|]. split; [apply (Hid s c Hs H1); exact H3|exact H5].
      * apply HM in H. destruct H as ((a & b & c & x & E & H1 & H2) & H3 & l1 & s & l2 & El & H5 & H6 & H7). exists 0x202. split; [reflexivity|]. exists i, chk, ch, l. split; [reflexivity|]. split; [exact Ht|].
        right; right; left. split; [reflexivity|]. assert (Hs : In s l) by (rewrite El; apply in_elt). exists a, c, b, d, x, s. split; [exact E|]. split; [exact Hs|]. split; [exact H7|].
        split; apply Hid; try assumption; try congruence; rewrite E, !in_app_iff; cbn [In]; rewrite ?in_app_iff; cbn [In]; tauto.
      * apply HN in H. destruct H as (s & H1 & <- & H3 & H4 & H5). exists 0x200. split; [reflexivity|]. exists i, chk, ch, l. split; [reflexivity|]. split; [exact Ht|].
        right; right; right. split; [reflexivity|]. exists s. split; [exact H1|]. split; [exact H3|]. split; [exact H4|]. apply Forall_forall. intros d Hd Hc. apply H5. exists d. split; [exact Hd|].
        apply class_id. exact Hc.
  - intros (c & -> & i' & chk' & ch' & l' & [= <- <- <-] & (c0 & Hk' & Hl') & H). rewrite Hk in Hk'. injection Hk' as <-. rewrite Hl in Hl'. injection Hl' as <-. destruct H as [(-> & ->)|[(-> & d & s & H1 & H2 & H3 & H4)|[(-> & a & d & b & d' & x & s & E & H1 & H2 & H3 & H4)|(-> & s & H1 & H2 & H3 & H4)]]].
    + left. left. reflexivity.
    + right. exists (RProfile d). split; [reflexivity|]. apply HP. split; [exact H1|]. split; [apply (Hnd s); assumption|]. apply (Hid s d H2 H1) in H3.
      destruct (Hfst s d H2 H3) as (l1 & l2 & E & Hn). exists l1, s, l2. auto.
    + assert (Hd : In d ch) by (rewrite E; apply in_elt). assert (Hd' : In d' ch) by (rewrite E; apply in_or_app; right; right; apply in_elt).
      pose proof (class_id _ _ H3) as I3. pose proof (class_id _ _ H4) as I4. set (P := fun y : elt => eid_of mk (einfo y) = c_id (mk (s_ctx s))).
      assert (DP : forall y, P y \/ ~ P y) by (intros y; unfold P; lia).
      assert (Hsec : exists a c b y x, ch = a ++ c :: b ++ y :: x /\ P c /\ P y /\ forall z, In z (a ++ b) -> ~ P z).
      { destruct (split_first P DP (a ++ d :: nil) d ltac:(apply in_elt) I3) as (a1 & c1 & r1 & E1 & Hc1 & Hn1).
        destruct (split_first P DP (r1 ++ b ++ d' :: nil) d' ltac:(rewrite !in_app_iff; right; right; left; reflexivity) I4) as (a2 & c2 & r2 & E2 & Hc2 & Hn2).
        exists a1, c1, a2, c2, (r2 ++ x). split; [|split; [exact Hc1|split; [exact Hc2|intros z Hz; apply in_app_or in Hz; destruct Hz; auto]]].
        rewrite E. replace (a ++ d :: b ++ d' :: x) with ((a ++ [d]) ++ (b ++ [d']) ++ x) by (rewrite <- !app_assoc; reflexivity). rewrite E1.
        replace ((a1 ++ c1 :: r1) ++ (b ++ [d']) ++ x) with (a1 ++ c1 :: ((r1 ++ b ++ [d']) ++ x)) by (repeat (rewrite <- app_assoc; cbn [app]); reflexivity).
        rewrite E2. rewrite <- !app_assoc. reflexivity. }
      destruct Hsec as (a1 & c1 & b1 & y & x1 & E' & P1 & P2 & Hn). right. exists (RMultiple y). split; [reflexivity|]. apply HM. unfold P in P1, P2, Hn.
      split; [exists a1, b1, c1, x1; split; [exact E'|]; split; [congruence|]; intros z Hz; rewrite P2; apply Hn; exact Hz|].
      split; [exists d; split; [exact Hd|]; split; [congruence|apply (Hnd s); assumption]|].
      destruct (Hfst s y H1 ltac:(unfold sem_id; congruence)) as (l1 & l2 & El & Hn'). exists l1, s, l2. split; [exact El|]. split; [unfold sem_id; congruence|]. split; [exact Hn'|exact H2].
    + right. exists (RMissing (s_ctx s)). split; [reflexivity|]. apply HN. exists s. split; [exact H1|]. split; [reflexivity|]. split; [exact H2|]. split; [exact H3|].
      intros (d & Hd & Hi). rewrite Forall_forall in H4. apply (H4 d Hd). apply (Hid s d H1 Hd). unfold sem_id. congruence.
Qed.
Lemma profile_ok prof e : shaped e -> exists l, check_profile prof e = Ok l /\ forall m, In m l <-> exists c x, m = Err c /\ within x e /\ violates prof c x.
Proof.
  intros H. induction H as [i v c Hk Hc Hl|i chk ch p Hk HK HF IH] using shaped_ind2.
  - exists []. split; [reflexivity|]. intros m. split; [intros []|]. intros (c' & x & _ & Hw & i' & k & ch & l & -> & _). inversion Hw.
  - assert (He : elem p (Master i chk ch)) by (split; [econstructor; eassumption|exact Hk]).
    destruct (master_table p HK) as (_ & l & _ & _ & Hl & _). destruct (report_spec prof p i chk ch l He Hl) as (reps & Hr & Hm).
    assert (Hsub : exists sub, (fix go (l : list elt) : res (list msg) := match l with [] => Ok [] | Leaf _ _ :: l => go l
                   | (Master _ _ _ as d) :: l => do a <- check_profile prof d; do b <- go l; Ok (a ++ b) end) ch = Ok sub /\
                   forall m, In m sub <-> exists c x d, m = Err c /\ In d ch /\ within x d /\ violates prof c x).
    { clear - HF IH. induction ch as [|d ch IHc]. { exists []. split; [reflexivity|]. intros m. split; [intros []|intros (? & ? & ? & _ & [] & _)]. }
      apply Forall_cons_iff in HF. destruct HF as [F1 F2]. apply Forall_cons_iff in IH. destruct IH as [I1 I2]. destruct (IHc F2 I2) as (sub & Hs & Hi).
      destruct d as [j v|j k jch].
      - exists sub. split; [exact Hs|]. intros m. rewrite Hi. split; intros (c & x & d & H1 & H2 & H3 & H4); exists c, x, d; (split; [exact H1|]); (split; [|auto]); [right; exact H2|].
        destruct H2 as [<-|H2]; [|exact H2]. exfalso. destruct H4 as (i' & k & ch' & l & -> & _). inversion H3.
      - destruct F1 as [(j' & v & n & [=] & _)|F1]. destruct (I1 F1) as (a & Ha & Hia). exists (a ++ sub). rewrite Ha. cbn [bind]. rewrite Hs. split; [reflexivity|].
        intros m. rewrite in_app_iff, Hia, Hi. split.
        + intros [(c & x & H1 & H2 & H3)|(c & x & d & H1 & H2 & H3)]; [exists c, x, (Master j k jch)|exists c, x, d]; (split; [exact H1|]); (split; [|auto]); [left; reflexivity|right; exact H2].
        + intros (c & x & d & H1 & [<-|H2] & H3); [left; exists c, x; tauto|right; exists c, x, d; tauto]. }
    destruct Hsub as (sub & Hs & Hi). exists (when (chk =? 1) (Err 0x203) ++ map report_msg reps ++ sub). split.
    + cbn [check_profile]. rewrite Hr. cbn [bind snd]. rewrite Hs. reflexivity.
    + intros m. rewrite app_assoc, in_app_iff, Hm, Hi. split.
      * intros [(c & H1 & H2)|(c & x & d & H1 & H2 & H3 & H4)]; [exists c, (Master i chk ch)|exists c, x]; (split; [exact H1|]); (split; [|assumption]); [constructor|econstructor; eassumption].
      * intros (c & x & H1 & H2 & H3). inversion H2; subst; [left; exists c; auto|right; exists c, x, d; auto].
Qed.
