(** Proofs about paths: upper directories, reduction, extension lists. *)
From Verif Require Import Base BaseProofs Tree Str StrSpec Scan Path PathSpec PathProofs PathProofs2.

(** ** UpperPath *)
Lemma strip_prefix s : exists r, s = strip_seps s ++ r /\ Forall sep r.
Proof.
  induction s as [|x s (r & E & Hr)]; [exists []; split; [reflexivity|constructor]|]. cbn [strip_seps]. destruct (strip_seps s) as [|y t] eqn:K.
  - cbn [app] in E. destruct (is_sep x) eqn:Q.
    + exists (x :: s). split; [reflexivity|]. constructor; [unfold is_sep in Q; unfold sep; lia|]. rewrite E. exact Hr.
    + exists s. split; [reflexivity|]. rewrite E. exact Hr.
  - exists r. split; [cbn [app]; f_equal; exact E|exact Hr].
Qed.
Lemma strip_app d r : Forall sep r -> (forall a x, d = a ++ [x] -> ~ sep x) -> strip_seps (d ++ r) = d.
Proof.
  intros Hr Hd. induction d as [|x d IH]; cbn [app].
  - clear Hd. induction Hr as [|x r Hx _ IH]; [reflexivity|]. cbn [strip_seps]. rewrite IH. unfold is_sep, sep in *. replace ((x =? 92) || (x =? 47)) with true by lia. reflexivity.
  - cbn [strip_seps]. rewrite IH by (intros a y ->; apply (Hd (x :: a)); reflexivity). destruct d as [|y d]; [|reflexivity]. assert (N : ~ sep x) by (apply (Hd []); reflexivity).
    unfold is_sep, sep in *. replace ((x =? 92) || (x =? 47)) with false by lia. reflexivity.
Qed.
Lemma remove_same p : (forall q, p <> q ++ [47]) -> remove_delim p = p.
Proof.
  intros H. unfold remove_delim. assert (E : ends_in_slash p = false \/ zlen p = 0).
  { destruct p as [|x p1] eqn:K; [right; reflexivity|left]. assert (Nn : x :: p1 <> []) by discriminate. destruct (exists_last Nn) as (q & y & E). rewrite E. unfold ends_in_slash. rewrite last_last. destruct (Z.eqb_spec y 47) as [->|]; [|reflexivity]. elim (H q). exact E. }
  destruct E as [E|E]; rewrite E; [rewrite andb_false_r; reflexivity|]. cbn [Z.ltb Z.compare]. rewrite !andb_false_r. reflexivity.
Qed.
Lemma remove_cases p : remove_delim p = p \/ p = remove_delim p ++ [47].
Proof.
  unfold remove_delim. destruct (_ && _) eqn:E; [|auto]. right. rewrite !andb_true_iff in E. destruct E as [[_ E] _]. assert (N : p <> []) by (intros ->; discriminate E). destruct (exists_last N) as (q & y & ->). rewrite removelast_last. unfold ends_in_slash in E. rewrite last_last in E. do 2 f_equal. lia.
Qed.
Lemma smb_ok p b sch rest : is_url p b sch rest -> same_text_ci (cut 32 sch) SMB = true -> same_text sch SMB.
Proof.
  intros H K. unfold same_text_ci in K. pose proof (list_same_length _ _ K) as L. unfold cut in L. rewrite firstn_length in L. change (length SMB) with 3%nat in L. unfold cut in K. rewrite firstn_all2 in K by lia. apply list_same_ok. exact K.
Qed.
(** The path becomes a shorter beginning of itself, except for smb:// alone. *)
Lemma upper_shorter p q l : upper_path p = (true, q, l) -> exists r, p = q ++ r /\ (r = [] -> exists b sch, is_url p b sch [] /\ same_text sch SMB).
Proof.
  intros H. destruct p as [|x0 p0]; [discriminate|]. set (p := x0 :: p0) in *. unfold upper_path in H. fold p in H. change (match p with [] => (false, [], None) | _ :: _ => ?e end) with e in H. cbv zeta in H.
  pose proof (remove_cases p) as Rc. set (p' := remove_delim p) in *.
  assert (Hp' : exists t, p = p' ++ t) by (destruct Rc as [->|E]; [exists []; rewrite app_nil_r; reflexivity|eauto]).
  destruct (rooted_ex p') as (pre & rest & Rt). destruct (rooted_at _ _ _ Rt) as [E A]. rewrite A in H.
  assert (Sk : skipn (length pre) p' = rest) by (rewrite E; apply skipn_len). assert (Fk : firstn (length pre) p' = pre) by (rewrite E; apply firstn_len). rewrite Sk, ?Fk in H.
  destruct (split_last rest) as [N|(a & c & f & Er & Hc & Hf)].
  - rewrite last_sep_none in H by exact N. destruct (same_text_ci (cut 32 (p_name (get_protocol p'))) SMB) eqn:Sm.
    + injection H as <- _. destruct Hp' as (t & Ht). exists (rest ++ t). rewrite E, <- app_assoc in Ht. split; [exact Ht|]. intros Z0. apply app_eq_nil in Z0. destruct Z0 as [-> ->].
      destruct Rt as [(Nu & _ & K)|(b & sch & U & _)].
      { rewrite protocol_no in Sm by exact Nu. vm_compute in Sm. discriminate. }
      rewrite (protocol_url _ _ _ _ U) in Sm. exists b, sch. rewrite !app_nil_r in *. rewrite Ht, <- E. split; [exact U|]. eapply smb_ok; eassumption.
    + destruct (p_host (get_protocol p') && _); [discriminate|]. injection H as <- _. destruct rest as [|y rest].
      * cbn [firstn]. exists p. split; [reflexivity|]. discriminate.
      * rewrite Fk. destruct Hp' as (t & Ht). exists ((y :: rest) ++ t). rewrite E, <- app_assoc in Ht. split; [exact Ht|discriminate].
  - rewrite Er, last_sep_app in H by assumption. injection H as <- _. destruct (strip_prefix (firstn (length a + 1) (a ++ c :: f))) as (r & E1 & Hr).
    assert (Fa : firstn (length a + 1) (a ++ c :: f) = a ++ [c]) by (replace (a ++ c :: f) with ((a ++ [c]) ++ f) by (rewrite <- app_assoc; reflexivity); replace (length a + 1)%nat with (length (a ++ [c])) by (rewrite app_length; reflexivity); apply firstn_len).
    rewrite Fa in *.
    destruct Hp' as (t & Ht). exists (r ++ f ++ t). split.
    + rewrite Ht, E, Er. rewrite <- !app_assoc. f_equal. rewrite (app_assoc _ r). rewrite <- E1. rewrite <- !app_assoc. reflexivity.
    + intros Z0. apply app_eq_nil in Z0. destruct Z0 as [-> _]. exfalso. rewrite app_nil_r in E1.
      assert (K : forall s, strip_seps s = s -> forall u x, s = u ++ [x] -> ~ sep x).
      { clear. intros s K u x -> Hx. destruct (strip_prefix u) as (r & Eu & Hr). rewrite Eu in K at 1. assert (Q : forall u r, Forall sep r -> (length (strip_seps (u ++ r)) <= length u)%nat).
        { clear. intros u r Hr. induction u as [|y u IH]; cbn [app].
          - induction Hr as [|y r Hy _ IH]; [cbn; lia|]. cbn [strip_seps]. destruct (strip_seps r); [|cbn in IH; lia]. unfold is_sep, sep in *. replace ((y =? 92) || (y =? 47)) with true by lia. cbn; lia.
          - cbn [strip_seps]. destruct (strip_seps (u ++ r)) as [|z l]; [destruct (is_sep y); cbn [length]; lia|cbn [length] in *; lia]. }
        specialize (Q u [x] ltac:(constructor; [exact Hx|constructor])). rewrite <- Eu in K. rewrite K in Q. rewrite app_length in Q. cbn [length] in Q. lia. }
      apply (K (a ++ [c]) (eq_sym E1) a c eq_refl). exact Hc.
Qed.
(** One level up. *)
Lemma upper_ok url pre d seps name : rooted url pre (d ++ seps ++ name) -> Forall sep seps -> seps <> [] -> name <> [] -> no_seps name -> (forall a x, d = a ++ [x] -> ~ sep x) ->
  upper_path url = (true, pre ++ d, Some name).
Proof.
  intros Rt Hs Ns Nn Hn Hd. destruct (rooted_at _ _ _ Rt) as [E A]. assert (Rm : remove_delim url = url).
  { apply remove_same. intros q K. destruct (exists_last Nn) as (n & y & En). rewrite En in *. rewrite E in K. rewrite !app_assoc in K. apply app_inj_tail in K. destruct K as [_ ->]. apply Forall_app in Hn. destruct Hn as [_ Hn]. apply Forall_cons_iff in Hn. destruct Hn as [Hn _]. apply Hn. left. reflexivity. }
  destruct url as [|x u] eqn:Eu; [destruct pre; [|discriminate]; cbn [app] in E; symmetry in E; apply app_eq_nil in E; destruct E as [_ E]; apply app_eq_nil in E; destruct E as [E _]; contradiction|].
  unfold upper_path. rewrite Rm. cbv zeta. rewrite A. rewrite <- Eu in *. clear Eu. rewrite E. rewrite skipn_len, firstn_len.
  destruct (exists_last Ns) as (s1 & c & Es). assert (Hc : sep c) by (rewrite Es in Hs; apply Forall_app in Hs; destruct Hs as [_ Hs]; apply Forall_cons_iff in Hs; tauto).
  replace (d ++ seps ++ name) with ((d ++ s1) ++ c :: name) by (rewrite Es, <- !app_assoc; reflexivity). rewrite last_sep_app by assumption. f_equal; [f_equal; f_equal|f_equal].
  - replace ((d ++ s1) ++ c :: name) with ((d ++ seps) ++ name) by (rewrite Es, <- !app_assoc; reflexivity). replace (length (d ++ s1) + 1)%nat with (length (d ++ seps)) by (rewrite Es, !app_length; cbn [length]; lia). rewrite firstn_len. apply strip_app; assumption.
  - rewrite app_assoc. replace (length pre + length (d ++ s1))%nat with (length (pre ++ d ++ s1)) by apply app_length. apply skipn_len1.
Qed.
Lemma upper_slash p : p <> [] -> (forall q, p <> q ++ [47]) -> upper_path (p ++ [47]) = upper_path p.
Proof.
  intros Hp Hn. assert (R1 : remove_delim (p ++ [47]) = p). { apply remove_ok; [exact Hp|]. intros b sch K. apply scheme_ends in K. destruct K as (q & K). apply (Hn q K). }
  unfold upper_path. destruct p as [|x p]; [contradiction|]. cbn [app]. change (x :: p ++ [47]) with ((x :: p) ++ [47]). rewrite R1. rewrite (remove_same (x :: p) Hn). reflexivity.
Qed.
Lemma upper_host url b sch host : is_url url b sch host -> no_seps host -> ~ local_scheme sch -> ~ same_text sch SMB -> ~ same_text sch UPNP -> upper_path url = (false, url, None).
Proof.
  intros U N Hl Hm Hu. pose proof U as (E & _ & Hc & _). assert (Rm : remove_delim url = url).
  { destruct host as [|h0 h1] eqn:Eh.
    - unfold remove_delim. assert (Rt : rooted url (b ++ sch ++ [58; 47; 47]) []) by (right; eauto). destruct (rooted_at _ _ _ Rt) as [E2 A]. rewrite A. rewrite E2 at 1. rewrite skipn_len. reflexivity.
    - apply remove_same. intros q K. assert (Nn : h0 :: h1 <> []) by discriminate. destruct (exists_last Nn) as (n & y & En). rewrite En in *. rewrite E in K. rewrite !app_assoc in K. apply app_inj_tail in K. destruct K as [_ ->]. apply Forall_app in N. destruct N as [_ N]. apply Forall_cons_iff in N. destruct N as [N _]. apply N. left. reflexivity. }
  destruct url as [|x u] eqn:Eu; [destruct b; [destruct sch|]; discriminate E|]. rewrite <- Eu in *. unfold upper_path. rewrite Eu. rewrite <- Eu. rewrite Rm. cbv zeta. rewrite (protocol_url _ _ _ _ U). cbn [p_at p_name p_host].
  replace (skipn (length b + length sch + 3) url) with host. 2:{ rewrite E. replace (length b + length sch + 3)%nat with (length (b ++ sch ++ [58; 47; 47])) by (rewrite !app_length; cbn [length]; lia). rewrite !app_assoc. symmetry. rewrite <- (app_assoc b). apply skipn_len. }
  rewrite last_sep_none by exact N. assert (Cs : forall t, (length t < 31)%nat -> same_text_ci (cut 32 sch) t = true -> same_text sch t).
  { intros t Ht K. unfold same_text_ci in K. pose proof (list_same_length _ _ K) as L. unfold cut in *. rewrite firstn_length in L. rewrite firstn_all2 in K by lia. apply list_same_ok. exact K. }
  destruct (same_text_ci (cut 32 sch) SMB) eqn:K1; [apply Cs in K1; [contradiction|cbn; lia]|]. destruct (same_text_ci (cut 32 sch) UPNP) eqn:K2; [apply Cs in K2; [contradiction|cbn; lia]|].
  destruct (local_dec sch) eqn:K3; [apply local_dec_ok in K3; [contradiction|exact Hc]|]. reflexivity.
Qed.
Lemma upper_smb url b sch : is_url url b sch [] -> same_text sch SMB -> upper_path url = (true, url, Some url).
Proof.
  intros U S. pose proof U as (E & _). assert (Rt : rooted url (b ++ sch ++ [58; 47; 47]) []) by (right; eauto). destruct (rooted_at _ _ _ Rt) as [E2 A].
  assert (Rm : remove_delim url = url) by (unfold remove_delim; rewrite A; rewrite E2 at 1; rewrite skipn_len; reflexivity).
  destruct url as [|x u] eqn:Eu; [destruct b; [destruct sch|]; discriminate E|]. rewrite <- Eu in *. unfold upper_path. rewrite Eu. rewrite <- Eu. rewrite Rm. cbv zeta. rewrite A. pose proof (protocol_url _ _ _ _ U) as P. rewrite P. cbn [p_name].
  replace (skipn (length (b ++ sch ++ [58; 47; 47])) url) with (@nil Z) by (rewrite E2; symmetry; apply skipn_len). cbn [last_sep rchr]. unfold last_sep. cbn [rchr].
  assert (K : same_text_ci (cut 32 sch) SMB = true). { unfold same_text_ci. apply list_same_ok in S. rewrite cut_all; [exact S|]. apply list_same_length in S. change (length SMB) with 3%nat in S. unfold zlen. lia. }
  rewrite K. replace (firstn (length (b ++ sch ++ [58; 47; 47])) url) with url by (rewrite E2 at 2; rewrite E2 at 1; rewrite firstn_len, app_nil_r; reflexivity). reflexivity.
Qed.

(** ** ReduceLocalPath *)
Lemma prefix_ok p s : prefix_of p s = true <-> exists r, s = p ++ r.
Proof.
  revert s. induction p as [|x p IH]; intros s; cbn [prefix_of app]; [split; eauto|]. destruct s as [|y s]; [split; [discriminate|intros (? & ?); discriminate]|].
  rewrite andb_true_iff, IH. split; [intros [H (r & ->)]; exists r; f_equal; lia|intros (r & H); injection H as -> ->; split; [apply Z.eqb_refl|eauto]].
Qed.
Lemma find_none p s : find_sub p s = None <-> ~ exists a b, s = a ++ p ++ b.
Proof.
  induction s as [|x s IH].
  - cbn [find_sub]. destruct (prefix_of p []) eqn:E; [split; [discriminate|]; intros H; elim H; apply prefix_ok in E; destruct E as (r & E); exists [], r; exact E|]. split; [|reflexivity]. intros _ (a & b & H). symmetry in H. apply app_eq_nil in H. destruct H as [_ H].
    apply app_eq_nil in H. destruct H as [-> _]. discriminate E.
  - cbn [find_sub]. destruct (prefix_of p (x :: s)) eqn:E; [split; [discriminate|]; intros H; elim H; apply prefix_ok in E; destruct E as (r & E); exists [], r; exact E|].
    destruct (find_sub p s); cbn [option_map].
    + split; [discriminate|]. intros H. assert (K : ~ exists a b, s = a ++ p ++ b) by (intros (a & b & ->); apply H; exists (x :: a), b; reflexivity). apply IH in K. discriminate.
    + split; [|reflexivity]. intros _ (a & b & H). destruct a as [|y a].
      * assert (prefix_of p (x :: s) = true) by (apply prefix_ok; exists b; exact H). congruence.
      * injection H as _ H. apply IH; [reflexivity|]. exists a, b. exact H.
Qed.
Lemma find_some p s n : find_sub p s = Some n -> exists a b, s = a ++ p ++ b /\ n = length a.
Proof.
  revert n. induction s as [|x s IH]; intros n; cbn [find_sub].
  - destruct (prefix_of p []) eqn:E; [|discriminate]. intros H. injection H as <-. apply prefix_ok in E. destruct E as (r & E). exists [], r. auto.
  - destruct (prefix_of p (x :: s)) eqn:E.
    + intros H. injection H as <-. apply prefix_ok in E. destruct E as (r & E). exists [], r. auto.
    + destruct (find_sub p s) as [m|]; [|discriminate]. cbn [option_map]. intros H. injection H as <-. destruct (IH m eq_refl) as (a & b & -> & ->). exists (x :: a), b. auto.
Qed.
(** The first place. *)
Lemma find_first p a b : (forall u x w, a = u ++ x :: w -> prefix_of p (x :: w ++ p ++ b) = false) -> find_sub p (a ++ p ++ b) = Some (length a).
Proof.
  induction a as [|x a IH]; intros H.
  - cbn [app length]. assert (E : prefix_of p (p ++ b) = true) by (apply prefix_ok; eauto). destruct (p ++ b); cbn [find_sub]; rewrite E; reflexivity.
  - cbn [app find_sub length]. change (x :: a ++ p ++ b) with (x :: a ++ p ++ b). rewrite (H [] x a eq_refl). rewrite IH; [reflexivity|]. intros u y w ->. apply (H (x :: u)). reflexivity.
Qed.
Fixpoint sq (s : list Z) : list Z := match s with x :: r => match r with y :: _ => if (x =? 47) && (y =? 47) then sq r else x :: sq r | [] => [x] end | [] => [] end.
Lemma sq_eq x y r : sq (x :: y :: r) = if (x =? 47) && (y =? 47) then sq (y :: r) else x :: sq (y :: r).
Proof. reflexivity. Qed.
Lemma sq_step a b : sq (a ++ 47 :: 47 :: b) = sq (a ++ 47 :: b).
Proof.
  induction a as [|x a IH]; [reflexivity|]. cbn [app]. destruct a as [|y a]; [cbn [app] in *; change (sq (x :: 47 :: 47 :: b)) with (if (x =? 47) && (47 =? 47) then sq (47 :: 47 :: b) else x :: sq (47 :: 47 :: b)); rewrite IH; reflexivity|].
  cbn [app] in *. change (sq (x :: y :: a ++ 47 :: 47 :: b)) with (if (x =? 47) && (y =? 47) then sq (y :: a ++ 47 :: 47 :: b) else x :: sq (y :: a ++ 47 :: 47 :: b)). rewrite IH. reflexivity.
Qed.
Lemma sq_done s : (~ exists a b, s = a ++ [47; 47] ++ b) -> sq s = s.
Proof.
  induction s as [|x s IH]; intros H; [reflexivity|]. destruct s as [|y s]; [reflexivity|]. rewrite sq_eq. destruct (Z.eqb_spec x 47) as [->|]; [destruct (Z.eqb_spec y 47) as [->|]|].
  - elim H. exists [], s. reflexivity.
  - cbn [andb]. f_equal. apply IH. intros (a & b & E). apply H. exists (47 :: a), b. rewrite E. reflexivity.
  - cbn [andb]. f_equal. apply IH. intros (a & b & E). apply H. exists (x :: a), b. rewrite E. reflexivity.
Qed.
Lemma squeeze_ok : forall fuel s, (length s <= fuel)%nat -> squeeze fuel s = Ok (sq s).
Proof.
  induction fuel as [|fuel IH]; intros s L.
  - destruct s; [reflexivity|cbn [length] in L; lia].
  - cbn [squeeze]. destruct (find_sub [47; 47] s) as [n|] eqn:E; [|apply find_none in E; rewrite sq_done by exact E; reflexivity]. apply find_some in E. destruct E as (a & b & -> & ->). cbn [app]. rewrite firstn_len, skipn_len1. rewrite app_length in L. cbn [app length] in L. rewrite IH by (rewrite app_length; cbn [length]; lia). rewrite sq_step. reflexivity.
Qed.
Lemma sq_slashes n c : (forall x r, c = x :: r -> x <> 47) -> sq (repeat 47 (S n) ++ c) = 47 :: sq c.
Proof.
  intros H. induction n as [|n IH].
  - cbn [repeat app]. destruct c as [|x c]; [reflexivity|]. rewrite sq_eq. replace (x =? 47) with false by (pose proof (H x c eq_refl); lia). reflexivity.
  - change (repeat 47 (S (S n)) ++ c) with (47 :: 47 :: repeat 47 n ++ c). change (sq (47 :: 47 :: repeat 47 n ++ c)) with (sq (47 :: repeat 47 n ++ c)). exact IH.
Qed.
Lemma sq_text c s : ~ In 47 c -> sq (c ++ s) = c ++ sq s.
Proof. induction c as [|x c IH]; intros H; [reflexivity|]. cbn [app]. cbn [In] in H. rewrite <- IH by tauto. destruct (c ++ s); [reflexivity|]. rewrite sq_eq. replace (x =? 47) with false by lia. reflexivity. Qed.
Lemma sq_spread c0 cs : ~ In 47 c0 -> Forall (fun p => ~ In 47 (snd p)) cs -> solid cs -> sq (spread c0 cs) = joined c0 (map snd cs).
Proof.
  intros H0 Hc Hs. unfold spread, joined. rewrite sq_text by exact H0. f_equal. clear H0. induction cs as [|[n c] cs IH]; [reflexivity|]. apply Forall_cons_iff in Hc. destruct Hc as [Hc Hcs]. cbn [fst snd] in *. cbn [map concat fst snd].
  assert (IH' : sq (concat (map (fun p => repeat 47 (S (fst p)) ++ snd p) cs)) = concat (map (cons 47) (map snd cs))) by (apply IH; [exact Hcs|intros a x b E Hb; apply (Hs ((n, c) :: a) x b); [rewrite E; reflexivity|exact Hb]]). clear IH.
  rewrite <- app_assoc. destruct c as [|x c].
  - destruct cs as [|d cs]; [cbn [map concat]; change ([] ++ []) with (@nil Z); rewrite (sq_slashes n []) by discriminate; reflexivity|]. exfalso. apply (Hs [] (n, []) (d :: cs) eq_refl); [discriminate|reflexivity].
  - rewrite sq_slashes. 2:{ intros y r E. injection E as <- _. intros ->. apply Hc. left. reflexivity. } cbn [app]. f_equal. change (x :: c ++ ?t) with ((x :: c) ++ t). rewrite sq_text by exact Hc. rewrite IH'. reflexivity.
Qed.

Lemma joined_app c0 a b : joined c0 (a ++ b) = joined c0 a ++ concat (map (cons 47) b).
Proof. unfold joined. rewrite map_app, concat_app, app_assoc. reflexivity. Qed.
Lemma not_dots c t : component c -> c <> DOTDOT -> (t = [] \/ exists t', t = 47 :: t') -> prefix_of [47; 46; 46] (47 :: c ++ t) = false.
Proof.
  intros [_ [E|E]] N Ht; [contradiction|]. cbn [prefix_of]. rewrite Z.eqb_refl. cbn [andb]. destruct c as [|x [|y c]]; cbn [app prefix_of].
  - destruct Ht as [->|(t' & ->)]; [reflexivity|]. reflexivity.
  - destruct Ht as [->|(t' & ->)]; [destruct (46 =? x); reflexivity|destruct (46 =? x); reflexivity].
  - destruct (Z.eqb_spec 46 x) as [<-|]; [|reflexivity]. destruct (Z.eqb_spec 46 y) as [<-|]; [|reflexivity]. elim E. reflexivity.
Qed.
Lemma text_not_slash p x w : x <> 47 -> prefix_of (47 :: p) (x :: w) = false.
Proof. intros H. cbn [prefix_of]. replace (47 =? x) with false by lia. reflexivity. Qed.
Definition upless (c : list Z) : Prop := component c /\ c <> DOTDOT.
Lemma no_dots_in : forall as_ c0, ~ In 47 c0 -> Forall upless as_ -> forall t, (t = [] \/ exists t', t = 47 :: t') ->
  forall u x w, joined c0 as_ = u ++ x :: w -> prefix_of [47; 46; 46] (x :: w ++ t) = false.
Proof.
  intros as_ c0 H0 Ha t Ht u x w E. destruct (Z.eq_dec x 47) as [->|N]; [|apply text_not_slash; exact N].
  assert (G : exists cs1 c cs2, as_ = cs1 ++ c :: cs2 /\ w = c ++ concat (map (cons 47) cs2)).
  { clear Ht. unfold joined in E. assert (E2 : exists u', concat (map (cons 47) as_) = u' ++ 47 :: w).
    { clear -E H0. revert u E. induction c0 as [|y c0 IH]; intros u E; [exists u; exact E|]. destruct u as [|z u]; cbn [app] in E; injection E as E1 E2; [subst y; elim H0; left; reflexivity|]. apply (IH ltac:(intros K; apply H0; right; exact K) u E2). }
    destruct E2 as (u' & E2). clear E H0. revert u' E2. induction as_ as [|c as_ IH]; intros u' E2; [destruct u'; discriminate|]. cbn [map concat] in E2. cbn [app] in E2. apply Forall_cons_iff in Ha. destruct Ha as [Hc Ha]. specialize (IH Ha).
    destruct u' as [|z u']; cbn [app] in E2; [injection E2 as E2|injection E2 as E1 E2].
    - exists [], c, as_. split; [reflexivity|]. symmetry. exact E2.
    - destruct (app_eq_app _ _ _ _ E2) as (m & [[M1 M2]|[M1 M2]]).
      + destruct m as [|m0 m]; [cbn [app] in *|injection M2 as M2 M3].
        * destruct (IH [] ltac:(symmetry; exact M2)) as (cs1 & d & cs2 & -> & ->). exists (c :: cs1), d, cs2. auto.
        * exfalso. destruct Hc as [[Hc _] _]. apply Hc. rewrite M1, <- M2. apply in_or_app. right. left. reflexivity.
      + destruct (IH m M2) as (cs1 & d & cs2 & -> & ->). exists (c :: cs1), d, cs2. auto. }
  destruct G as (cs1 & c & cs2 & -> & ->). apply Forall_app in Ha. destruct Ha as [_ Ha]. apply Forall_cons_iff in Ha. destruct Ha as [[Hc1 Hc2] _]. rewrite <- app_assoc. apply not_dots; [exact Hc1|exact Hc2|]. destruct cs2 as [|d cs2]; [exact Ht|]. right. cbn [map concat app]. eexists. reflexivity.
Qed.
Lemma fold_step c0 as_ bs : ~ In 47 c0 -> Forall upless as_ -> Forall component bs ->
  find_sub [47; 46; 46] (joined c0 (as_ ++ DOTDOT :: bs)) = Some (length (joined c0 as_)).
Proof.
  intros H0 Ha Hb. rewrite joined_app. cbn [map concat]. unfold DOTDOT. cbn [app]. change (47 :: 46 :: 46 :: ?t) with ([47; 46; 46] ++ t). apply find_first. intros u x w E. eapply no_dots_in; [exact H0|exact Ha| |exact E]. right. eexists. reflexivity.
Qed.
Lemma fold_none c0 as_ : ~ In 47 c0 -> Forall upless as_ -> find_sub [47; 46; 46] (joined c0 as_) = None.
Proof.
  intros H0 Ha. apply find_none. intros (a & b & E). cbn [app] in E. pose proof (no_dots_in as_ c0 H0 Ha [] (or_introl eq_refl) a 47 (46 :: 46 :: b) E) as K. cbn in K. discriminate.
Qed.
Lemma split_up cs : Forall component cs -> Forall upless cs \/ exists as_ bs, cs = as_ ++ DOTDOT :: bs /\ Forall upless as_ /\ Forall component bs.
Proof.
  induction 1 as [|c cs Hc Hcs IH]; [left; constructor|]. destruct (list_eq_dec Z.eq_dec c DOTDOT) as [->|N]; [right; exists [], cs; repeat split; [constructor|assumption]|].
  destruct IH as [IH|(as_ & bs & -> & Ha & Hb)]; [left; constructor; [split; assumption|assumption]|]. right. exists (c :: as_), bs. repeat split; [constructor; [split; assumption|assumption]|assumption].
Qed.
Lemma walk_upless : forall as_ st r, Forall upless as_ -> walk st (as_ ++ r) = walk (rev as_ ++ st) r.
Proof.
  induction as_ as [|c as_ IH]; intros st r H; [reflexivity|]. apply Forall_cons_iff in H. destruct H as [[_ Hc] H]. cbn [app walk]. destruct (list_eq_dec Z.eq_dec c DOTDOT); [contradiction|]. rewrite IH by exact H. cbn [rev]. rewrite <- app_assoc. reflexivity.
Qed.
Lemma fold_ok c0 : ~ In 47 c0 -> forall fuel cs, Forall component cs -> (length cs <= fuel)%nat -> fold_up fuel (joined c0 cs) = match walk [] cs with Some r => Ok (joined c0 r) | None => Fuel end.
Proof.
  intros H0. induction fuel as [|fuel IH]; intros cs Hc L.
  - destruct cs; [|cbn [length] in L; lia]. cbn [fold_up]. rewrite (fold_none c0 []) by (assumption || constructor). reflexivity.
  - destruct (split_up cs Hc) as [Hu|(as_ & bs & -> & Ha & Hb)].
    + cbn [fold_up]. rewrite fold_none by assumption. pose proof (walk_upless cs [] [] Hu) as W. rewrite !app_nil_r in W. rewrite W. cbn [walk]. rewrite rev_involutive. reflexivity.
    + cbn [fold_up]. rewrite fold_step by assumption. rewrite joined_app at 1. rewrite firstn_len. rewrite walk_upless by exact Ha. rewrite app_nil_r. cbn [walk]. destruct (list_eq_dec Z.eq_dec DOTDOT DOTDOT) as [_|K]; [|contradiction].
      assert (N : forall c, component c -> rchr 47 c = None) by (intros c [K _]; apply rchr_none; exact K).
      destruct as_ as [|a0 as0] eqn:Ea.
      * cbn [rev app]. unfold joined at 1. cbn [map concat]. rewrite app_nil_r. rewrite (proj2 (rchr_none 47 c0) H0).
        (* nothing changes: every turn is the same *)
        pose proof (fold_step c0 [] bs H0 Ha Hb) as Fs. cbn [app] in Fs. unfold joined at 2 in Fs. cbn [map concat] in Fs. rewrite app_nil_r in Fs.
        assert (Fp : firstn (length c0) (joined c0 (DOTDOT :: bs)) = c0) by (unfold joined; apply firstn_len).
        assert (D : forall f, fold_up f (joined c0 (DOTDOT :: bs)) = Fuel) by (induction f as [|f IHf]; cbn [fold_up]; rewrite Fs; [reflexivity|]; rewrite Fp, (proj2 (rchr_none 47 c0) H0); exact IHf).
        exact (D fuel).
      * rewrite <- Ea in *. assert (Nn : as_ <> []) by (rewrite Ea; discriminate). clear Ea a0 as0. destruct (exists_last Nn) as (ai & x & ->). clear Nn. rewrite rev_unit. cbn [app].
        apply Forall_app in Ha. destruct Ha as [Ha Hx]. apply Forall_cons_iff in Hx. destruct Hx as [[Hx _] _].
        assert (Er : rchr 47 (joined c0 (ai ++ [x])) = Some (length (joined c0 ai))). { rewrite joined_app. cbn [map concat]. rewrite app_nil_r. apply rchr_app. apply Hx. }
        rewrite Er. assert (S1 : firstn (length (joined c0 ai)) (joined c0 ((ai ++ [x]) ++ DOTDOT :: bs)) = joined c0 ai) by (rewrite <- app_assoc, joined_app; apply firstn_len).
        assert (S2 : skipn (length (joined c0 (ai ++ [x])) + 3) (joined c0 ((ai ++ [x]) ++ DOTDOT :: bs)) = concat (map (cons 47) bs)).
        { rewrite (joined_app c0 (ai ++ [x]) (DOTDOT :: bs)). cbn [map concat]. change ((47 :: DOTDOT) ++ concat (map (cons 47) bs)) with ([47; 46; 46] ++ concat (map (cons 47) bs)). rewrite app_assoc. replace (length (joined c0 (ai ++ [x])) + 3)%nat with (length (joined c0 (ai ++ [x]) ++ [47; 46; 46])) by (rewrite app_length; reflexivity). apply skipn_len. }
        rewrite S1, S2, <- joined_app. rewrite IH; [|apply Forall_app; split; [eapply Forall_impl; [|exact Ha]; intros c [K _]; exact K|exact Hb]|rewrite !app_length in L; cbn [length] in L; rewrite app_length; lia].
        rewrite walk_upless by exact Ha. rewrite app_nil_r. reflexivity.
Qed.
Lemma fold_diverges c0 cs : ~ In 47 c0 -> Forall component cs -> walk [] cs = None -> forall fuel, fold_up fuel (joined c0 cs) = Fuel.
Proof.
  intros H0 Hc Hw fuel. assert (M : forall f s, fold_up f s = Fuel -> forall g, (g <= f)%nat -> fold_up g s = Fuel).
  { clear. induction f as [|f IH]; intros s H g L; cbn [fold_up] in *; [replace g with O by lia; cbn [fold_up]; exact H|]. destruct g as [|g]; cbn [fold_up]; destruct (find_sub [47; 46; 46] s); try discriminate; [reflexivity|]. apply IH; [exact H|lia]. }
  apply (M (Nat.max fuel (length cs))); [|lia]. rewrite fold_ok by (try assumption; lia). rewrite Hw. reflexivity.
Qed.
Lemma sq_length s : (length (sq s) <= length s)%nat.
Proof. induction s as [|x s IH]; [cbn; lia|]. destruct s as [|y s]; [cbn; lia|]. rewrite sq_eq. destruct (_ && _); cbn [length] in *; lia. Qed.
Lemma joined_length c0 cs : (length cs <= length (joined c0 cs))%nat.
Proof. unfold joined. rewrite app_length. induction cs as [|c cs IH]; cbn [map concat length]; [lia|]. rewrite app_length. cbn [length]. lia. Qed.
(** The whole. *)
Lemma body_at s pre body : body_of s pre body -> (match find_sub [58; 47; 47] s with Some i => (i + 3)%nat | None => O end) = length pre /\ s = pre ++ body.
Proof.
  intros [(-> & -> & H)|(x & -> & -> & H)].
  - apply find_none in H. rewrite H. auto.
  - rewrite <- app_assoc. rewrite find_first; [rewrite app_length; auto|]. intros u y w ->. cbn [prefix_of]. destruct (Z.eqb_spec 58 y) as [<-|]; [|reflexivity]. elim H. apply in_or_app. right. left. reflexivity.
Qed.
Lemma reduce_ok s pre c0 cs : body_of s pre (spread c0 cs) -> ~ In 47 c0 -> Forall (fun p => component (snd p)) cs -> solid cs -> forall fuel, (length s <= fuel)%nat ->
  reduce_local_path fuel s = match walk [] (map snd cs) with Some r => Ok (pre ++ joined c0 r) | None => Fuel end.
Proof.
  intros B H0 Hc Hs fuel L. destruct (body_at _ _ _ B) as [A E]. unfold reduce_local_path. rewrite A. assert (Sk : skipn (length pre) s = spread c0 cs) by (rewrite E; apply skipn_len). assert (Fk : firstn (length pre) s = pre) by (rewrite E; apply firstn_len). rewrite Sk, Fk. rewrite E, app_length in L. rewrite squeeze_ok by lia. cbn [bind].
  pose proof (sq_length (spread c0 cs)) as Ls. assert (Sp : sq (spread c0 cs) = joined c0 (map snd cs)) by (apply sq_spread; try assumption; eapply Forall_impl; [|exact Hc]; intros p [K _]; exact K). rewrite Sp in *. pose proof (joined_length c0 (map snd cs)).
  rewrite fold_ok; [|assumption|rewrite Forall_map; exact Hc|lia]. destruct (walk [] (map snd cs)); reflexivity.
Qed.
Lemma reduce_diverges s pre c0 cs : body_of s pre (spread c0 cs) -> ~ In 47 c0 -> Forall (fun p => component (snd p)) cs -> solid cs -> walk [] (map snd cs) = None -> forall fuel, reduce_local_path fuel s = Fuel.
Proof.
  intros B H0 Hc Hs Hw fuel. destruct (body_at _ _ _ B) as [A E]. unfold reduce_local_path. rewrite A. assert (Sk : skipn (length pre) s = spread c0 cs) by (rewrite E; apply skipn_len). rewrite Sk.
  assert (Q : squeeze fuel (spread c0 cs) = Fuel \/ squeeze fuel (spread c0 cs) = Ok (sq (spread c0 cs))).
  { clear. revert fuel. intros fuel. generalize (spread c0 cs). induction fuel as [|fuel IH]; intros s; cbn [squeeze]; destruct (find_sub [47; 47] s) as [n|] eqn:K; auto; try (right; apply find_none in K; rewrite sq_done by exact K; reflexivity).
    destruct (find_some _ _ _ K) as (a & b & -> & ->). cbn [app]. rewrite firstn_len, skipn_len1. rewrite sq_step. apply IH. }
  destruct Q as [Q|Q]; rewrite Q; [reflexivity|]. cbn [bind]. assert (Sp : sq (spread c0 cs) = joined c0 (map snd cs)) by (apply sq_spread; try assumption; eapply Forall_impl; [|exact Hc]; intros p [K _]; exact K). rewrite Sp. rewrite fold_diverges; [reflexivity|assumption|rewrite Forall_map; exact Hc|assumption].
Qed.

(** ** CheckExts *)
Lemma exts_ok : forall l fuel ext, Forall (fun p => ~ In 58 (fst p) /\ ~ In 59 (fst p) /\ snd p <> 59) l -> (length (ext_list l) < fuel)%nat ->
  (exists l1 e t l2, l = l1 ++ (e, t) :: l2 /\ same_text ext e /\ Forall (fun p => ~ same_text ext (fst p)) l1 /\ exts_loop fuel ext (ext_list l) = Ok (s8 t)) \/
  (Forall (fun p => ~ same_text ext (fst p)) l /\ exts_loop fuel ext (ext_list l) = Ok 0).
Proof.
  assert (S : forall e t tl ext, ~ In 58 e -> (length ext =? length e)%nat && nicmp_same (length e) ext (e ++ 58 :: t :: tl) = true <-> same_text ext e).
  { intros e t tl ext He. unfold nicmp_same. rewrite firstn_len. rewrite andb_true_iff, Nat.eqb_eq, list_same_ok. split; [intros [L H]; rewrite firstn_all2 in H by lia; exact H|]. intros H. assert (L : length ext = length e) by (clear -H; induction H; cbn [length]; congruence). split; [exact L|]. rewrite firstn_all2 by lia. exact H. }
  induction l as [|[e t] l IH]; intros fuel ext H L.
  - right. split; [constructor|]. destruct fuel; [cbn in L; lia|]. reflexivity.
  - apply Forall_cons_iff in H. destruct H as [(H1 & H2 & H3) H]. cbn [fst snd] in *. destruct fuel as [|fuel]; [lia|].
    assert (X : exists tl, ext_list ((e, t) :: l) = e ++ 58 :: t :: tl /\ (tl = [] /\ l = [] \/ tl = 59 :: ext_list l)).
    { destruct l as [|p l]; [exists []; cbn [ext_list]; auto|]. exists (59 :: ext_list (p :: l)). split; [reflexivity|]. right. reflexivity. }
    destruct X as (tl & X & Y). cbn [exts_loop]. rewrite X. rewrite chr_app by exact H1. destruct ((length ext =? length e)%nat && nicmp_same (length e) ext (e ++ 58 :: t :: tl)) eqn:K.
    + apply S in K; [|exact H1]. left. exists [], e, t, l. split; [reflexivity|]. split; [exact K|]. split; [constructor|]. unfold char_of. rewrite app_nth2 by lia. replace (length e + 1 - length e)%nat with 1%nat by lia. reflexivity.
    + assert (K' : ~ same_text ext e) by (intros Q; apply (S e t tl) in Q; [congruence|exact H1]). destruct Y as [[-> ->] | ->].
      * replace (chr 59 (e ++ [58; t])) with (@None nat). 2:{ symmetry. apply chr_none. intros Q. apply in_app_or in Q. destruct Q as [Q|[Q|[Q|[]]]]; [contradiction|discriminate|congruence]. }
        right. split; [constructor; [exact K'|constructor]|reflexivity].
      * replace (e ++ 58 :: t :: 59 :: ext_list l) with ((e ++ [58; t]) ++ 59 :: ext_list l) by (rewrite <- app_assoc; reflexivity). rewrite chr_app by (intros Q; apply in_app_or in Q; destruct Q as [Q|[Q|[Q|[]]]]; [contradiction|discriminate|congruence]). rewrite skipn_len1.
        rewrite X, app_length in L. cbn [length] in L. destruct (IH fuel ext H ltac:(lia)) as [(l1 & e' & t' & l2 & -> & Q1 & Q2 & Q3)|(Q1 & Q2)].
        -- left. exists ((e, t) :: l1), e', t', l2. split; [reflexivity|]. split; [exact Q1|]. split; [constructor; assumption|exact Q3].
        -- right. split; [constructor; assumption|exact Q2].
Qed.
