From Coq Require Import String Ascii.
From Verif Require Import Base BaseProofs Tree Str StrSpec StrProofs StrProofs2 Scan Path MkArgs MkArgsSpec MkArgsProofs.

Lemma doctype_v v d : doctype v d -> text v /\ doctype_of v = Some d.
Proof.
  unfold doctype. cbn [In]. intros H.
  repeat (destruct H as [H|H]; [injection H as <- <-; split; [txtd|vm_compute; reflexivity]|]). destruct H.
Qed.
Lemma with_snoc full l s n v : item_ok full (With n v) -> asked l s ->
  exists s', value n v s = Some (Ok (Some s')) /\ asked (l ++ [With n v]) s'.
Proof.
  intros H A. inversion H; subst; clear H.
  - destruct (doctype_v v d H3) as [Tv Ev]. destruct H4 as [T _].
    exists (set_dst d s). split.
    + rewrite (value_cong n (txt "--doctype") v s T) by (try txtd; exact H2). unfold value.
      change (same (txt "--doctype") N_DOCTYPE) with true. cbn iota. rewrite Ev. reflexivity.
    + assert (S' : same_text (name_of (With n v)) (txt "--doctype")) by exact H2.
      allnames (With n v) "--doctype"%string T. fld A.
      * intros G. rewrite given_snoc in G. tauto.
      * intros w. rewrite last_snoc. intros [(m & E & _)|[N _]]; [injection E as <- <-; exact H3|contradiction].
  - destruct H3 as [T _]. exists (set_scale k s). split.
    + rewrite (value_cong n (txt "--timecodescale") v s T) by (try txtd; exact H2). unfold value.
      change (same (txt "--timecodescale") N_DOCTYPE) with false. change (same (txt "--timecodescale") N_SCALE) with true. cbn iota. rewrite H5. reflexivity.
    + assert (S' : same_text (name_of (With n v)) (txt "--timecodescale")) by exact H2.
      allnames (With n v) "--timecodescale"%string T. fld A.
      * intros G. rewrite given_snoc in G. tauto.
      * intros w. rewrite last_snoc. intros [(m & E & _)|[N _]]; [injection E as <- <-; exact H5|contradiction].
  - destruct H3 as [T _]. destruct (mark_ok (o_alt s) k H6) as (l' & El & Nl & Hl). exists (set_alt l' s). split.
    + rewrite (value_cong n (txt "--alt-3d") v s T) by (try txtd; exact H2). unfold value.
      change (same (txt "--alt-3d") N_DOCTYPE) with false. change (same (txt "--alt-3d") N_SCALE) with false. change (same (txt "--alt-3d") N_ALT) with true.
      cbn iota. rewrite H5. cbn [bind]. rewrite El. reflexivity.
    + assert (S' : same_text (name_of (With n v)) (txt "--alt-3d")) by exact H2.
      allnames (With n v) "--alt-3d"%string T. fld A.
      * rewrite given_snoc. split; [intros ->; contradiction|intros G; elim G; auto].
      * intros id Hid. fold (alt_in id (l ++ [With n v])). rewrite alt_snoc, (Hl id Hid). rewrite (a_alt id Hid). unfold alt_in. split.
        -- intros [X| ->]; [left; exact X|right; exists n, v; auto].
        -- intros [X|(n' & v' & E & _ & E2)]; [left; exact X|]. injection E as <- <-. right. rewrite H5 in E2. congruence.
  - match goal with X : arg_ok _ n |- _ => destruct X as [T _] end. match goal with X : same_text n _ |- _ => rename X into S end. exists (set_zlib s). split.
    + rewrite (value_cong n (txt "--compalgo") _ s T) by (try txtd; exact S). reflexivity.
    + assert (S' : same_text (name_of (With n (txt "0"))) (txt "--compalgo")) by exact S.
      allnames (With n (txt "0")) "--compalgo"%string T. fld A.
Qed.
Lemma asked0 : asked [] settings0.
Proof.
  constructor; cbn [settings0 o_keep o_remux o_live o_unsafe o_opt o_optv o_noopt o_regr o_quiet o_version o_usage o_dst o_scale o_zlib o_alt];
    try (split; [discriminate|intros G; first [elim (given_nil _ G)|destruct G as [G|G]; elim (given_nil _ G)]]); try reflexivity.
  - split; [discriminate|]. intros (a & i & b & E & _). destruct a; discriminate.
  - intros v (a & m & b & E & _). destruct a; discriminate.
  - intros v (a & m & b & E & _). destruct a; discriminate.
  - split; [intros _; apply given_nil|reflexivity].
  - intros id H. split.
    + rewrite nth_overflow by (cbn [length]; lia). discriminate.
    + intros (n & v & [] & _).
Qed.

Lemma alone_flag n m : In m alone_names -> same_text n (txt m) -> text n -> exists f, flag n = Some f.
Proof.
  intros Hm S T. rewrite (flag_cong n (txt m) T (names_text m (in_or_app _ _ _ (or_introl Hm))) S).
  cbn [alone_names In] in Hm. repeat (destruct Hm as [<-|Hm]; [eexists; vm_compute; reflexivity|]). destruct Hm.
Qed.
Lemma with_noflag full n v : item_ok full (With n v) -> flag n = None.
Proof.
  intros H. inversion H; subst; clear H;
    match goal with X : same_text n (txt ?m), Y : arg_ok _ n |- _ => rewrite (flag_cong n (txt m)); [vm_compute; reflexivity|exact (proj1 Y)|txtd|exact X] end.
Qed.
Lemma item_cut full i : 8 <= full -> item_ok full i -> match i with Alone n => cut full n = n | With n v => cut full n = n /\ cut full v = v end.
Proof.
  intros F H. inversion H; subst; try (split; apply cut_fit); try apply cut_fit; try (match goal with X : arg_ok _ _ |- _ => apply X end).
  - match goal with X : doctype v d |- _ => unfold doctype in X; cbn [In] in X; repeat (destruct X as [X|X]; [injection X as <- _; change (1 < full); lia|]); destruct X end.
  - change (1 < full). lia.
Qed.

Lemma parse_items full : 8 <= full -> forall l d s, Forall (item_ok full) l -> asked d s ->
  exists s', asked (d ++ l) s' /\ forall files inp, files <> [] -> parse full s inp (words l ++ files) = parse full s' (match l with [] => inp | _ => files end) files.
Proof.
  intros F. induction l as [|i l IH]; intros d s Hl A.
  - exists s. rewrite app_nil_r. split; [exact A|reflexivity].
  - inversion Hl as [|? ? Hi Hl']; subst. pose proof (item_cut full i F Hi) as C.
    replace (d ++ i :: l) with ((d ++ [i]) ++ l) by (rewrite <- app_assoc; reflexivity).
    destruct i as [n|n v].
    + inversion Hi; subst. destruct (alone_flag n m H0 H1 (proj1 H2)) as [f Ef].
      destruct (IH (d ++ [Alone n]) (f s) Hl' (alone_snoc _ _ _ _ _ H0 H1 (proj1 H2) Ef A)) as (s' & A' & E).
      exists s'. split; [exact A'|]. intros files inp Nf. cbn [words map concat app parse]. fold (words l). rewrite C, Ef, (E files _ Nf). destruct l; reflexivity.
    + destruct (with_snoc full d s n v Hi A) as (s1 & Ev & A1).
      destruct (IH (d ++ [With n v]) s1 Hl' A1) as (s' & A' & E).
      exists s'. split; [exact A'|]. intros files inp Nf. cbn [words map concat app parse]. fold (words l). destruct C as [-> ->].
      assert (N : exists x y, words l ++ files = x :: y) by (destruct (words l), files; try congruence; cbn [app]; eauto).
      rewrite (with_noflag full n v Hi), Ev. destruct N as (x & y & Exy). rewrite Exy. cbn [bind]. rewrite <- Exy, (E files _ Nf). destruct l; reflexivity.
Qed.
Lemma parse_files full : forall files s inp, Forall (fun a => arg_ok full a /\ no_flag a) files -> (length files <= 2)%nat -> parse full s inp files = Ok (Parsed s inp).
Proof.
  intros files s inp H L. destruct files as [|a [|b [|c r]]]; cbn [length] in L; try lia; [reflexivity|..].
  - inversion H as [|? ? [[T F] N] _]; subst. cbn [parse]. rewrite cut_fit, no_flag_none by assumption. reflexivity.
  - inversion H as [|? ? [[T F] N] H']; subst. inversion H' as [|? ? [[T2 F2] N2] _]; subst.
    cbn [parse]. rewrite !cut_fit, !no_flag_none by assumption. reflexivity.
Qed.
Lemma parse_skip full s inp x y z rest : arg_ok full x -> no_option x -> parse full s inp (x :: y :: z :: rest) = parse full s inp (y :: z :: rest).
Proof.
  intros [T F] N. remember (y :: z :: rest) as r eqn:Er. cbn [parse]. rewrite cut_fit by exact F. rewrite (no_flag_none x T (no_option_flag x N)). rewrite Er at 1.
  rewrite (no_option_none x _ s T N). reflexivity.
Qed.
