From Coq Require Import Permutation.
From Verif Require Import Base BaseProofs Tree Stream Ebml Str Scan Path PathSpec PathProofs PathProofs2 PathProofs3 Dirs DirsSpec.

Lemma remove_one_ok n l : In n l -> exists l', remove_one n l = Some l' /\ Permutation l (n :: l').
Proof.
  induction l as [|x l IH]; [intros []|]. intros H. cbn [remove_one]. destruct (Nat.eqb_spec x n) as [->|N].
  - exists l. split; [reflexivity|apply Permutation_refl].
  - destruct H as [H|H]; [contradiction|]. destruct (IH H) as (l' & -> & P). exists (x :: l'). split; [reflexivity|].
    apply (Permutation_trans (l' := x :: n :: l')); [apply perm_skip; exact P|apply perm_swap].
Qed.

Lemma exts_total : forall fuel ext x, (length x < fuel)%nat -> exists t, exts_loop fuel ext x = Ok t.
Proof.
  induction fuel as [|fuel IH]; intros ext x H; [lia|]. cbn [exts_loop].
  assert (G : exists t, match chr 59 x with Some q => exts_loop fuel ext (skipn (q + 1) x) | None => Ok 0 end = Ok t).
  { destruct (chr 59 x) as [q|] eqn:K; [|eexists; reflexivity]. destruct x as [|c x]; [discriminate K|].
    apply IH. rewrite skipn_length. cbn [length] in *. lia. }
  destruct (chr 58 x); [|exact G]. destruct (_ && _); [eexists; reflexivity|exact G].
Qed.
Lemma check_total name exts : zlen name < 4096 -> exists t, check_exts 4096 name exts = Ok t.
Proof.
  intros H. unfold check_exts. destruct (split_ok 4096 name) as (d & f & g & n & e & _ & _ & _ & -> & _); [lia|left; exact H|]. cbn [bind].
  destruct exts as [x|]; [apply exts_total; lia|eexists; reflexivity].
Qed.

Lemma hidden_ok name : name <> [] -> (char_of name 0 =? 46) = true <-> hidden name.
Proof.
  intros N. destruct name as [|c name]; [contradiction|]. unfold char_of. cbn [nth]. rewrite Z.eqb_eq. split.
  - intros ->. exists name. reflexivity.
  - intros (r & [= -> _]). reflexivity.
Qed.

Lemma cut_small s : zlen s < 4096 -> cut 4096 s = s.
Proof. intros H. unfold cut. apply firstn_all2. unfold zlen in H. lia. Qed.
Lemma cat_small s t : zlen s + zlen t < 4096 -> cat 4096 s t = s ++ t.
Proof. intros H. unfold cat. pose proof (zlen_nonneg t). rewrite (proj2 (Z.ltb_lt _ _)) by lia. apply cut_small. rewrite zlen_app. lia. Qed.

Lemma dirpath_ok path : zlen path + 2 < 4096 -> add_delim MAXPATH (cut MAXPATH (match path with [] => [47] | _ => path end)) = dirpath path.
Proof.
  intros H. unfold MAXPATH, dirpath. destruct path as [|c p]; [reflexivity|]. rewrite cut_small by lia. unfold add_delim, ends_in_slash.
  assert (Z0 : zlen (c :: p) =? 0 = false) by (rewrite zlen_cons; pose proof (zlen_nonneg p); apply Z.eqb_neq; lia). rewrite Z0. cbn [orb].
  destruct (last (c :: p) 0 =? 47); cbn [negb]; [reflexivity|]. apply cat_small. change (zlen [47]) with 1. lia.
Qed.
Lemma dirpath_len path : zlen (dirpath path) <= zlen path + 1.
Proof. unfold dirpath. destruct path as [|c p]; [cbn; lia|]. destruct (_ =? 47); [lia|]. rewrite zlen_app. change (zlen [47]) with 1. lia. Qed.

Section D.
Context (stat : list Z -> option fstat).

Definition good_left (dir : list Z) (name : list Z) : Prop := name <> [] /\ zlen dir + zlen name < 4096 /\ (~ hidden name -> stat (dir ++ name) <> None).

Lemma enum_ok dir exts filter l : zlen dir < 4096 -> Forall (good_left dir) l ->
  exists o rest, enum_loop stat dir exts filter l = Ok (o, rest) /\ (exists gone, l = gone ++ rest) /\
    forall items, listing stat dir exts filter l items -> match o with None => items = [] | Some i => exists items', items = i :: items' /\ listing stat dir exts filter rest items' end.
Proof.
  intros HD. induction 1 as [|name l (N & L & S) F IH]; cbn [enum_loop].
  - exists None, []. split; [reflexivity|]. split; [exists []; reflexivity|]. intros items H. inversion H. reflexivity.
  - destruct IH as (o & rest & E & (gone & G) & C).
    assert (Skip : (forall a, adds stat dir exts filter name a -> a = []) -> exists o' rest', enum_loop stat dir exts filter l = Ok (o', rest') /\ (exists gone, name :: l = gone ++ rest') /\
      forall items, listing stat dir exts filter (name :: l) items -> match o' with None => items = [] | Some i => exists items', items = i :: items' /\ listing stat dir exts filter rest' items' end).
    { intros A. exists o, rest. split; [exact E|]. split; [exists (name :: gone); rewrite G; reflexivity|]. intros items H. inversion H as [|nm ns a b Ha Hb X Y]; subst. rewrite (A a Ha). apply C. exact Hb. }
    destruct (char_of name 0 =? 46) eqn:Hid.
    + apply Skip. apply (hidden_ok name N) in Hid. intros a Ha. inversion Ha; subst; try contradiction; reflexivity.
    + assert (NH : ~ hidden name) by (intros K; apply (hidden_ok name N) in K; congruence).
      pose proof (zlen_nonneg dir) as Z0. unfold MAXPATH. rewrite (cut_small dir) by lia. rewrite cat_small by lia. rewrite (cut_small name) by lia.
      assert (NZ : zlen name =? 0 = false). { destruct name as [|c r]; [contradiction|]. rewrite zlen_cons. pose proof (zlen_nonneg r). apply Z.eqb_neq. lia. }
      specialize (S NH). destruct (stat (dir ++ name)) as [[n|]|] eqn:St; [| |contradiction].
      * destruct (check_total name exts) as (t & T); [lia|]. rewrite T. cbn [bind]. rewrite NZ, Bool.orb_false_r.
        destruct ((t =? 0) && filter) eqn:K.
        -- apply Skip. apply Bool.andb_true_iff in K as (K1 & K2). apply Z.eqb_eq in K1. subst t. intros a Ha. inversion Ha; subst; try reflexivity; try congruence.
           rewrite T in H1. injection H1 as <-. destruct H2; [contradiction|congruence].
        -- exists (Some (mkItem name n t)), l. split; [reflexivity|]. split; [exists [name]; reflexivity|]. intros items H. inversion H as [|nm ns a b Ha Hb X Y]; subst.
           inversion Ha; subst; try contradiction; try congruence.
           ++ rewrite St in H1. injection H1 as <-. rewrite T in H2. injection H2 as <-. exists b. split; [reflexivity|exact Hb].
           ++ rewrite T in H2. injection H2 as ->. discriminate.
      * rewrite NZ. exists (Some (mkItem name INVALID_FILEPOS FTYPE_DIR)), l. split; [reflexivity|]. split; [exists [name]; reflexivity|]. intros items H. inversion H as [|nm ns a b Ha Hb X Y]; subst.
        inversion Ha; subst; try contradiction; try congruence. exists b. split; [reflexivity|exact Hb].
Qed.

Definition inv (others : list nat) (p : proc) : Prop :=
  Permutation (p_open p) (handles (p_strm p) ++ others) /\ NoDup (p_open p) /\ Forall (fun n => (n < p_next p)%nat) (p_open p) /\
  match p_strm p with
  | Some s => match s_dir s with Some (_, l) => zlen (s_path s) < 4096 /\ Forall (good_left (s_path s)) l | None => True end
  | None => True
  end.

Lemma close_ok o l rest : Permutation l (match o with Some n => [n] | None => [] end ++ rest) -> exists l', close o l = Ok l' /\ Permutation l' rest.
Proof.
  destruct o as [n|]; cbn [app close]; intros P; [|exists l; auto].
  destruct (remove_one_ok n l) as (l' & -> & Q); [apply (Permutation_in (l := n :: rest)); [apply Permutation_sym; exact P|left; reflexivity]|].
  exists l'. split; [reflexivity|]. apply (Permutation_cons_inv (a := n)). apply (Permutation_trans (l' := l)); [apply Permutation_sym; exact Q|exact P].
Qed.

Lemma nodup_r (x rest : list nat) : NoDup (x ++ rest) -> NoDup rest.
Proof. induction x as [|a x IH]; [auto|]. cbn [app]. intros H. inversion H. auto. Qed.
Lemma perm_sub (l l' : list nat) b rest x : Permutation l (x ++ rest) -> Permutation l' rest -> NoDup l -> Forall (fun n => (n < b)%nat) l -> NoDup l' /\ Forall (fun n => (n < b)%nat) l'.
Proof.
  intros P Q N F. split.
  - apply (Permutation_NoDup (l := rest)); [apply Permutation_sym; exact Q|]. apply (nodup_r x). apply (Permutation_NoDup (l := l)); auto.
  - rewrite Forall_forall in *. intros n I. apply F. apply (Permutation_in (l := x ++ rest)); [apply Permutation_sym; exact P|]. apply in_or_app. right. apply (Permutation_in (l := l')); auto.
Qed.

Lemma fresh_ok b l : NoDup l -> Forall (fun n => (n < b)%nat) l -> NoDup (b :: l) /\ Forall (fun n => (n < S b)%nat) (b :: l).
Proof.
  intros N F. rewrite Forall_forall in F. split.
  - constructor; [|exact N]. intros I. specialize (F b I). lia.
  - apply Forall_forall. intros n [<-|I]; [lia|]. specialize (F n I). lia.
Qed.

Lemma step_ok others p c : inv others p -> good_call stat c -> exists p' e i, dstep stat p c = Ok (p', e, i) /\ inv others p'.
Proof.
  intros (P & N & F & G) C. unfold dstep. destruct p as [op nx [s|]]; cbn [p_strm p_open p_next] in *; [|eexists _, _, _; split; [reflexivity|split; auto]].
  destruct s as [fd dir path]. cbn [s_fd s_dir s_path handles] in *.
  destruct c as [name works|dpath found|exts filter|]; cbn [good_call] in C.
  - unfold open_file. cbn [s_fd p_open]. rewrite <- app_assoc in P.
    destruct (close_ok fd op _ P) as (l & -> & Q). cbn [bind]. destruct (perm_sub op l nx _ _ P Q N F) as (N' & F').
    destruct name; cbn [negb]; [destruct works; cbn [negb]|].
    + cbn [bind p_next]. destruct (fresh_ok nx l N' F') as (N2 & F2). eexists _, _, _. split; [reflexivity|]. split; [|auto]. cbn [p_open p_strm handles s_fd s_dir app]. apply perm_skip. exact Q.
    + cbn [bind]. eexists _, _, _. split; [reflexivity|]. split; [exact Q|auto].
    + cbn [bind]. eexists _, _, _. split; [reflexivity|]. split; [exact Q|auto].
  - unfold open_dir, dir_handle. cbn [s_dir p_open].
    assert (P' : Permutation op (match (match dir with Some (n, _) => Some n | None => None end) with Some n => [n] | None => [] end ++ (match fd with Some n => [n] | None => [] end ++ others))).
    { apply (Permutation_trans P). rewrite <- app_assoc. destruct dir as [(n & l)|]; [|apply Permutation_refl]. cbn [app]. apply Permutation_sym, Permutation_middle. }
    destruct (close_ok _ op _ P') as (l & -> & Q). cbn [bind]. destruct (perm_sub op l nx _ _ P' Q N F) as (N' & F').
    destruct found as [names|b]; cbn [bind p_next s_fd s_path].
    + destruct (fresh_ok nx l N' F') as (N2 & F2). destruct C as (C0 & C). eexists _, _, _. split; [reflexivity|]. rewrite dirpath_ok by exact C0.
      split; [|split; [exact N2|split; [exact F2|]]].
      * cbn [p_open p_strm handles s_fd s_dir]. apply (Permutation_trans (l' := nx :: (match fd with Some n => [n] | None => [] end ++ others))); [apply perm_skip; exact Q|].
        rewrite <- app_assoc. cbn [app]. apply Permutation_middle.
      * cbn [p_strm s_dir s_path]. pose proof (dirpath_len dpath) as DL. split; [lia|]. revert C. apply Forall_impl. intros nm (A1 & A2 & A3). split; [exact A1|]. split; [lia|exact A3].
    + eexists _, _, _. split; [reflexivity|]. split; [|split; [exact N'|split; [exact F'|exact I]]]. cbn [p_open p_strm handles s_fd s_dir app]. rewrite app_nil_r. exact Q.
  - unfold enum_dir. cbn [s_dir s_path]. destruct dir as [(n & l)|]; [|eexists _, _, _; split; [reflexivity|split; auto]].
    destruct G as (G0 & G1). destruct (enum_ok path exts filter l G0 G1) as (o & rest & -> & (gone & Eg) & _). cbn [bind].
    destruct o as [i|].
    + eexists _, _, _. split; [reflexivity|]. split; [exact P|]. split; [exact N|]. split; [exact F|]. cbn [p_strm s_dir s_path]. split; [exact G0|]. rewrite Eg in G1. apply Forall_app in G1. apply G1.
    + cbn [p_open p_next s_fd].
      assert (P' : Permutation op ([n] ++ (match fd with Some n => [n] | None => [] end ++ others))).
      { apply (Permutation_trans P). rewrite <- app_assoc. cbn [app]. apply Permutation_sym, Permutation_middle. }
      destruct (close_ok (Some n) op _ P') as (l' & -> & Q). cbn [bind]. destruct (perm_sub op l' nx _ _ P' Q N F) as (N' & F').
      eexists _, _, _. split; [reflexivity|]. split; [|split; [exact N'|split; [exact F'|exact I]]]. cbn [p_open p_strm handles s_fd s_dir app]. rewrite app_nil_r. exact Q.
  - unfold delete, dir_handle. cbn [s_fd s_dir p_open]. rewrite <- app_assoc in P. destruct (close_ok fd op _ P) as (l & -> & Q). cbn [bind]. destruct (perm_sub op l nx _ _ P Q N F) as (N' & F').
    assert (Q' : Permutation l (match (match dir with Some (n, _) => Some n | None => None end) with Some n => [n] | None => [] end ++ others)) by (destruct dir as [(n & r)|]; exact Q).
    destruct (close_ok _ l _ Q') as (l2 & -> & Q2). cbn [bind]. destruct (perm_sub l l2 nx _ _ Q' Q2 N' F') as (N2 & F2).
    eexists _, _, _. split; [reflexivity|]. split; [exact Q2|auto].
Qed.

Lemma runs_ok others l : forall p, inv others p -> Forall (good_call stat) l -> exists p' r, druns stat p l = Ok (p', r) /\ inv others p'.
Proof.
  induction l as [|c l IH]; intros p I G; cbn [druns]; [eexists _, _; split; [reflexivity|exact I]|].
  apply Forall_cons_iff in G as (G1 & G2). destruct (step_ok others p c I G1) as (q & e & i & -> & I2). cbn [bind Datatypes.fst Datatypes.snd].
  destruct (IH q I2 G2) as (p' & r & -> & I3). cbn [bind Datatypes.fst Datatypes.snd]. eexists _, _. split; [reflexivity|exact I3].
Qed.

Lemma start_ok others next : NoDup others -> Forall (fun n => (n < next)%nat) others -> inv others (dstart others next).
Proof. intros N F. split; [apply Permutation_refl|]. split; [exact N|]. split; [exact F|exact I]. Qed.

Lemma listing_total dir exts filter l : Forall (good_left dir) l -> exists items, listing stat dir exts filter l items.
Proof.
  induction 1 as [|name l (N & L & S) F (b & IH)]; [exists []; constructor|].
  assert (A : exists a, adds stat dir exts filter name a).
  { destruct (char_of name 0 =? 46) eqn:Hid; [exists []; apply ad_hidden; apply (hidden_ok name N); exact Hid|].
    assert (NH : ~ hidden name) by (intros K; apply (hidden_ok name N) in K; congruence). specialize (S NH).
    destruct (stat (dir ++ name)) as [[n|]|] eqn:St; [| |contradiction].
    - pose proof (zlen_nonneg dir). destruct (check_total name exts) as (t & T); [lia|]. destruct (Z.eq_dec t 0) as [->|NZ].
      + destruct filter eqn:K; [exists []; apply (ad_other _ _ _ _ _ n); auto|exists [mkItem name n 0]; apply ad_file; auto].
      + exists [mkItem name n t]. apply ad_file; auto.
    - exists [mkItem name (-1) 68]. apply ad_dir; auto. }
  destruct A as (a & A). exists (a ++ b). constructor; assumption.
Qed.

Lemma ends exts filter k : forall p s, p_strm p = Some s -> s_dir s = None -> druns stat p (repeat (DEnum exts filter) k) = Ok (p, repeat (ERR_END_OF_FILE, None) k).
Proof.
  induction k as [|k IH]; intros p s H D; [reflexivity|]. cbn [repeat druns]. unfold dstep. rewrite H. unfold enum_dir. rewrite D. cbn [bind Datatypes.fst Datatypes.snd].
  rewrite (IH p s H D). reflexivity.
Qed.

Lemma enums exts filter k : forall items others p s n l, inv others p -> p_strm p = Some s -> s_dir s = Some (n, l) -> listing stat (s_path s) exts filter l items ->
  exists p', druns stat p (repeat (DEnum exts filter) (length items + S k)) = Ok (p', map (fun i => (ERR_NONE, Some i)) items ++ repeat (ERR_END_OF_FILE, None) (S k)) /\
    inv others p' /\ exists s', p_strm p' = Some s' /\ s_dir s' = None /\ s_fd s' = s_fd s.
Proof.
  induction items as [|i items IH]; intros others p s n l I H D L.
  - cbn [length map app Nat.add repeat druns]. destruct (step_ok others p (DEnum exts filter) I Logic.I) as (p' & e & o & E & I').
    rewrite E. cbn [bind Datatypes.fst Datatypes.snd]. unfold dstep in E. rewrite H in E. unfold enum_dir in E. rewrite D in E.
    destruct I as (P & N & F & G). rewrite H, D in G. destruct G as (G0 & G1). destruct (enum_ok (s_path s) exts filter l G0 G1) as (o2 & rest & E2 & _ & C). rewrite E2 in E. cbn [bind] in E.
    specialize (C _ L). destruct o2 as [i|]; [destruct C as (x & C & _); discriminate C|].
    destruct (close (Some n) (p_open p)) as [| | |op]; cbn [bind] in E; try discriminate. injection E as <- <- <-.
    rewrite (ends exts filter k (mkProc op (p_next p) (Some (mkStrm (s_fd s) None (s_path s)))) (mkStrm (s_fd s) None (s_path s)) eq_refl eq_refl). cbn [bind Datatypes.fst Datatypes.snd]. eexists. split; [reflexivity|]. split; [exact I'|]. eexists. split; [reflexivity|]. split; reflexivity.
  - cbn [length map app Nat.add]. change (repeat (DEnum exts filter) (S (length items + S k))) with (DEnum exts filter :: repeat (DEnum exts filter) (length items + S k)). cbn [druns].
    destruct (step_ok others p (DEnum exts filter) I Logic.I) as (p' & e & o & E & I').
    rewrite E. cbn [bind Datatypes.fst Datatypes.snd]. unfold dstep in E. rewrite H in E. unfold enum_dir in E. rewrite D in E.
    destruct I as (P & N & F & G). rewrite H, D in G. destruct G as (G0 & G1). destruct (enum_ok (s_path s) exts filter l G0 G1) as (o2 & rest & E2 & _ & C). rewrite E2 in E. cbn [bind] in E.
    specialize (C _ L). destruct o2 as [j|]; [|discriminate C]. destruct C as (items' & C & L'). injection C as <- <-. injection E as <- <- <-.
    destruct (IH others _ (mkStrm (s_fd s) (Some (n, rest)) (s_path s)) n rest I' eq_refl eq_refl L') as (p2 & R & I2 & S2). rewrite R. cbn [bind Datatypes.fst Datatypes.snd].
    exists p2. split; [reflexivity|]. split; [exact I2|exact S2].
Qed.

Lemma lists others p path names exts filter k : inv others p -> p_strm p <> None -> zlen path + 2 < 4096 -> Forall (good_name stat path) names ->
  exists items p', listing stat (dirpath path) exts filter names items /\
    druns stat p (DOpenDir path (inl names) :: repeat (DEnum exts filter) (length items + S k)) =
      Ok (p', (ERR_NONE, None) :: map (fun i => (ERR_NONE, Some i)) items ++ repeat (ERR_END_OF_FILE, None) (S k)) /\
    inv others p' /\ exists s s', p_strm p = Some s /\ p_strm p' = Some s' /\ s_dir s' = None /\ s_fd s' = s_fd s.
Proof.
  intros I H HP G. destruct (p_strm p) as [s|] eqn:Hs; [|contradiction].
  assert (GL : Forall (good_left (dirpath path)) names).
  { pose proof (dirpath_len path) as DL. revert G. apply Forall_impl. intros nm (A1 & A2 & A3). split; [exact A1|]. split; [lia|exact A3]. }
  destruct (listing_total (dirpath path) exts filter names GL) as (items & L). exists items.
  destruct (step_ok others p (DOpenDir path (inl names)) I (conj HP G)) as (q & e & o & E & I').
  cbn [druns]. rewrite E. cbn [bind Datatypes.fst Datatypes.snd]. unfold dstep in E. rewrite Hs in E. unfold open_dir in E.
  destruct (close (dir_handle s) (p_open p)) as [| | |op]; cbn [bind] in E; try discriminate. injection E as <- <- <-.
  rewrite dirpath_ok in * by exact HP.
  destruct (enums exts filter k items others _ (mkStrm (s_fd s) (Some (p_next p, names)) (dirpath path)) (p_next p) names I' eq_refl eq_refl L) as (p2 & R & I2 & s' & S1 & S2 & S3).
  rewrite R. cbn [bind Datatypes.fst Datatypes.snd]. exists p2. split; [exact L|]. split; [reflexivity|]. split; [exact I2|]. exists s, s'. repeat split; assumption.
Qed.

Lemma listing_det dir exts filter l : forall a b, listing stat dir exts filter l a -> listing stat dir exts filter l b -> a = b.
Proof.
  assert (D : forall name a b, adds stat dir exts filter name a -> adds stat dir exts filter name b -> a = b).
  { intros name a b [H|H S|n t H S C F|n H S C F] [H'|H' S'|n' t' H' S' C' F'|n' H' S' C' F']; try contradiction; try congruence; rewrite C in C'; injection C' as E; subst; try congruence; try (destruct F; congruence); destruct F'; congruence. }
  induction l as [|x l IH]; intros a b A B; inversion A; inversion B; subst; [reflexivity|]. f_equal; [eapply D; eassumption|apply IH; assumption].
Qed.
End D.
