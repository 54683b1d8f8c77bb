(** C133: the files that mkclean touches. *)
From Coq Require Import String Ascii.
From Verif Require Import Base BaseProofs Tree MkArgs MkArgsSpec PathSpec MkArgsProofs PropMkArgs MkRun.

(** *** Lemmas *)
Lemma put_other fs n f m : m <> n -> put fs n f m = fs m.
Proof. intros H. unfold put. destruct (list_eq_dec Z.eq_dec m n); [contradiction|reflexivity]. Qed.
Lemma put_same fs n f : put fs n f n = f.
Proof. unfold put. destruct (list_eq_dec Z.eq_dec n n); [reflexivity|contradiction]. Qed.
Lemma erase_other dir_ok fs n m : m <> n -> file_erase dir_ok fs n m = fs m.
Proof. intros H. unfold file_erase. destruct (fs n); [|reflexivity]. destruct (dir_ok n); [apply put_other; exact H|reflexivity]. Qed.
Lemma exit_other dir_ok fs n r m : m <> n -> at_exit dir_ok fs n r m = fs m.
Proof. intros H. unfold at_exit. destruct n; [reflexivity|]. destruct (r <? 0); [apply erase_other; exact H|reflexivity]. Qed.
Lemma written_other fs n d m : m <> n -> written fs n d m = fs m.
Proof. intros H. unfold written. destruct n; [reflexivity|]. destruct (fs (z :: n)); [apply put_other; exact H|reflexivity]. Qed.
Lemma open_out_other dir_ok fs n fs1 m : open_out dir_ok fs n = Some fs1 -> m <> n -> fs1 m = fs m.
Proof.
  intros E H. unfold open_out in E. destruct n as [|z n]; [injection E as <-; reflexivity|]. destruct (fs (z :: n)) as [f|]; [destruct (f_write f)|destruct (dir_ok (z :: n))]; try discriminate; injection E as <-; apply put_other; exact H.
Qed.
Lemma open_out_same dir_ok fs n fs1 : n <> [] -> open_out dir_ok fs n = Some fs1 -> exists a b, fs1 n = Some (File [] a b).
Proof.
  intros N E. unfold open_out in E. destruct n as [|z n]; [contradiction|]. destruct (fs (z :: n)) as [f|]; [destruct (f_write f)|destruct (dir_ok (z :: n))]; try discriminate; injection E as <-; eexists _, _; apply put_same.
Qed.

(** For the examples: a program that copies its source, and fails with -4 on a source that does not begin with 26. *)
Definition copier (_ : settings) (d : list Z) (ok : bool) : Z * list Z := match d with 26 :: _ => (0, d) | _ => (-4, []) end.
Definition ex_fs : fsys := fun n => if list_eq_dec Z.eq_dec n (txt "a.mkv") then Some (File [26; 1] true true) else if list_eq_dec Z.eq_dec n (txt "x.mkv") then Some (File [0] true true) else if list_eq_dec Z.eq_dec n (txt "old.mkv") then Some (File [9; 9] true false) else None.

(** Whatever the command line, the files and the work: when the program ends before there is an output no file is touched; otherwise no
    file but the output is. *)
Theorem C133_others full maxpath dir_ok work fs args r fs' : mkclean full maxpath dir_ok work fs args = Ok (r, fs') ->
  match command full maxpath args with Ok (Run _ i o) => forall n, n <> o -> fs' n = fs n | _ => forall n, fs' n = fs n end.
Proof.
  unfold mkclean. destruct (command full maxpath args) as [| | |[c|s i o]]; try discriminate; cbn [bind]; [intros E; injection E as _ <-; reflexivity|].
  destruct (open_in fs i) as [d0|]; [|intros E; injection E as _ <-; reflexivity]. destruct (open_out dir_ok fs o) as [fs1|] eqn:Eo.
  - destruct (work s _ _) as [r' d]. intros E n N. injection E as _ <-. rewrite exit_other, written_other by exact N. apply (open_out_other dir_ok fs o fs1); [exact Eo|exact N].
  - intros E n N. injection E as _ <-. apply exit_other. exact N.
Qed.
Print Assumptions C133_others.

(** The source is kept whatever happens, unless it is named as the output as well; with one name on the command line it always is. *)
Theorem C133_source full maxpath dir_ok work fs args r fs' s i o : mkclean full maxpath dir_ok work fs args = Ok (r, fs') ->
  command full maxpath args = Ok (Run s i o) -> i <> o -> fs' i = fs i.
Proof. intros E C N. pose proof (C133_others _ _ _ _ _ _ _ _ E) as H. rewrite C in H. apply H. exact N. Qed.
Print Assumptions C133_source.
Theorem C133_source_alone full maxpath dir_ok work fs l i r fs' : 6 <= maxpath -> Forall (item_ok full) l -> ~ given "--version" l -> ~ given "--help" l ->
  arg_ok full i -> no_flag i -> no_url i -> zlen i + 9 <= full -> zlen i < 1024 ->
  mkclean full maxpath dir_ok work fs (words l ++ [i]) = Ok (r, fs') -> fs' i = fs i.
Proof.
  intros M Hl Nv Nh Ti Ni U L1 L2 E. destruct (C115_output full maxpath i M U L1 L2) as (dir & f & _ & Eo). pose proof (zlen_nonneg i).
  destruct (C114_one_file full maxpath l i _ ltac:(lia) Hl Nv Nh Ti Ni Eo) as (s & _ & C). apply (C133_source _ _ _ _ _ _ _ _ _ _ _ E C). intros N. exact (C115_not_input full maxpath i _ M U L1 L2 Eo (eq_sym N)).
Qed.
Print Assumptions C133_source_alone.

(** Without a readable source the result is -2 and no file is changed, not even one that has the name of the output. *)
Theorem C133_missing full maxpath dir_ok work fs args s i o : command full maxpath args = Ok (Run s i o) -> i <> [] -> (fs i = None \/ exists d w, fs i = Some (File d false w)) ->
  mkclean full maxpath dir_ok work fs args = Ok (-2, fs).
Proof. intros C N H. unfold mkclean. rewrite C. cbn [bind]. unfold open_in. destruct i as [|x i]; [contradiction|]. destruct H as [->|(d & w & ->)]; reflexivity. Qed.
Print Assumptions C133_missing.
Example C133_missing_ex : ex_fs (txt "none.mkv") = None /\ (exists s, command 1024 256 [txt "none.mkv"; txt "a.mkv"] = Ok (Run s (txt "none.mkv") (txt "a.mkv"))).
Proof. split; [reflexivity|]. eexists. vm_compute. reflexivity. Qed.

(** When source and output can be opened: with a result that is not negative the output holds what was written, with a negative one there is no output. *)
Theorem C133_output full maxpath dir_ok work fs args s i o d w : command full maxpath args = Ok (Run s i o) -> i <> [] -> o <> [] -> i <> o ->
  fs i = Some (File d true w) -> (exists f, fs o = Some f /\ f_write f = true) \/ (fs o = None /\ dir_ok o = true) ->
  exists fs', mkclean full maxpath dir_ok work fs args = Ok (fst (work s d true), fs') /\
    (0 <= fst (work s d true) -> exists f, fs' o = Some f /\ f_data f = snd (work s d true)) /\
    (fst (work s d true) < 0 -> dir_ok o = true -> fs' o = None).
Proof.
  intros C Ni No N Ei Eo. unfold mkclean. rewrite C. cbn [bind]. assert (Oi : forall g, g i = fs i -> open_in g i = Some d) by (intros g G; unfold open_in; destruct i; [contradiction|]; rewrite G, Ei; reflexivity). rewrite (Oi fs) by reflexivity.
  assert (X : exists fs1, open_out dir_ok fs o = Some fs1) by (unfold open_out; destruct o; [contradiction|]; destruct Eo as [(f & -> & W)|[-> W]]; rewrite W; eexists; reflexivity). destruct X as (fs1 & X). rewrite X.
  rewrite (Oi fs1) by (apply (open_out_other dir_ok fs o); assumption). destruct (open_out_same dir_ok fs o fs1 No X) as (a & b & Fo).
  replace (match o with [] => false | _ :: _ => true end) with true by (destruct o; [contradiction|reflexivity]). destruct (work s d true) as [r out]. cbn [fst snd]. eexists. split; [reflexivity|].
  assert (W : written fs1 o out o = Some (File out a b)) by (unfold written; destruct o; [contradiction|]; rewrite Fo; apply put_same).
  unfold at_exit. destruct o as [|z o]; [contradiction|]. split.
  - intros P. replace (r <? 0) with false by lia. rewrite W. eexists. split; reflexivity.
  - intros P D. replace (r <? 0) with true by lia. unfold file_erase. rewrite W, D. apply put_same.
Qed.
Print Assumptions C133_output.

Example C133_ex :
  (match mkclean 1024 256 (fun _ => true) copier ex_fs [txt "--remux"; txt "a.mkv"; txt "b.mkv"] with Ok (r, fs) => r = 0 /\ fs (txt "b.mkv") = Some (File [26; 1] true true) /\ fs (txt "a.mkv") = ex_fs (txt "a.mkv") | _ => False end) /\
  (match mkclean 1024 256 (fun _ => true) copier ex_fs [txt "x.mkv"] with Ok (r, fs) => r = -4 /\ fs (txt "clean.x.mkv") = None /\ fs (txt "x.mkv") = ex_fs (txt "x.mkv") | _ => False end) /\
  (match mkclean 1024 256 (fun _ => true) copier ex_fs [txt "--doctype"; txt "a.mkv"; txt "b.mkv"; txt "c.mkv"] with Ok (r, fs) => r = -8 /\ fs (txt "a.mkv") = ex_fs (txt "a.mkv") | _ => False end).
Proof. vm_compute. repeat split. Qed.
Example C133_alone_ex : Forall (item_ok 1024) [] /\ ~ given "--version" [] /\ ~ given "--help" [] /\ arg_ok 1024 (txt "a.mkv") /\ no_flag (txt "a.mkv") /\ no_url (txt "a.mkv").
Proof.
  split; [constructor|]. split; [intros (x & [] & _)|]. split; [intros (x & [] & _)|]. split; [split; [txtd|reflexivity]|]. split; [exact (proj1 (proj2 C114_ex))|].
  intros (b & sch & rest & E & _).
  assert (K : In 58 (txt "a.mkv")) by (rewrite E; apply in_or_app; right; apply in_or_app; right; left; reflexivity). vm_compute in K. intuition discriminate.
Qed.

(** A file that cannot be opened for writing is erased when the program gives up: write protection does not keep it. *)
Theorem C133_protected_refuted full maxpath dir_ok work fs args s i o d w f : command full maxpath args = Ok (Run s i o) -> i <> [] -> o <> [] ->
  fs i = Some (File d true w) -> fs o = Some f -> f_write f = false -> dir_ok o = true ->
  exists fs', mkclean full maxpath dir_ok work fs args = Ok (-3, fs') /\ fs' o = None.
Proof.
  intros C Ni No Ei Eo W D. unfold mkclean. rewrite C. cbn [bind]. unfold open_in. destruct i as [|x i]; [contradiction|]. rewrite Ei. cbn [f_read]. unfold open_out. destruct o as [|z o]; [contradiction|]. rewrite Eo, W.
  eexists. split; [reflexivity|]. unfold at_exit. change (-3 <? 0) with true. cbv iota. unfold file_erase. rewrite Eo, D. apply put_same.
Qed.
Print Assumptions C133_protected_refuted.
Example C133_protected_ex : match mkclean 1024 256 (fun _ => true) copier ex_fs [txt "a.mkv"; txt "old.mkv"] with Ok (r, fs) => r = -3 /\ fs (txt "old.mkv") = None | _ => False end.
Proof. vm_compute. split; reflexivity. Qed.

(** A source that is named as the output too is lost, whatever its protection: it is emptied before it is read, an empty source has no EBML head (1740-1744), and the
    program that gives up erases it. *)
Theorem C133_same_refuted full maxpath dir_ok work fs i d w : 8 <= full -> arg_ok full i -> no_flag i -> i <> [] -> fs i = Some (File d true w) -> dir_ok i = true -> (forall s ok, work s [] ok = (-4, [])) ->
  exists r fs', mkclean full maxpath dir_ok work fs [i; i] = Ok (r, fs') /\ r < 0 /\ fs' i = None.
Proof.
  intros F Ti Ni N Ei D Hw. destruct (C114_same_file_refuted full maxpath i F Ti Ni) as (s & C). destruct w.
  - unfold mkclean. rewrite C. cbn [bind]. destruct i as [|x i]; [contradiction|]. cbn [open_in open_out]. rewrite Ei. cbn [f_read f_write]. rewrite put_same. cbn [f_read f_data]. rewrite Hw. eexists _, _. split; [reflexivity|]. split; [lia|].
    unfold at_exit. change (-4 <? 0) with true. cbv iota. unfold file_erase, written. rewrite !put_same. rewrite D. apply put_same.
  - destruct (C133_protected_refuted full maxpath dir_ok work fs [i; i] s i i d false (File d true false) C N N Ei Ei eq_refl D) as (fs' & E & G). exists (-3), fs'. split; [exact E|]. split; [lia|exact G].
Qed.
Print Assumptions C133_same_refuted.
Example C133_same_ex : (forall s ok, copier s [] ok = (-4, [])) /\ match mkclean 1024 256 (fun _ => true) copier ex_fs [txt "a.mkv"; txt "a.mkv"] with Ok (r, fs) => r = -4 /\ fs (txt "a.mkv") = None | _ => False end.
Proof. split; [reflexivity|]. vm_compute. split; reflexivity. Qed.
