(** C114 and C115: the command line of mkclean and the file it writes.  All theorems are about command, parse and
    default_output of MkArgs.v; options and what they ask for are specified in MkArgsSpec.v. *)
From Coq Require Import String Ascii.
From Verif Require Import Base BaseProofs Tree Str StrSpec StrProofs StrProofs2 Printf Scan Path PathSpec PathProofs PropPath MkArgs MkArgsSpec MkArgsProofs MkArgsProofs2.

(** Any options in any order, then the file to read and the file to write: the settings are what the options ask for. *)
Theorem C114_options full maxpath l i o :
  8 <= full -> Forall (item_ok full) l -> ~ given "--version" l -> ~ given "--help" l ->
  arg_ok full i -> no_flag i -> arg_ok full o -> no_flag o ->
  exists s, asked l s /\ command full maxpath (words l ++ [i; o]) = Ok (Run s i o).
Proof.
  intros F Hl Nv Nh Ti Ni To No. destruct (parse_items full F l [] settings0 Hl asked0) as (s & A & E).
  exists s. split; [exact A|]. unfold command. rewrite E by discriminate. rewrite parse_files; [|repeat (apply Forall_cons; [split; assumption|]); constructor|cbn [length]; lia]. cbn [bind].
  replace (match l with [] => words l ++ [i; o] | _ => [i; o] end) with [i; o] by (destruct l; reflexivity).
  destruct (o_version s) eqn:V; [apply (a_version _ _ A) in V; tauto|]. cbn [last]. rewrite !cut_fit by (apply Ti || apply To). reflexivity.
Qed.
Print Assumptions C114_options.
(** With one file only the name of the file to write is made from it. *)
Theorem C114_one_file full maxpath l i o :
  8 <= full -> Forall (item_ok full) l -> ~ given "--version" l -> ~ given "--help" l -> arg_ok full i -> no_flag i ->
  default_output full maxpath i = Ok o ->
  exists s, asked l s /\ command full maxpath (words l ++ [i]) = Ok (Run s i o).
Proof.
  intros F Hl Nv Nh Ti Ni Eo. destruct (parse_items full F l [] settings0 Hl asked0) as (s & A & E).
  exists s. split; [exact A|]. unfold command. rewrite E by discriminate. rewrite parse_files; [|repeat (apply Forall_cons; [split; assumption|]); constructor|cbn [length]; lia]. cbn [bind].
  replace (match l with [] => words l ++ [i] | _ => [i] end) with [i] by (destruct l; reflexivity).
  destruct (o_version s) eqn:V; [apply (a_version _ _ A) in V; tauto|]. cbv zeta. rewrite !cut_fit by apply Ti. rewrite Eo. reflexivity.
Qed.
Print Assumptions C114_one_file.
(** --version and --help: nothing is read or written. *)
Theorem C114_version full maxpath l files :
  8 <= full -> Forall (item_ok full) l -> given "--version" l \/ given "--help" l ->
  files <> [] -> (length files <= 2)%nat -> Forall (fun a => arg_ok full a /\ no_flag a) files ->
  command full maxpath (words l ++ files) = Ok (Stop (-1)).
Proof.
  intros F Hl G Nf Lf Hf. destruct (parse_items full F l [] settings0 Hl asked0) as (s & A & E).
  unfold command. rewrite E by exact Nf. rewrite parse_files by assumption. cbn [bind]. apply (a_version _ _ A) in G. rewrite G.
  destruct (match l with [] => words l ++ files | _ => files end); reflexivity.
Qed.
Print Assumptions C114_version.
(** A document type or a compression that is not known ends the program; nothing is opened. *)
Theorem C114_unknown_value full maxpath l n v f files :
  8 <= full -> Forall (item_ok full) l -> arg_ok full n -> arg_ok full v ->
  same_text n (txt "--doctype") /\ (forall d, ~ doctype v d) \/ same_text n (txt "--compalgo") /\ v <> txt "0" ->
  command full maxpath (words l ++ n :: v :: f :: files) = Ok (Stop (-8)).
Proof.
  intros F Hl Tn Tv H. destruct (parse_items full F l [] settings0 Hl asked0) as (s & _ & E).
  assert (D : forall k, 49 <= k <= 55 -> same v [k] = true -> v = [k]).
  { intros k Hk S. apply same_ok in S; [|apply Tv|apply Forall_cons; [lia|constructor]]. inversion S as [|? ? ? ? L R]; subst. inversion R; subst.
    unfold same_letter in L. f_equal. lia. }
  assert (V : value n v s = Some (Ok None) /\ flag n = None).
  { destruct H as [[S N]|[S N]].
    - split; [|rewrite (flag_cong n (txt "--doctype") (proj1 Tn) ltac:(txtd) S); vm_compute; reflexivity].
      rewrite (value_cong n (txt "--doctype") v s (proj1 Tn) ltac:(txtd) S). unfold value. change (same (txt "--doctype") N_DOCTYPE) with true. cbn iota.
      unfold doctype_of.
      destruct (same v [49]) eqn:E1; [apply D in E1; [|lia]; subst; elim (N 1); cbn; tauto|].
      destruct (same v [50]) eqn:E2; [apply D in E2; [|lia]; subst; elim (N 2); cbn; tauto|].
      destruct (same v [51]) eqn:E3; [apply D in E3; [|lia]; subst; elim (N 4); cbn; tauto|].
      destruct (same v [52]) eqn:E4; [apply D in E4; [|lia]; subst; elim (N 8); cbn; tauto|].
      destruct (same v [53]) eqn:E5; [apply D in E5; [|lia]; subst; elim (N 16); cbn; tauto|].
      destruct (same v [54]) eqn:E6; [apply D in E6; [|lia]; subst; elim (N 32); cbn; tauto|].
      destruct (same v [55]) eqn:E7; [apply D in E7; [|lia]; subst; elim (N 64); cbn; tauto|]. reflexivity.
    - split; [|rewrite (flag_cong n (txt "--compalgo") (proj1 Tn) ltac:(txtd) S); vm_compute; reflexivity].
      rewrite (value_cong n (txt "--compalgo") v s (proj1 Tn) ltac:(txtd) S). unfold value.
      change (same (txt "--compalgo") N_DOCTYPE) with false. change (same (txt "--compalgo") N_SCALE) with false. change (same (txt "--compalgo") N_ALT) with false.
      change (same (txt "--compalgo") N_COMP) with true. cbn iota.
      destruct (same v [48]) eqn:E0; [|reflexivity]. apply same_ok in E0; [|apply Tv|apply Forall_cons; [lia|constructor]].
      inversion E0 as [|? ? ? ? L R]; subst. inversion R; subst. elim N. unfold same_letter in L. change (txt "0") with [48]. f_equal. lia. }
  destruct V as [V Ef]. unfold command. rewrite E by discriminate. cbn [parse]. rewrite !cut_fit by (apply Tn || apply Tv). rewrite Ef, V. reflexivity.
Qed.
Print Assumptions C114_unknown_value.
(** An argument that is no option has no effect in front of another option. *)
Theorem C114_ignored full maxpath a x i b files :
  8 <= full -> Forall (item_ok full) a -> Forall (item_ok full) (i :: b) -> arg_ok full x -> no_option x -> files <> [] ->
  command full maxpath (words a ++ x :: words (i :: b) ++ files) = command full maxpath (words a ++ words (i :: b) ++ files).
Proof.
  intros F Ha Hb Tx Nx Nf.
  destruct (parse_items full F a [] settings0 Ha asked0) as (s1 & A1 & E1).
  assert (N2 : exists y z r, words (i :: b) ++ files = y :: z :: r).
  { destruct i as [n|n v]; cbn [words map concat app]; fold (words b); [|do 3 eexists; reflexivity].
    destruct (words b) as [|y r]; cbn [app]; [|do 3 eexists; reflexivity]. destruct files as [|y r]; [contradiction|]. do 3 eexists; reflexivity. }
  destruct N2 as (y & z & r & N2). destruct (parse_items full F (i :: b) _ s1 Hb A1) as (s2 & _ & E2).
  unfold command. rewrite !E1 by (try rewrite N2; discriminate). rewrite N2, (parse_skip full s1 _ x y z r Tx Nx), <- N2, !E2 by exact Nf. reflexivity.
Qed.
Print Assumptions C114_ignored.

(** Examples: "--Remux --doctype 4 --alt-3d 2 --optimize_nv a.mkv b.mkv". *)
Definition ex_items : list item :=
  [Alone (txt "--Remux"); With (txt "--doctype") (txt "4"); With (txt "--alt-3d") (txt "2"); Alone (txt "--optimize_nv")].
Ltac texts := repeat (apply Forall_cons; [lia|]); constructor.
Example C114_ex : Forall (item_ok 1024) ex_items /\ no_flag (txt "a.mkv") /\
  exists s, command 1024 256 (words ex_items ++ [txt "a.mkv"; txt "b.mkv"]) = Ok (Run s (txt "a.mkv") (txt "b.mkv")) /\
    o_remux s = true /\ o_dst s = 8 /\ o_alt s = [false; false; true] /\ o_opt s = true /\ o_optv s = false /\ o_live s = false.
Proof.
  assert (K : forall a b, text a -> text b -> same a b = true -> same_text a b) by (intros a b Ha Hb; apply same_ok; assumption).
  assert (O : forall a, zlen a < 1024 -> text a -> arg_ok 1024 a) by (intros a H1 H2; split; assumption).
  split; [|split].
  - unfold ex_items. repeat apply Forall_cons; [..|constructor].
    + apply (ok_alone _ _ "--remux"%string); [cbn; tauto|apply K; [txtd|txtd|reflexivity]|apply O; [reflexivity|txtd]].
    + apply (ok_doctype _ _ _ 8); [apply K; [txtd|txtd|reflexivity]|cbn; tauto|apply O; [reflexivity|txtd]].
    + apply (ok_alt _ _ _ 2); [apply K; [txtd|txtd|reflexivity]|apply O; [reflexivity|txtd]|apply O; [reflexivity|txtd]|vm_compute; reflexivity|lia].
    + apply (ok_alone _ _ "--optimize_nv"%string); [cbn; tauto|apply K; [txtd|txtd|reflexivity]|apply O; [reflexivity|txtd]].
  - intros n Hn S. apply same_ok in S; [|txtd|apply names_text, in_or_app; left; exact Hn]. cbn [alone_names In] in Hn.
    repeat (destruct Hn as [<-|Hn]; [vm_compute in S; discriminate|]). destruct Hn.
  - eexists. split; [vm_compute; reflexivity|]. vm_compute. repeat split.
Qed.

Lemma scan_miss fuel m d l n b vs ov : n <> 0 -> 48 <> d ->
  scan_loop (S (S fuel)) (48 :: m) (Sst (Some (d :: l)) n b vs ov) = Ok (Sst None n b vs ov).
Proof.
  intros Hn Hd. cbn [scan_loop s_in s_len cur bind tl s_long s_vals s_ov]. replace (n =? 0) with false by lia. change (48 =? 0) with false.
  change (48 =? 37) with false. change ((48 =? 9) || (48 =? 32)) with false. cbn iota. replace (48 =? d) with false by lia. reflexivity.
Qed.
(** The full claim "--timecodescale <v> forces the scale to v" fails: StringToInt64 wants "0x" and eight digits twice.  A
    number in decimal, as the usage shows it, is no different from no option at all. *)
Theorem C114_scale_refuted full maxpath d r i o :
  8 <= full -> 49 <= d <= 57 -> arg_ok full (d :: r) -> arg_ok full i -> no_flag i -> arg_ok full o -> no_flag o -> 16 <= full ->
  exists s, command full maxpath [txt "--timecodescale"; d :: r; i; o] = Ok (Run s i o) /\ o_scale s = 0.
Proof.
  intros F Hd Tv Ti Ni To No F2.
  assert (E : string_to_int64 ((d :: r) ++ [0]) = Ok 0).
  { unfold string_to_int64, stscanf.
    assert (L : exists n, tcslen ((d :: r) ++ [0]) = Ok n /\ 0 < n).
    { destruct Tv as [T _]. inversion T as [|? ? _ Tr]; subst. assert (Q : exists k, tcslen (r ++ [0]) = Ok k /\ 0 <= k).
      { clear -Tr. induction Tr as [|x r Hx _ (k & IH & Hk)]; [exists 0; split; [reflexivity|lia]|].
        exists (k + 1). cbn [app tcslen]. replace (x =? 0) with false by lia. rewrite IH. split; [reflexivity|lia]. }
      destruct Q as (k & Q & Hk). exists (k + 1). cbn [app tcslen]. replace (d =? 0) with false by lia. rewrite Q. split; [reflexivity|lia]. }
    destruct L as (n & En & Hn). rewrite En. cbn [bind app length]. rewrite scan_miss by lia. reflexivity. }
  assert (H : item_ok full (With (txt "--timecodescale") (d :: r))).
  { apply (ok_scale _ _ _ 0); [apply same_ok; [txtd|txtd|reflexivity]| |exact Tv|exact E]. split; [txtd|change (15 < full); lia]. }
  destruct (C114_options full maxpath [With (txt "--timecodescale") (d :: r)] i o F) as (s & A & C); try assumption.
  - constructor; [exact H|constructor].
  - intros (j & [<-|[]] & N). apply same_ok in N; [vm_compute in N; discriminate|txtd|txtd].
  - intros (j & [<-|[]] & N). apply same_ok in N; [vm_compute in N; discriminate|txtd|txtd].
  - exists s. split; [exact C|].
    assert (L : string_to_int64 ((d :: r) ++ [0]) = Ok (o_scale s)).
    { apply (a_scale _ _ A). exists [], (txt "--timecodescale"), []. split; [reflexivity|]. split; [apply same_ok; [txtd|txtd|reflexivity]|apply given_nil]. }
    rewrite E in L. congruence.
Qed.
Print Assumptions C114_scale_refuted.
Example C114_scale_ex : string_to_int64 (txt "1000000" ++ [0]) = Ok 0 /\ string_to_int64 (txt "0x00000000000F4240" ++ [0]) = Ok 1000000.
Proof. vm_compute. auto. Qed.
(** An option that is not known, or whose value is missing, is read as a file if it is the last one. *)
Theorem C114_last_refuted :
  command 1024 256 [txt "--remuks"; txt "a.mkv"; txt "b.mkv"] = Ok (Run settings0 (txt "--remuks") (txt "b.mkv")) /\
  command 1024 256 [txt "--doctype"; txt "4"] = Ok (Run settings0 (txt "--doctype") (txt "4")) /\
  command 1024 256 [txt "--doctype"; txt "a.mkv"] = Ok (Run settings0 (txt "--doctype") (txt "a.mkv")).
Proof. vm_compute. repeat split. Qed.
Print Assumptions C114_last_refuted.
(** --alt-3d with a negative number writes outside the array. *)
Theorem C114_alt_refuted : command 1024 256 [txt "--alt-3d"; txt "-1"; txt "a.mkv"; txt "b.mkv"] = Bad.
Proof. vm_compute. reflexivity. Qed.
Print Assumptions C114_alt_refuted.
(** Nothing keeps the file read and the file written apart: it is opened for reading, then made empty for writing. *)
Theorem C114_same_file_refuted full maxpath i : 8 <= full -> arg_ok full i -> no_flag i -> exists s, command full maxpath [i; i] = Ok (Run s i i).
Proof.
  intros F Ti Ni. destruct (C114_options full maxpath [] i i F) as (s & _ & C); try assumption; [constructor|apply given_nil|apply given_nil|]. exists s. exact C.
Qed.
Print Assumptions C114_same_file_refuted.

(** ** C115: the name made for the file to write *)
(** Directory with its separator; a file whose name ends in '.' gets one more. *)
Definition place (dir : list Z) : list Z := match dir with [] => [] | _ => if last dir 0 =? 47 then dir else dir ++ [47] end.
Definition dots (file : list Z) : list Z := if last file 0 =? 46 then file ++ [46] else file.
(** For a path that fits the buffers: "clean." and the name of the file, in the directory before the last '/' or '\'. *)
Theorem C115_output full maxpath p :
  6 <= maxpath -> no_url p -> zlen p + 9 <= full -> zlen p < 1024 ->
  exists dir file, dir_file p dir file /\ default_output full maxpath p = Ok (place dir ++ txt "clean." ++ dots file).
Proof.
  intros M U L L2.
  assert (NH : ~ http_url p) by (intros (b & sch & rest & H & _); apply U; exists b, sch, rest; exact H).
  destruct (C43_split maxpath p M (or_intror NH)) as (dir & file & f & name & ext & D & NF & NE & E & _).
  assert (f = file) as -> by (destruct NF as [[H _]|[_ H]]; [contradiction|exact H]).
  exists dir, file. split; [exact D|]. unfold default_output. rewrite E. cbn [bind].
  assert (LP : zlen dir + zlen file <= zlen p /\ (dir <> [] -> zlen dir + zlen file + 1 <= zlen p)).
  { inversion D; subst; try (exfalso; apply U; eauto; fail).
    - rewrite zlen_app, zlen_cons. lia.
    - change (zlen []) with 0. split; [lia|congruence]. }
  pose proof (zlen_nonneg dir) as Pd. pose proof (zlen_nonneg file) as Pf.
  assert (LE : (name = file /\ ext = [] /\ last file 0 <> 46) \/ (ext <> [] /\ name ++ [46] ++ ext = dots file /\ zlen name + zlen ext <= zlen file)).
  { inversion NE; subst.
    - right. split; [assumption|]. split; [|rewrite zlen_app, zlen_cons; lia]. unfold dots.
      destruct (@exists_last _ ext) as (e & x & ->); [assumption|]. replace (last (name ++ 46 :: e ++ [x]) 0) with x by (replace (name ++ 46 :: e ++ [x]) with ((name ++ 46 :: e) ++ [x]) by (rewrite <- app_assoc; reflexivity); rewrite last_last; reflexivity).
      destruct (Z.eqb_spec x 46) as [->|]; [|reflexivity]. exfalso. apply H. apply in_or_app. right. left. reflexivity.
    - right. split; [discriminate|]. split; [|rewrite zlen_app; change (zlen [46]) with 1; lia]. unfold dots. rewrite last_last. cbn [Z.eqb Pos.eqb]. rewrite <- app_assoc. reflexivity.
    - left. split; [reflexivity|]. split; [reflexivity|]. destruct (list_eq_dec Z.eq_dec name []) as [->|Nn]; [cbn [last]; lia|]. destruct (exists_last Nn) as (e & x & ->). rewrite last_last. intros ->. apply H. apply in_or_app. right. left. reflexivity. }
  set (d := match cut 1024 dir with [] => [] | _ => add_delim full (cut full (cut 1024 dir)) end).
  assert (Ed : d = place dir).
  { unfold d. rewrite (cut_fit 1024) by lia. rewrite (cut_fit full) by lia. destruct dir as [|x dir']; [reflexivity|].
    unfold place. set (dr := x :: dir') in *. assert (Nd : dr <> []) by discriminate. clearbody dr. destruct LP as [_ LP]. specialize (LP Nd).
    unfold add_delim, ends_in_slash. replace (zlen dr =? 0) with false by (destruct dr; [congruence|rewrite zlen_cons; pose proof (zlen_nonneg dr); symmetry; apply Z.eqb_neq; lia]).
    cbn [orb]. destruct (Z.eqb_spec (last dr 0) 47); cbn [negb]; [destruct dr; reflexivity|]. unfold cat. replace (zlen dr <? full) with true by lia.
    rewrite cut_fit by (rewrite zlen_app; change (zlen [47]) with 1; lia). destruct dr; [congruence|]. reflexivity. }
  fold d. rewrite Ed.
  assert (Lp : zlen (place dir) + zlen file <= zlen p).
  { destruct dir as [|x dir'] eqn:Edir; [cbn [place]; change (zlen []) with 0 in *; lia|]. rewrite <- Edir in *. destruct LP as [_ LP].
    assert (Nd : dir <> []) by (rewrite Edir; discriminate). specialize (LP Nd). clear Edir. unfold place. destruct dir; [congruence|].
    destruct (_ =? 47); [lia|]. rewrite zlen_app. change (zlen [47]) with 1. lia. }
  change (txt "clean.") with CLEAN. pose proof (zlen_nonneg (place dir)) as Pp. assert (LC : zlen CLEAN = 6) by reflexivity.
  destruct LE as [(-> & -> & N)|(Ne & Ef & Lf)].
  - rewrite (cut_fit 1024 file) by lia. change (cut 4096 []) with (@nil Z). cbn iota. unfold cat, dots. replace (zlen (place dir) <? full) with true by lia.
    rewrite cut_fit by (rewrite !zlen_app; lia). replace (last file 0 =? 46) with false by lia. reflexivity.
  - pose proof (zlen_nonneg name). pose proof (zlen_nonneg ext).
    rewrite (cut_fit 1024 name) by lia. rewrite (cut_fit 4096 ext) by lia. destruct ext as [|x ext']; [congruence|].
    unfold cat. replace (zlen (place dir) <? full) with true by lia.
    rewrite cut_fit; [rewrite Ef; reflexivity|]. rewrite !zlen_app, LC. change (zlen [46]) with 1. lia.
Qed.
Print Assumptions C115_output.
(** It is never the file that is read. *)
Theorem C115_not_input full maxpath p o :
  6 <= maxpath -> no_url p -> zlen p + 9 <= full -> zlen p < 1024 -> default_output full maxpath p = Ok o -> o <> p.
Proof.
  intros M U L L2 E N. subst o. destruct (C115_output full maxpath p M U L L2) as (dir & file & D & E2). rewrite E in E2.
  assert (E3 : p = place dir ++ txt "clean." ++ dots file) by congruence. apply (f_equal zlen) in E3. rewrite !zlen_app in E3. change (zlen (txt "clean.")) with 6 in E3.
  assert (zlen file <= zlen (dots file)) by (unfold dots; destruct (_ =? 46); [rewrite zlen_app; change (zlen [46]) with 1|]; lia).
  assert (zlen dir <= zlen (place dir)) by (unfold place; destruct dir; [lia|]; destruct (_ =? 47); [lia|rewrite zlen_app; change (zlen [47]) with 1; lia]).
  inversion D; subst; try (exfalso; apply U; eauto; fail).
  - rewrite zlen_app, zlen_cons in E3. lia.
  - change (zlen []) with 0 in *. lia.
Qed.
Print Assumptions C115_not_input.
Example C115_ex : no_url (txt "d/a.b.mkv") /\ default_output 1024 256 (txt "d/a.b.mkv") = Ok (txt "d/clean.a.b.mkv") /\ default_output 1024 256 (txt "a.") = Ok (txt "clean.a..").
Proof.
  split; [|vm_compute; auto]. intros (b & sch & rest & E & _).
  assert (K : In 58 (txt "d/a.b.mkv")) by (rewrite E; apply in_or_app; right; apply in_or_app; right; left; reflexivity). vm_compute in K. intuition discriminate.
Qed.
(** A file in the root is written into the working directory; a '\' in a name counts as a separator. *)
Theorem C115_root_refuted :
  default_output 1024 256 (txt "/a.mkv") = Ok (txt "clean.a.mkv") /\ default_output 1024 256 (txt "b\a.mkv") = Ok (txt "b/clean.a.mkv").
Proof. vm_compute. auto. Qed.
Print Assumptions C115_root_refuted.
(** A path that does not fit is cut, and can be the file that is read; its directory can be cut as well. *)
Definition cycle : list Z := concat (repeat (txt "clean.") 170) ++ txt "cle".
Theorem C115_long_refuted :
  zlen cycle = 1023 /\ default_output 1024 256 cycle = Ok cycle /\
  exists d, default_output 4096 4096 (d ++ txt "/a.mkv") = Ok (firstn 1023 d ++ txt "/clean.a.mkv") /\ zlen d = 1100.
Proof. split; [vm_compute; reflexivity|]. split; [vm_compute; reflexivity|]. exists (repeat 120 1100). split; vm_compute; reflexivity. Qed.
Print Assumptions C115_long_refuted.
