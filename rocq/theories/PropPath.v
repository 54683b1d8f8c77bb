(** C43: paths and URLs. *)
From Verif Require Import Base BaseProofs Tree Str StrSpec Scan Path PathSpec PathProofs PathProofs2 PathProofs3.

(** ** The separator at the end *)
(** AddPathDelimiter: a path that ends in '/' stays, another gets one if there is room, and nothing else changes. *)
Theorem C43_add : forall len p, zlen p < len ->
  add_delim len p = if list_eq_dec Z.eq_dec (firstn 1 (rev p)) [47] then p else if zlen p + 1 <? len then p ++ [47] else p.
Proof.
  intros len p H. unfold add_delim, ends_in_slash. destruct p as [|x0 p0] eqn:Ep.
  - change (zlen (@nil Z)) with 0 in *. cbn [Z.eqb orb rev firstn]. destruct (list_eq_dec Z.eq_dec [] [47]); [discriminate|]. unfold cat. change (zlen (@nil Z)) with 0. replace (0 <? len) with true by lia. cbn [app]. unfold cut.
    destruct (Z.ltb_spec (0 + 1) len); [apply firstn_all2; cbn [length]; lia|]. replace (len - 1) with 0 by lia. reflexivity.
  - rewrite <- Ep in *. assert (Nn : p <> []) by (rewrite Ep; discriminate). clear Ep. destruct (exists_last Nn) as (q & y & ->). rewrite last_last, rev_unit. cbn [firstn]. pose proof (zlen_nonneg q). rewrite zlen_app in *. change (zlen [y]) with 1 in *.
    replace (zlen q + 1 =? 0) with false by lia. cbn [orb]. destruct (list_eq_dec Z.eq_dec [y] [47]) as [E|E].
    + injection E as ->. reflexivity.
    + replace (y =? 47) with false by (symmetry; apply Z.eqb_neq; congruence). cbn [negb]. unfold cat. rewrite zlen_app. change (zlen [y]) with 1. replace (zlen q + 1 <? len) with true by lia. unfold cut. destruct (Z.ltb_spec (zlen q + 1 + 1) len).
      * apply firstn_all2. rewrite !app_length. cbn [length]. unfold zlen in *. lia.
      * replace (Z.to_nat (len - 1)) with (length (q ++ [y])) by (rewrite app_length; cbn [length]; unfold zlen in *; lia). apply firstn_len.
Qed.
Print Assumptions C43_add.
Theorem C43_add_twice : forall len p, zlen p < len -> add_delim len (add_delim len p) = add_delim len p.
Proof.
  intros len p H. rewrite (C43_add len p H). destruct (list_eq_dec Z.eq_dec (firstn 1 (rev p)) [47]) as [E|E]; [|destruct (Z.ltb_spec (zlen p + 1) len)].
  - rewrite C43_add by exact H. destruct (list_eq_dec Z.eq_dec (firstn 1 (rev p)) [47]); [reflexivity|contradiction].
  - rewrite C43_add by (rewrite zlen_app; exact H0). rewrite rev_unit. cbn [firstn]. destruct (list_eq_dec Z.eq_dec [47] [47]); [reflexivity|contradiction].
  - rewrite C43_add by exact H. destruct (list_eq_dec Z.eq_dec (firstn 1 (rev p)) [47]); [contradiction|]. replace (zlen p + 1 <? len) with false by lia. reflexivity.
Qed.
Print Assumptions C43_add_twice.
(** RemovePathDelimiter takes that '/' away again, but never the one of "scheme://" nor the root; any other path stays. *)
Theorem C43_remove : forall p, p <> [] -> (forall b sch, ~ is_url (p ++ [47]) b sch []) -> remove_delim (p ++ [47]) = p.
Proof. exact remove_ok. Qed.
Print Assumptions C43_remove.
Theorem C43_remove_keeps : forall p, (forall q, p <> q ++ [47]) \/ p = [47] \/ (exists b sch, is_url p b sch []) -> remove_delim p = p.
Proof.
  intros p [H|[->|(b & sch & U)]]; [apply remove_same; exact H|reflexivity|]. assert (Rt : rooted p (b ++ sch ++ [58; 47; 47]) []) by (right; eauto). destruct (rooted_at _ _ _ Rt) as [E2 A]. unfold remove_delim. rewrite A. rewrite E2 at 1. rewrite skipn_len. reflexivity.
Qed.
Print Assumptions C43_remove_keeps.
(* "/a/b" with room, and without; "file://" and "/". *)
Example C43_ex_add : add_delim 8 [47; 97; 47; 98] = [47; 97; 47; 98; 47] /\ add_delim 5 [47; 97; 47; 98] = [47; 97; 47; 98] /\ remove_delim [47; 97; 47; 98; 47] = [47; 97; 47; 98] /\
  remove_delim [102; 58; 47; 47] = [102; 58; 47; 47] /\ remove_delim [47] = [47].
Proof. vm_compute. repeat split. Qed.

(** ** The scheme *)
(** GetProtocol: the scheme of a URL, whether it names a host, and where the rest begins. *)
Theorem C43_protocol : forall url b sch rest, is_url url b sch rest ->
  p_name (get_protocol url) = sch /\ (p_host (get_protocol url) = true <-> ~ local_scheme sch) /\ skipn (p_at (get_protocol url)) url = rest.
Proof.
  intros url b sch rest U. pose proof U as (E & _ & Hc & _). assert (Rt : rooted url (b ++ sch ++ [58; 47; 47]) rest) by (right; eauto). destruct (rooted_at _ _ _ Rt) as [E2 A]. rewrite A, (protocol_url _ _ _ _ U). cbn [p_name p_host].
  split; [reflexivity|]. split; [|rewrite E2 at 1; apply skipn_len]. rewrite negb_true_iff. split; [intros K L; apply (local_dec_ok sch Hc) in L; congruence|]. intros L. destruct (local_dec sch) eqn:K; [|reflexivity]. elim L. apply (local_dec_ok sch Hc). exact K.
Qed.
Print Assumptions C43_protocol.
(** Anything else is a file with no host. *)
Theorem C43_no_protocol : forall url, no_url url -> get_protocol url = mkProto 0 [102; 105; 108; 101] false.
Proof. exact protocol_no. Qed.
Print Assumptions C43_no_protocol.
(* " http://h/x", a URL with a host; "c:/x", none. *)
Example C43_ex_protocol : is_url [32; 104; 116; 116; 112; 58; 47; 47; 104; 47; 120] [32] [104; 116; 116; 112] [104; 47; 120] /\ p_host (get_protocol [32; 104; 116; 116; 112; 58; 47; 47; 104; 47; 120]) = true /\ p_at (get_protocol [99; 58; 47; 120]) = O.
Proof. split; [|vm_compute; auto]. split; [reflexivity|]. split; [constructor; [left; reflexivity|constructor]|]. split; [cbn; intuition discriminate|]. unfold blank. lia. Qed.

(** ** SplitPath *)
(** Directory, name and extension of any path or URL are the ones of the specification. *)
Theorem C43_split : forall maxpath url, 6 <= maxpath -> zlen url < maxpath \/ ~ http_url url ->
  exists dir file f name ext, dir_file url dir file /\ no_fragment url file f /\ name_ext f name ext /\ split_path maxpath false url = Ok (dir, name, ext) /\ split_path maxpath true url = Ok (dir, f, f).
Proof. exact split_ok. Qed.
Print Assumptions C43_split.
(** An http URL whose file has MAXPATH-1 or more characters before the '#' makes it write through NULL. *)
Theorem C43_split_null_refuted : forall maxpath b sch dir c n post alias, 6 <= maxpath -> sep c -> is_url (b ++ sch ++ [58; 47; 47] ++ dir ++ c :: n ++ 35 :: post) b sch (dir ++ c :: n ++ 35 :: post) -> same_text sch [104; 116; 116; 112] ->
  ~ In 35 n -> no_seps n -> no_seps post -> maxpath - 1 <= zlen n -> split_path maxpath alias (b ++ sch ++ [58; 47; 47] ++ dir ++ c :: n ++ 35 :: post) = Null.
Proof. exact split_null. Qed.
Print Assumptions C43_split_null_refuted.
(* "http://h/d/n.x#f": "http://h/d", "n", "x"; "a.b": "", "a", "b"; "d\n." : "d", "n", "."; "http://h/nnnnn#" with MAXPATH 6. *)
Example C43_ex_split :
  split_path 256 false [104; 116; 116; 112; 58; 47; 47; 104; 47; 100; 47; 110; 46; 120; 35; 102] = Ok ([104; 116; 116; 112; 58; 47; 47; 104; 47; 100], [110], [120]) /\
  split_path 256 false [97; 46; 98] = Ok ([], [97], [98]) /\ split_path 256 false [100; 92; 110; 46] = Ok ([100], [110], [46]) /\
  split_path 256 false [104; 116; 116; 112; 58; 47; 47; 104] = Ok ([104; 116; 116; 112; 58; 47; 47; 104], [], []) /\
  split_path 6 false [104; 116; 116; 112; 58; 47; 47; 104; 47; 110; 110; 110; 110; 110; 35] = Null.
Proof. vm_compute. repeat split. Qed.

(** ** RelPath and AbsPath *)
(** A file below a directory: its path relative to that directory, and back. *)
Theorem C43_rel : forall len base rest, base <> [] -> no_url base -> zlen (base ++ 47 :: rest) < len -> rel_path len (base ++ 47 :: rest) base = rest.
Proof.
  intros len base rest Hb Hu Hl. unfold rel_path. rewrite (protocol_no base Hu). cbn [p_at p_host]. rewrite (under_base base rest Hb). rewrite skipn_len1. apply cut_all. rewrite zlen_app, zlen_cons in Hl. pose proof (zlen_nonneg base). lia.
Qed.
Print Assumptions C43_rel.
Theorem C43_rel_abs : forall len base rest, base <> [] -> last base 0 <> 47 -> ~ In 92 (base ++ rest) -> Forall (fun c => c <> 0) rest -> relative rest -> zlen (base ++ 47 :: rest) < len ->
  abs_path len (rel_path len (base ++ 47 :: rest) base) (Some base) = base ++ 47 :: rest.
Proof. exact rel_abs. Qed.
Print Assumptions C43_rel_abs.
Theorem C43_abs : forall len base rest, base <> [] -> last base 0 <> 47 -> ~ In 92 (base ++ rest) -> Forall (fun c => c <> 0) rest -> relative rest -> zlen (base ++ 47 :: rest) < len ->
  abs_path len rest (Some base) = base ++ 47 :: rest.
Proof. exact rel_abs_base. Qed.
Print Assumptions C43_abs.
(** With a '/' at the end of the directory, the way back gives another path. *)
Theorem C43_rel_slash_refuted : exists base path, path = base ++ [120] /\ abs_path 256 (rel_path 256 path base) (Some base) <> path /\ last base 0 = 47.
Proof. exists [97; 47], [97; 47; 120]. vm_compute. repeat split; discriminate. Qed.
Print Assumptions C43_rel_slash_refuted.
(* "d/e" and "f.x"; "http://h/d" and "f". *)
Example C43_ex_rel : relative [102; 46; 120] /\ rel_path 64 [100; 47; 101; 47; 102; 46; 120] [100; 47; 101] = [102; 46; 120] /\ abs_path 64 [102] (Some [104; 116; 116; 112; 58; 47; 47; 104; 47; 100]) = [104; 116; 116; 112; 58; 47; 47; 104; 47; 100; 47; 102] /\
  rel_path 64 [104; 116; 116; 112; 58; 47; 47; 104; 47; 100; 47; 102] [104; 116; 116; 112; 58; 47; 47; 104; 47; 100] = [102].
Proof.
  split; [|vm_compute; auto]. split; [|split; [unfold sep; lia|intros x r E; discriminate]]. intros (b & sch & rest & E & _). assert (K : In 58 [102; 46; 120]) by (rewrite E; apply in_or_app; right; apply in_or_app; right; left; reflexivity). cbn in K. intuition discriminate.
Qed.

(** ** UpperPath *)
(** The path goes one level up, and the last part is what was taken away. *)
Theorem C43_upper : forall pre d seps name url, (no_url url /\ pre = [] \/ exists b sch, is_url url b sch (d ++ seps ++ name) /\ pre = b ++ sch ++ [58; 47; 47]) -> url = pre ++ d ++ seps ++ name ->
  Forall sep seps -> seps <> [] -> name <> [] -> no_seps name -> (forall a x, d = a ++ [x] -> ~ sep x) -> upper_path url = (true, pre ++ d, Some name).
Proof.
  intros pre d seps name url H E Hs Ns Nn Hn Hd. apply (upper_ok url pre d seps name); try assumption. destruct H as [[H ->]|H]; [left; auto|right; exact H].
Qed.
Print Assumptions C43_upper.
(** A '/' at the end makes no difference. *)
Theorem C43_upper_slash : forall p, p <> [] -> (forall q, p <> q ++ [47]) -> upper_path (p ++ [47]) = upper_path p.
Proof. exact upper_slash. Qed.
Print Assumptions C43_upper_slash.
(** It stops at the host. *)
Theorem C43_upper_host : forall url b sch host, is_url url b sch host -> no_seps host -> ~ local_scheme sch -> ~ same_text sch [115; 109; 98] -> ~ same_text sch [117; 112; 110; 112] -> upper_path url = (false, url, None).
Proof. exact upper_host. Qed.
Print Assumptions C43_upper_host.
(** Each successful step leaves a beginning of the path, and a shorter one unless it is "smb://". *)
Theorem C43_upper_shorter : forall p q l, upper_path p = (true, q, l) -> exists r, p = q ++ r /\ (r = [] -> exists b sch, is_url p b sch [] /\ same_text sch [115; 109; 98]).
Proof. exact upper_shorter. Qed.
Print Assumptions C43_upper_shorter.
(** There it succeeds for ever and the path never gets shorter. *)
Theorem C43_upper_smb_refuted : forall url b sch, is_url url b sch [] -> same_text sch [115; 109; 98] -> upper_path url = (true, url, Some url).
Proof. exact upper_smb. Qed.
Print Assumptions C43_upper_smb_refuted.
(* "/a//b": "/a", "b"; "http://h"; "smb://"; "name": "", "name". *)
Example C43_ex_upper : upper_path [47; 97; 47; 47; 98] = (true, [47; 97], Some [98]) /\ upper_path [104; 116; 116; 112; 58; 47; 47; 104] = (false, [104; 116; 116; 112; 58; 47; 47; 104], None) /\
  upper_path [115; 109; 98; 58; 47; 47] = (true, [115; 109; 98; 58; 47; 47], Some [115; 109; 98; 58; 47; 47]) /\ upper_path [110; 97] = (true, [], Some [110; 97]).
Proof. vm_compute. repeat split. Qed.

(** ** ReduceLocalPath *)
(** Separators are made single and each ".." takes the part before it away; the text up to "://" stays. *)
Theorem C43_reduce : forall s pre c0 cs r, body_of s pre (spread c0 cs) -> ~ In 47 c0 -> Forall (fun p => component (snd p)) cs -> solid cs -> walk [] (map snd cs) = Some r ->
  forall fuel, (length s <= fuel)%nat -> reduce_local_path fuel s = Ok (pre ++ joined c0 r).
Proof. intros s pre c0 cs r B H0 Hc Hs Hw fuel L. rewrite (reduce_ok s pre c0 cs B H0 Hc Hs fuel L), Hw. reflexivity. Qed.
Print Assumptions C43_reduce.
(** A ".." with nothing to take away makes it run for ever. *)
Theorem C43_reduce_diverges_refuted : forall s pre c0 cs, body_of s pre (spread c0 cs) -> ~ In 47 c0 -> Forall (fun p => component (snd p)) cs -> solid cs -> walk [] (map snd cs) = None -> forall fuel, reduce_local_path fuel s = Fuel.
Proof. exact reduce_diverges. Qed.
Print Assumptions C43_reduce_diverges_refuted.
(** A name that merely begins with ".." is taken for "..": "/b/..foo" becomes "foo". *)
Theorem C43_reduce_dots_refuted : reduce_local_path 20 [47; 98; 47; 46; 46; 102; 111; 111] = Ok [102; 111; 111].
Proof. vm_compute. reflexivity. Qed.
Print Assumptions C43_reduce_dots_refuted.
(* "file://a//b/../c" becomes "file://a/c"; "a/.." never ends. *)
Example C43_ex_reduce :
  body_of [102; 105; 108; 101; 58; 47; 47; 97; 47; 47; 98; 47; 46; 46; 47; 99] [102; 105; 108; 101; 58; 47; 47] (spread [97] [(1%nat, [98]); (0%nat, DOTDOT); (0%nat, [99])]) /\
  reduce_local_path 16 [102; 105; 108; 101; 58; 47; 47; 97; 47; 47; 98; 47; 46; 46; 47; 99] = Ok [102; 105; 108; 101; 58; 47; 47; 97; 47; 99] /\
  reduce_local_path 100 [97; 47; 46; 46] = Fuel /\ solid [(1%nat, [98]); (0%nat, DOTDOT); (0%nat, [99])] /\ walk [] [[98]; DOTDOT; [99]] = Some [[99]].
Proof.
  split. { right. exists [102; 105; 108; 101]. split; [reflexivity|]. split; [reflexivity|]. cbn. intuition discriminate. }
  split; [vm_compute; reflexivity|]. split; [vm_compute; reflexivity|]. split; [|vm_compute; reflexivity]. intros a c b E Hb. assert (K : In c [(1%nat, [98]); (0%nat, DOTDOT); (0%nat, [99])]) by (rewrite E; apply in_or_app; right; left; reflexivity). cbn in K. destruct K as [<-|[<-|[<-|[]]]]; discriminate.
Qed.

(** ** CheckExts *)
(** The letter of the first entry of the list that is the extension, without regard to case and up to a '?', or 0. *)
Theorem C43_exts : forall maxpath url l ext e, Forall (fun p => ~ In 58 (fst p) /\ ~ In 59 (fst p) /\ snd p <> 59) l ->
  (exists d n, split_path maxpath false url = Ok (d, n, ext)) -> zlen ext < maxpath -> (exists q, ext = e ++ 63 :: q /\ ~ In 63 e) \/ (e = ext /\ ~ In 63 ext) ->
  (exists l1 x t l2, l = l1 ++ (x, t) :: l2 /\ same_text e x /\ Forall (fun p => ~ same_text e (fst p)) l1 /\ check_exts maxpath url (Some (ext_list l)) = Ok (s8 t)) \/
  (Forall (fun p => ~ same_text e (fst p)) l /\ check_exts maxpath url (Some (ext_list l)) = Ok 0).
Proof.
  intros maxpath url l ext e Hl (d & n & Sp) Hx He. unfold check_exts. rewrite Sp. cbn [bind snd]. cbv zeta. rewrite (cut_all maxpath ext Hx).
  assert (E : match chr 63 ext with Some k => firstn k ext | None => ext end = e). { destruct He as [(q & -> & K)|[-> K]]; [rewrite chr_app by exact K; apply firstn_len|apply chr_none in K; rewrite K; reflexivity]. }
  rewrite E. apply exts_ok; [exact Hl|lia].
Qed.
Print Assumptions C43_exts.
(* "a.MKV?x" in "avi:A;mkv:M". *)
Example C43_ex_exts : check_exts 256 [97; 46; 77; 75; 86; 63; 120] (Some (ext_list [([97; 118; 105], 65); ([109; 107; 118], 77)])) = Ok 77 /\ check_exts 256 [97; 46; 111] (Some (ext_list [([97; 118; 105], 65); ([109; 107; 118], 77)])) = Ok 0.
Proof. vm_compute. auto. Qed.
