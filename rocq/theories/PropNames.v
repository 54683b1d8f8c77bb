(** C137: nodes found by name, by class and by dotted expressions. *)
From Verif Require Import Base BaseProofs Tree Str StrSpec StrProofs StrProofs2 Names NamesSpec NamesProofs NamesProofs2.

(** NodeTree_FindChild: the first node that goes by the name, and none only when there is none. *)
Theorem C137_child name t : text name -> texts_only t ->
  match find_child name t with Some p => first_by name t p | None => forall p, ~ goes_by name t p end.
Proof. apply find_child_spec. Qed.
(** NodeTree_ChildByName: with or without looking deeper, a node below with the class and the name, and
    none only when there is none; a child is preferred to what is deeper, and the first child to others. *)
Theorem C137_by_name class name t : name <> [] -> text name -> texts_only t ->
  match child_by_name true class name t with
  | Some p => bears class name t p
  | None => forall p, ~ bears class name t p
  end /\
  match child_by_name false class name t with
  | Some p => exists i, p = [i] /\ bears class name t [i] /\ forall j, bears class name t [j] -> (i <= j)%nat
  | None => forall i, ~ bears class name t [i]
  end /\
  (forall i, bears class name t [i] -> child_by_name true class name t = child_by_name false class name t).
Proof. apply child_by_name_spec. Qed.
(** NodeTree_ChildByClass: the first node of the class, the node itself included, parents before children. *)
Theorem C137_by_class class t :
  match child_by_class class t with
  | Some p => has_class class t p /\ forall q, has_class class t q -> not_after p q
  | None => forall q, ~ has_class class t q
  end.
Proof. apply child_by_class_spec. Qed.

(** Expressions: the search ends. *)
Theorem C137_ends root single class want base e : exists r, find_param root single class want (S (length e)) base e = Ok r.
Proof. apply find_ends. lia. Qed.
(** What is found is in the tree and is what was asked for, and what was read of the expression is names
    and dots. *)
Theorem C137_found root single class want fuel base e p r : texts_only root ->
  (forall n q, single n = Some q -> exists t, node_at root q = Some t) ->
  (forall q, base = Some q -> exists t, node_at root q = Some t) ->
  find_param root single class want fuel base e = Ok (Some (p, r)) ->
  exists t used, node_at root p = Some t /\ e = used ++ r /\ Forall (fun c => is_name c = true \/ c = 46) used /\
    (a_is (attrs_of t) class = true \/ want = true /\ (a_default (attrs_of t) = true \/ exists tok, Forall (fun c => is_name c = true) tok /\ a_def (attrs_of t) tok = true)).
Proof. apply find_found. Qed.
(** The characters that can stand in names are the underscore, letters and digits; with one of them an expression goes on. *)
Theorem C137_letters c : is_name c = true <-> name_char c.
Proof. unfold is_name, name_char. lia. Qed.
Theorem C137_reads a r : Forall name_char a -> match r with [] => True | c :: _ => ~ name_char c end ->
  read_name (a ++ r) = match r with 46 :: r => (firstn 31 a, r, true) | _ => (firstn 31 a, r, false) end.
Proof.
  intros A R. unfold read_name. rewrite name_run_app; [reflexivity| |].
  - revert A. apply Forall_impl. intros c. apply C137_letters.
  - destruct r as [|c r]; [exact I|]. destruct (is_name c) eqn:E; [|reflexivity]. apply C137_letters in E. contradiction.
Qed.
(** Names with dots lead down the tree, to a setting of the last node or to the node itself. *)
Theorem C137_setting root single class p ns q t x r : texts_only root ->
  Forall (fun n => can_stand n /\ ~ same_text n text_parent) ns -> follows root p ns q -> node_at root q = Some t ->
  can_stand x -> a_def (attrs_of t) x = true -> stops r ->
  find_param root single class true (length ns + 1) (Some p) (dotted ns ++ x ++ r) = Ok (Some (q, r)).
Proof.
  intros T A F N C D R. rewrite (find_dotted root single class true ns 1 p q (x ++ r) T A F). apply (find_last root single class true 0 q t); auto.
Qed.
Theorem C137_node root single class want p ns q t r : texts_only root ->
  Forall (fun n => can_stand n /\ ~ same_text n text_parent) ns -> follows root p ns q -> node_at root q = Some t ->
  a_is (attrs_of t) class = true -> stops r ->
  find_param root single class want (length ns + 1) (Some p) (dotted ns ++ r) = Ok (Some (q, r)).
Proof.
  intros T A F N C R. rewrite (find_dotted root single class want ns 1 p q r T A F). apply (find_itself root single class want 0 q t); auto.
Qed.
(** "parent" leads up. *)
Theorem C137_parent root single class want fuel p i t r : node_at root (p ++ [i]) = Some t ->
  find_param root single class want (S fuel) (Some (p ++ [i])) (text_parent ++ 46 :: r) = find_param root single class want fuel (Some p) r.
Proof. apply find_parent. Qed.

Lemma same_length a b : same_text a b -> length a = length b.
Proof. induction 1; cbn; congruence. Qed.
Lemma text_firstn n k : text n -> text (firstn k n).
Proof. intros T. unfold text in *. rewrite Forall_forall in *. intros x X. apply T. rewrite <- (firstn_skipn k n). apply in_or_app. auto. Qed.
(** A child with a name of more than 31 characters goes by its name but is not found by it. *)
Definition plain (n : option (list Z)) (is : bool) (kids : list ntree) : ntree := NT (Attrs n (fun _ => is) (fun _ => false) false) kids.
Theorem C137_long_refuted n single want : 31 < zlen n -> Forall (fun c => is_name c = true) n ->
  let root := plain None false [plain (Some n) true []] in
  first_by n root [0%nat] /\ forall fuel, find_param root single 1 want (S fuel) (Some []) n = Ok None.
Proof.
  intros L N. cbn zeta. assert (Tn : text n) by (apply is_name_text; auto).
  assert (T : texts_only (plain None false [plain (Some n) true []])).
  { intros p k s E S. destruct p as [|i p]; [injection E as <-; discriminate|]. destruct i as [|i]; cbn in E; [|destruct i; discriminate].
    destruct p as [|j p]; cbn in E; [injection E as <-; cbn in S; injection S as <-; exact Tn|destruct j; discriminate]. }
  assert (Sn : same_text n n) by (unfold same_text, same_letter; clear; induction n; constructor; auto; lia).
  split.
  - split; [apply (goes_here n _ 0%nat (plain (Some n) true []) n); [reflexivity|reflexivity|exact Sn]|]. intros q G.
    inversion G as [t i' k' s' E' S' M'|t i' k' p' E' S' G']; subst; (destruct i' as [|i']; cbn in E'; [|destruct i'; discriminate]); [auto|].
    injection E' as <-. discriminate.
  - intros fuel. cbn [find_param]. unfold read_name. pose proof (name_run_app n [] N I) as E. rewrite app_nil_r in E. rewrite E.
    cbn [node_at plain attrs_of a_def a_is a_default].
    destruct (firstn 31 n) as [|c m] eqn:F. { destruct n; [cbn in L; lia|discriminate]. }
    rewrite andb_false_r. cbn [negb andb].
    assert (NP : same (c :: m) text_parent = false).
    { destruct (same (c :: m) text_parent) eqn:Q; [|auto]. exfalso.
      apply same_ok in Q.
      - apply same_length in Q. cbn [length text_parent] in Q. assert (X : length (firstn 31 n) = 31%nat) by (rewrite firstn_length; unfold zlen in L; lia).
        rewrite F in X. cbn [length] in X. lia.
      - rewrite <- F. apply text_firstn. exact Tn.
      - apply is_name_text. repeat (apply Forall_cons; [reflexivity|]). constructor. }
    assert (NS : same (c :: m) n = false).
    { destruct (same (c :: m) n) eqn:Q; [|auto]. exfalso. apply same_ok in Q; [|rewrite <- F; apply text_firstn; exact Tn|auto].
      apply same_length in Q. rewrite <- F, firstn_length in Q. unfold zlen in L. lia. }
    rewrite NP. unfold plain. rewrite find_child_eq. cbn [scan]. unfold look. cbn [attrs_of a_name]. rewrite NS. reflexivity.
Qed.
(** A node is not looked for behind the first of two children with a name. *)
Theorem C137_twins_refuted single : exists root n,
  goes_by n root [1%nat] /\ (exists t, node_at root [1%nat] = Some t /\ a_is (attrs_of t) 1 = true) /\
  forall want fuel, find_param root single 1 want (S (S fuel)) (Some []) n = Ok None.
Proof.
  exists (plain None false [plain (Some [97]) false []; plain (Some [97]) true []]), [97].
  assert (Sn : same_text [97] [97]) by (constructor; [unfold same_letter; lia|constructor]).
  split; [apply (goes_here _ _ 1%nat (plain (Some [97]) true []) [97]); [reflexivity|reflexivity|exact Sn]|]. split; [eexists; split; reflexivity|].
  intros want fuel. destruct want; reflexivity.
Qed.

(** A player with a window that has no name and holds a slider. *)
Definition ex_root : ntree :=
  NT (Attrs (Some [114]) (fun c => c =? 1) (fun _ => false) false)
    [NT (Attrs None (fun c => c =? 2) (fun _ => false) false)
       [NT (Attrs (Some [86; 111; 108]) (fun c => c =? 3) (fun n => match n with [109; 97; 120] => true | _ => false end) true) []];
     NT (Attrs (Some [118; 111; 108]) (fun c => c =? 4) (fun _ => false) false) []].
Example C137_ex :
  find_child [118; 111; 108] ex_root = Some [0; 0]%nat /\
  child_by_name true 3 [118; 111; 108] ex_root = Some [0; 0]%nat /\ child_by_name true 4 [86; 79; 76] ex_root = Some [1]%nat /\
  child_by_name false 3 [118; 111; 108] ex_root = None /\ child_by_class 3 ex_root = Some [0; 0]%nat /\
  find_param ex_root (fun _ => None) 9 true 9 (Some []) [118; 111; 108; 46; 109; 97; 120; 43] = Ok (Some ([0; 0]%nat, [43])) /\
  find_param ex_root (fun _ => None) 2 true 19 (Some [0; 0]%nat) (text_parent) = Ok (Some ([0]%nat, [])).
Proof. repeat split; vm_compute; reflexivity. Qed.

(** "a_1.x" *)
Example C137_reads_ex : Forall name_char [97; 95; 49] /\ read_name [97; 95; 49; 46; 120] = ([97; 95; 49], [120], true).
Proof. split; [unfold name_char; repeat constructor; lia|reflexivity]. Qed.
Print Assumptions C137_child.
Print Assumptions C137_by_name.
Print Assumptions C137_by_class.
Print Assumptions C137_ends.
Print Assumptions C137_found.
Print Assumptions C137_setting.
Print Assumptions C137_node.
Print Assumptions C137_parent.
Print Assumptions C137_long_refuted.
Print Assumptions C137_twins_refuted.
Print Assumptions C137_letters.
Print Assumptions C137_reads.
