(** C112, C113: the XML text writer. *)
From Verif Require Import Base BaseProofs Tree Str Printf PrintfSpec Xml XmlSpec XmlProofs XmlProofs2 XmlProofs3 XmlProofs4.

(** ** C112: what is written reads back *)
(** For every document of elements, attributes and texts within the limits, written call by call, a reader of XML sees
    exactly its elements, nested as given, with their attributes and their texts. *)
Theorem C112_read_back : forall safe n a ks fin, document_ok n a ks fin ->
  exists o, put_document safe n a ks fin = Ok o /\ read_xml o = Some (meaning (events (Elem n a ks fin))).
Proof. exact document_read. Qed.
Print Assumptions C112_read_back.
(** <a><b c="&quot;&lt;A&amp;" e="-5">hi<i><j><k>mn</k></j></i> x</b><c>x y</c><d e="01AB"/></a> *)
Definition demo : list node :=
  [Elem [98] [([99], false, VStr [34; 60; 65; 38]); ([100], true, VInt 0); ([101], false, VInt (-5))]
     [Data [104; 105]; Elem [105] [] [Elem [106] [] [Elem [107] [] [] (Some [109; 110])] None] None; Data [32; 120]] None;
   Elem [99] [] [] (Some [120; 32; 121]); Elem [100] [([101], false, VBin [1; 171])] [] None].
Lemma demo_ok : document_ok [97] [] demo None.
Proof.
  split; [|split; [vm_compute; discriminate|intros [X|[X|[X|[]]]]; discriminate X]].
  cbn [fits demo fold_right fin_ok fin_room].
  assert (NM : forall c, name_char c = true -> name_ok [c]) by (intros c H; split; [discriminate|constructor; [exact H|constructor]]).
  assert (TX : forall v, forallb (fun c => legal c && negb (c =? 13) && negb (c =? 60) && negb (c =? 38)) v = true -> text_ok v).
  { intros v H. apply Forall_forall. intros c C. rewrite forallb_forall in H. specialize (H c C). rewrite !andb_true_iff, !negb_true_iff in H. destruct H as (((H1 & H2) & H3) & H4). split; [exact H1|]. lia. }
  repeat match goal with
  | |- _ /\ _ => split
  | |- True => exact I
  | |- name_ok _ => apply NM; reflexivity
  | |- text_ok _ => apply TX; reflexivity
  | |- Forall attr_ok [] => constructor
  | |- Forall attr_ok (_ :: _) => constructor
  | |- attr_ok _ => cbn [attr_ok]
  | |- val_ok _ => cbn [val_ok]; unfold int_ok; repeat (constructor; try lia); try lia
  | |- _ <= _ => vm_compute; discriminate
  end.
Qed.
Example C112_read_back_ex : document_ok [97] [] demo None /\
  meaning (events (Elem [97] [] demo None)) =
    [Start [97] []; Start [98] [([99], [34; 60; 65; 38]); ([101], [45; 53])]; Text [104; 105]; Start [105] []; Start [106] []; Start [107] []; Text [109; 110];
     Stop [107]; Stop [106]; Stop [105]; Text [120]; Stop [98]; Start [99] []; Text [120; 32; 121]; Stop [99]; Start [100] [([101], [48; 49; 65; 66])]; Stop [100]; Stop [97]].
Proof. split; [exact demo_ok|vm_compute; reflexivity]. Qed.
(** The meaning of a document keeps its elements: the tags are those of the document, in order. *)
Definition is_tag (e : ev) : bool := match e with Text _ => false | _ => true end.
Theorem C112_tags : forall l, filter is_tag (meaning l) = filter is_tag l.
Proof.
  assert (F : forall p, filter is_tag (flush p) = []) by (intros p; unfold flush; destruct (trim p); reflexivity).
  assert (G : forall l s, filter is_tag (fst (fold_left take l s)) = filter is_tag (fst s) ++ filter is_tag l).
  { induction l as [|e l IH]; intros s; [rewrite app_nil_r; reflexivity|]. cbn [fold_left]. rewrite IH. destruct e; cbn [take fst filter is_tag]; [|rewrite !filter_app, F; cbn [filter is_tag app]; rewrite <- app_assoc; reflexivity..|reflexivity]. rewrite !filter_app, F. cbn [filter is_tag app]. rewrite <- app_assoc. reflexivity. }
  intros l. unfold meaning. rewrite filter_app, F, app_nil_r, G. reflexivity.
Qed.
Print Assumptions C112_tags.
Example C112_tags_ex : filter is_tag (meaning [Start [97] []; Text [32]; Start [98] []; Text [120]; Stop [98]; Stop [97]]) = [Start [97] []; Start [98] []; Stop [98]; Stop [97]].
Proof. reflexivity. Qed.

(** Findings.  Texts are written as they are: one with '<' or '&' is read as something else, or not at all. *)
Theorem C112_text_refuted : exists v o, Forall (fun c => 32 <= c < 127) v /\ put_document false [97] [] [] (Some v) = Ok o /\ read_xml o = None.
Proof. exists [120; 60; 121]. eexists. split; [repeat constructor; lia|]. split; [vm_compute; reflexivity|vm_compute; reflexivity]. Qed.
Print Assumptions C112_text_refuted.
Theorem C112_forged_refuted : exists v o, put_document false [97] [] [] (Some v) = Ok o /\ read_xml o = Some [Start [97] []; Start [98] []; Stop [98]; Stop [97]].
Proof. exists [60; 98; 47; 62]. eexists. split; [vm_compute; reflexivity|vm_compute; reflexivity]. Qed.
Print Assumptions C112_forged_refuted.
(** An attribute over the limit loses its closing quote, and the document cannot be read; a line break in an
    attribute is read as a blank. *)
Theorem C112_long_refuted : exists s o, put_document false [97] [([98], false, VStr s)] [] None = Ok o /\ Forall (fun c => c = 120) s /\ zlen s = 1019 /\ read_xml o = None.
Proof.
  exists (repeat 120 1019). destruct (put_document false [97] [([98], false, VStr (repeat 120 1019))] [] None) as [| | |o] eqn:E; try (vm_compute in E; discriminate E).
  exists o. split; [reflexivity|]. split; [apply Forall_forall; intros c C; apply repeat_spec in C; exact C|]. split; [reflexivity|].
  assert (X : match put_document false [97] [([98], false, VStr (repeat 120 1019))] [] None with Ok o => read_xml o = None | _ => False end) by (vm_compute; reflexivity). rewrite E in X. exact X.
Qed.
Print Assumptions C112_long_refuted.
Theorem C112_line_break_refuted : exists o, put_document false [97] [([98], false, VStr [120; 10; 121])] [] None = Ok o /\ read_xml o = Some [Start [97] [([98], [120; 32; 121])]; Stop [97]].
Proof. eexists. split; vm_compute; reflexivity. Qed.
Print Assumptions C112_line_break_refuted.
(** In the root a single blank between texts is lost once an element was written. *)
Theorem C112_root_blank_refuted : exists ks o, put_document false [97] [] ks None = Ok o /\
  meaning (events (Elem [97] [] ks None)) = [Start [97] []; Start [98] []; Stop [98]; Text [120; 32; 121]; Stop [97]] /\
  read_xml o = Some [Start [97] []; Start [98] []; Stop [98]; Text [120; 121]; Stop [97]].
Proof. exists [Elem [98] [] [] None; Data [120]; Data [32]; Data [121]]. eexists. split; [vm_compute; reflexivity|]. split; vm_compute; reflexivity. Qed.
Print Assumptions C112_root_blank_refuted.
(** Blanks are added inside texts: after an element within a text there is one more. *)
Theorem C112_blank_added_refuted : exists ks o, put_document false [97] [] ks None = Ok o /\ ks = [Data [120]; Elem [98] [] [Data [121]] None; Data [122]] /\
  skipn 39 o = [60; 97; 62; 120; 60; 98; 62; 121; 60; 47; 98; 62; 32; 122; 60; 47; 97; 62; 10].
Proof. eexists _, _. split; [|split; [reflexivity|]]; vm_compute; reflexivity. Qed.
Print Assumptions C112_blank_added_refuted.
(** Elements nested 512 deep: the indentation is written past the end of the line buffer. *)
Fixpoint nest (k : nat) : node := match k with O => Elem [97] [] [] None | S k => Elem [97] [] [nest k] None end.
Theorem C112_deep_refuted : put_document false [97] [] [nest 511] None = Bad.
Proof. vm_compute. reflexivity. Qed.
Print Assumptions C112_deep_refuted.

(** ** C113: attributes *)
(** What is added to the stream for one attribute: a blank, the name and the quoted text, in which the four marks are
    replaced; nothing at all for a default value that may be left out. *)
Theorem C113_attribute : forall o n dflt v, attr_ok (n, dflt, v) ->
  exists t, text_attrib o (n ++ [0]) dflt (zend v) = Ok (o ++ t) /\
    (dflt = true -> nothing v = true -> t = []) /\
    (dflt = false \/ nothing v = false -> exists q, t = [32] ++ n ++ [61; 34] ++ q ++ [34] /\
       Forall (fun c => 32 <= c < 256 /\ c <> 34 /\ c <> 60 /\ c <> 62) q /\
       forall e A a E, run (InVal e A a [], E) q = Some (InVal e A a (attr_text v), E)).
Proof.
  intros o n dflt v H. rewrite attrib_ok by exact H. exists (attr_out (n, dflt, v)). split; [reflexivity|]. unfold attr_out. split.
  - intros -> ->. reflexivity.
  - intros Q. replace (dflt && nothing v) with false by (destruct Q as [-> | ->]; [reflexivity|symmetry; apply andb_false_r]). exists (esc (attr_text v)). split; [reflexivity|].
    destruct H as (_ & V & _). destruct (val_bytes v V) as [_ R]. split; [|intros e A a E; apply (run_esc _ e A a [] E R)].
    induction (attr_text v) as [|c s IH]; [constructor|]. apply Forall_cons_iff in R. destruct R as [R1 R]. change (esc (c :: s)) with (esc1 c ++ esc s). apply Forall_app. split; [|apply IH, R]. unfold esc1, entity.
    destruct (Z.eqb_spec c 38); [repeat constructor; lia|]. destruct (Z.eqb_spec c 34); [repeat constructor; lia|]. destruct (Z.eqb_spec c 60); [repeat constructor; lia|]. destruct (Z.eqb_spec c 62); [repeat constructor; lia|]. repeat constructor; lia.
Qed.
Print Assumptions C113_attribute.
Example C113_attribute_ex : attr_ok ([110], true, VRect 1 (-2) 30 0) /\ text_attrib [] [110; 0] true (VRect 1 (-2) 30 0) = Ok [32; 110; 61; 34; 49; 44; 45; 50; 44; 51; 48; 44; 48; 34] /\
  text_attrib [] [110; 0] true (VPoint 0 0) = Ok [] /\ text_attrib [] [110; 0] false (VStr [97; 60; 98; 0]) = Ok [32; 110; 61; 34; 97; 38; 108; 116; 59; 98; 34].
Proof.
  split; [|split; [vm_compute; reflexivity|split; vm_compute; reflexivity]]. cbn [attr_ok val_ok]. unfold int_ok. split; [split; [discriminate|repeat constructor]|]. split; [lia|]. vm_compute. discriminate.
Qed.
(** A string attribute of any length is written without fault, and never takes more than 1023 bytes of the stream. *)
Theorem C113_bounded : forall o n dflt s, Forall (fun c => 0 < c < 256) n -> Forall (fun c => 0 < c < 256) s ->
  exists t, text_attrib o (n ++ [0]) dflt (VStr (s ++ [0])) = Ok (o ++ t) /\ zlen t <= 1023 /\ (t = [] \/ exists q, t = firstn 1023 ([32] ++ n ++ [61; 34] ++ q ++ [34])).
Proof.
  intros o n dflt s N H. unfold text_attrib.
  assert (Z0 : exists z, (if dflt then is_default (VStr (s ++ [0])) else Ok false) = Ok z) by (destruct dflt; [|exists false; reflexivity]; destruct s as [|c s]; eexists; reflexivity).
  destruct Z0 as [z ->]. cbn [bind]. destruct z; [exists []; rewrite app_nil_r; split; [reflexivity|split; [vm_compute; discriminate|left; reflexivity]]|]. cbn [data_to_string bind].
  destruct (escape_any s [] H (Forall_nil _)) as (q & -> & Q). cbn [bind]. rewrite attr_any by assumption. eexists. split; [reflexivity|]. split; [unfold zlen; rewrite firstn_length; lia|]. right. exists q. reflexivity.
Qed.
Print Assumptions C113_bounded.
Example C113_bounded_ex : exists o', text_attrib [] [98; 0] false (VStr (repeat 120 2000 ++ [0])) = Ok o' /\ zlen o' = 1023.
Proof. destruct (text_attrib [] [98; 0] false (VStr (repeat 120 2000 ++ [0]))) as [| | |o'] eqn:E; try (vm_compute in E; discriminate E). exists o'. split; [reflexivity|].
  assert (X : match text_attrib [] [98; 0] false (VStr (repeat 120 2000 ++ [0])) with Ok o => zlen o = 1023 | _ => False end) by (vm_compute; reflexivity). rewrite E in X. exact X. Qed.
