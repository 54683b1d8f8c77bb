From Verif Require Import Base BaseProofs Tree Arr Str StrProofs Durations DurationsSpec DurationsProofs Printf PrintfSpec PrintfProofs PrintfProofs2 PrintfProofs3 ScanProofs2 StrSpec Xml XmlSpec XmlProofs XmlProofs2 XmlProofs3.

Lemma not_blank v : bytes v -> v <> [32] -> tcsisame_ascii (v ++ [0]) [32; 0] = Ok false.
Proof.
  intros B N. apply (not_same v [32] []); [exact B|repeat constructor; lia|]. intros H. apply N. inversion H as [|x y a b S F E1 E2]; subst. inversion F; subst. f_equal. unfold same_letter in S. lia.
Qed.

(** ** Where the reader is, after a part of the calls *)
Definition init : mode * list ev := (InText [], []).
Definition sim (o : list Z) (open : bool) (n : list Z) (A : list (list Z * list Z)) (S : list ev * list Z) : Prop :=
  if open then snd S = [] /\ exists m E, in_tag m n A /\ run init o = Some (m, E) /\ fst S = E ++ [Start n A]
  else exists bl, blanks_only bl /\ run init o = Some (InText (bl ++ snd S), fst S).
Lemma sim_gt o n A S bl : sim o true n A S -> blanks_only bl -> run init (o ++ [62] ++ bl) = Some (InText bl, fst S) /\ snd S = [].
Proof.
  intros (P & m & E & M & R & F) B. split; [|exact P]. rewrite (run_then _ _ _ _ R), (run_gt m n A E bl M), <- F. apply (run_text bl [] (fst S)). apply blanks_text, B.
Qed.
(** Ending the start tag of the parent, then '<' and a name. *)
Lemma begin_ok o i n ni A S : sim o (negb (w_child i)) ni A S -> name_ok n -> 0 <= w_deep i -> w_deep i + zlen n + 3 <= 1023 ->
  exists o', element_begin o i (n ++ [0]) = Ok (Tw (n ++ [0]) (if w_inside i then 0 else w_deep i + 2) false (w_deep i =? 0) (w_safe i), Tw (w_elem i) (w_deep i) true (w_inside i) (w_safe i), o') /\
    run init o' = Some (InName n, fst S ++ flush (snd S)).
Proof.
  intros Si N D L. pose proof (zlen_nonneg n). unfold element_begin.
  assert (O : exists o1 bl, (if w_child i then Ok o else text_write o (if w_inside i then [62; 0] else [62; 10; 0])) = Ok o1 /\ blanks_only bl /\ run init o1 = Some (InText (bl ++ snd S), fst S)).
  { destruct (w_child i); cbn [negb] in Si.
    - destruct Si as (bl & B & R). exists o, bl. split; [reflexivity|]. split; assumption.
    - set (bl := if w_inside i then [] else [10]). exists (o ++ [62] ++ bl), bl. assert (B : blanks_only bl) by (unfold bl; destruct (w_inside i); repeat constructor; right; reflexivity).
      destruct (sim_gt o ni A S bl Si B) as [R P]. rewrite P, app_nil_r. split; [|split; [exact B|exact R]].
      unfold bl. destruct (w_inside i); [apply (write_ok o [62])|apply (write_ok o [62; 10])]; try (repeat constructor; lia); vm_compute; discriminate. }
  destruct O as (o1 & bl & -> & B & R). cbn [bind w_deep w_inside w_safe w_elem].
  assert (SD : s32 (w_deep i + 2) = w_deep i + 2) by (unfold s32, s_wrap; lia). rewrite SD.
  set (w := if w_deep i =? 0 then 0 else if w_inside i then 0 else w_deep i + 2). assert (W : 0 <= w <= w_deep i + 2) by (unfold w; destruct (w_deep i =? 0), (w_inside i); lia).
  rewrite begin_text; [|lia|apply name_bytes, N|lia]. cbn [bind]. eexists. split; [reflexivity|].
  rewrite (run_then _ _ _ _ R), run_pad. rewrite <- app_assoc, flush_around; [|exact B|apply blanks_blank]. apply run_start, N.
Qed.
(** Texts. *)
Lemma append_ok o t v n A S : sim o (negb (w_child t)) n A S -> text_ok v -> zlen v <= 1022 -> (w_deep t = 1 -> v <> [32]) ->
  exists t' o', element_append_data o t (v ++ [0]) = Ok (t', o') /\ sim o' (negb (w_child t')) n A (take S (Text v)) /\
    w_elem t' = w_elem t /\ (w_deep t' = w_deep t \/ w_deep t' = 0) /\ w_inside t' = w_inside t /\ w_safe t' = w_safe t.
Proof.
  intros Si T L N. assert (B : bytes v) by (apply text_bytes; exact T). unfold element_append_data.
  assert (E : (if w_deep t =? 1 then tcsisame_ascii (v ++ [0]) [32; 0] else Ok false) = Ok false) by (destruct (Z.eqb_spec (w_deep t) 1) as [D|D]; [apply not_blank; auto|reflexivity]). rewrite E. cbn [bind].
  destruct (w_child t) eqn:C; cbn [negb] in Si.
  - rewrite write_ok; [|apply bytes_pos; exact B|lia]. cbn [bind]. exists t, (o ++ v). split; [reflexivity|]. rewrite C. cbn [negb]. split; [|tauto].
    destruct Si as (bl & Bl & R). exists bl. split; [exact Bl|]. rewrite (run_then _ _ _ _ R), run_text by exact T. cbn [take fst snd]. rewrite app_assoc. reflexivity.
  - rewrite data0 by assumption. cbn [bind]. eexists _, _. split; [reflexivity|]. cbn [w_child w_elem w_deep w_inside w_safe negb]. split; [|tauto].
    destruct Si as (P & m & E1 & M & R & F). exists []. split; [constructor|]. rewrite (run_then _ _ _ _ R), (run_gt m n A E1 v M), <- F, (run_text v [] _ T). cbn [take fst snd app]. rewrite P. reflexivity.
Qed.
(** Ends. *)
Definition ended (S : list ev * list Z) (o : list Z) : Prop := exists bl, blanks_only bl /\ run init o = Some (InText (bl ++ snd S), fst S).
Lemma run_tail o b E r : run init o = Some (InText b, E) -> text_ok r -> run init (o ++ r) = Some (InText (b ++ r), E).
Proof. intros R T. rewrite (run_then _ _ _ _ R). apply run_text. exact T. Qed.
Lemma stop_ok E n r : name_ok n -> blanks_only r -> run (Lt, E) ([47] ++ n ++ [62] ++ r) = Some (InText r, E ++ [Stop n]).
Proof. intros N B. rewrite (run_stop n E r N). apply (run_text r []). apply blanks_text, B. Qed.
Lemma end_ok o t n A S : sim o (negb (w_child t)) n A S -> name_ok n -> w_elem t = n ++ [0] -> 0 <= w_deep t -> w_deep t + zlen n + 4 <= 1023 ->
  exists o', element_end o t = Ok o' /\ ended (take S (Stop n)) o'.
Proof.
  intros Si N We D L. pose proof (zlen_nonneg n). assert (B : bytes n) by (apply name_bytes, N). unfold element_end, ended. cbn [take fst snd]. rewrite We.
  assert (B10 : blanks_only [10]) by (repeat constructor; right; reflexivity). assert (B32 : blanks_only [32]) by (repeat constructor; left; reflexivity).
  destruct (w_child t); cbn [negb] in Si.
  - destruct Si as (bl & Bl & R). destruct (w_inside t).
    + rewrite end_inline by (try assumption; lia). eexists. split; [reflexivity|]. exists [32]. split; [exact B32|]. rewrite (run_then _ _ _ _ R). cbn [app run step fst snd Z.eqb Pos.eqb].
      rewrite flush_before by exact Bl. etransitivity; [exact (stop_ok _ n [32] N B32)|rewrite <- ?app_assoc; reflexivity].
    + rewrite end_text by (try assumption; lia). eexists. split; [reflexivity|]. exists [10]. split; [exact B10|]. rewrite (run_then _ _ _ _ R), run_pad. rewrite <- app_assoc, flush_around; [|exact Bl|apply blanks_blank].
      etransitivity; [exact (stop_ok _ n [10] N B10)|rewrite <- ?app_assoc; reflexivity].
  - destruct Si as (P & m & E & M & R & F).
    assert (O : exists o1, (if w_safe t then text_printf o [62; 60; 47; 37; 115; 62; 0] [AStr (Some (n ++ [0]))] else text_write o [47; 62; 0]) = Ok o1 /\ run init o1 = Some (InText [], fst S ++ [Stop n])).
    { destruct (w_safe t).
      - rewrite end_safe by (try assumption; lia). eexists. split; [reflexivity|]. rewrite (run_then _ _ _ _ R). change ([62; 60; 47] ++ n ++ [62]) with ([62] ++ [60; 47] ++ n ++ [62]). rewrite (run_gt m n A E _ M), <- F.
        cbn [app run step fst snd Z.eqb Pos.eqb]. change (flush []) with (@nil ev). rewrite app_nil_r. apply (stop_ok _ n [] N). constructor.
      - exists (o ++ [47; 62]). split; [apply (write_ok o [47; 62]); [repeat constructor; lia|vm_compute; discriminate]|]. rewrite (run_then _ _ _ _ R). etransitivity; [exact (run_empty m n A E [] M)|]. rewrite F, <- app_assoc. reflexivity. }
    destruct O as (o1 & -> & R1). cbn [bind]. rewrite P. change (flush []) with (@nil ev). cbn [app]. destruct (w_inside t).
    + exists o1. split; [reflexivity|]. exists []. split; [constructor|exact R1].
    + exists (o1 ++ [10]). split; [apply (write_ok o1 [10]); [repeat constructor; lia|vm_compute; discriminate]|]. exists [10]. split; [exact B10|]. apply (run_tail o1 [] _ [10] R1). apply blanks_text, B10.
Qed.
Lemma end_data_ok o t v n A S : sim o (negb (w_child t)) n A S -> name_ok n -> text_ok v -> w_elem t = n ++ [0] -> 0 <= w_deep t -> w_deep t + zlen n + zlen v + 4 <= 1023 -> zlen n + zlen v + 5 <= 1023 ->
  exists o', element_end_data o t (v ++ [0]) = Ok o' /\ ended (take (take S (Text v)) (Stop n)) o'.
Proof.
  intros Si N T We D L L'. pose proof (zlen_nonneg n). pose proof (zlen_nonneg v). assert (B : bytes n) by (apply name_bytes, N). assert (Bv : bytes v) by (apply text_bytes, T). unfold element_end_data, ended. cbn [take fst snd]. rewrite We.
  assert (B10 : blanks_only [10]) by (repeat constructor; right; reflexivity).
  destruct (w_child t); cbn [negb] in Si.
  - destruct Si as (bl & Bl & R). rewrite end_data1 by (try assumption; lia). eexists. split; [reflexivity|]. exists [10]. split; [exact B10|].
    rewrite (run_then _ _ _ _ R), (run_then _ _ _ _ (run_text v _ _ T)), run_pad. rewrite <- !app_assoc. rewrite (app_assoc (snd S)), flush_around; [|exact Bl|apply blanks_blank].
    etransitivity; [exact (stop_ok _ n [10] N B10)|rewrite <- ?app_assoc; reflexivity].
  - destruct Si as (P & m & E & M & R & F). rewrite end_data0 by (try assumption; lia). eexists. split; [reflexivity|]. exists [10]. split; [exact B10|].
    rewrite (run_then _ _ _ _ R), (run_gt m n A E _ M), <- F. rewrite (run_then _ _ _ _ (run_text v [] _ T)). rewrite P. cbn [app run step fst snd Z.eqb Pos.eqb]. etransitivity; [exact (stop_ok _ n [10] N B10)|rewrite <- ?app_assoc; reflexivity].
Qed.

(** ** Whole documents *)
Section node_ind.
Context (P : node -> Prop) (HD : forall v, P (Data v)) (HE : forall n a ks fin, Forall P ks -> P (Elem n a ks fin)).
Fixpoint node_ind' (x : node) : P x :=
  match x with
  | Data v => HD v
  | Elem n a ks fin => HE n a ks fin ((fix go l : Forall P l := match l with [] => Forall_nil P | y :: l => Forall_cons y (node_ind' y) (go l) end) ks)
  end.
End node_ind.
Definition kids_fit (d : Z) (ks : list node) : Prop := fold_right (fun k P => fits d k /\ P) True ks.
Definition put_good (x : node) : Prop := forall o t n A S d, fits (d + 2) x -> sim o (negb (w_child t)) n A S -> 0 <= w_deep t <= d -> 0 <= d -> (w_deep t = 1 -> x <> Data [32]) ->
  exists t' o', put o t x = Ok (t', o') /\ sim o' (negb (w_child t')) n A (fold_left take (events x) S) /\
    w_elem t' = w_elem t /\ (w_deep t' = w_deep t \/ w_deep t' = 0) /\ w_inside t' = w_inside t /\ w_safe t' = w_safe t.
Lemma each_ok ks : Forall put_good ks -> forall o t n A S d, kids_fit (d + 2) ks -> sim o (negb (w_child t)) n A S -> 0 <= w_deep t <= d -> 0 <= d -> (w_deep t = 1 -> ~ In (Data [32]) ks) ->
  exists t' o', each put o t ks = Ok (t', o') /\ sim o' (negb (w_child t')) n A (fold_left take (concat (map events ks)) S) /\
    w_elem t' = w_elem t /\ (w_deep t' = w_deep t \/ w_deep t' = 0) /\ w_inside t' = w_inside t /\ w_safe t' = w_safe t.
Proof.
  induction 1 as [|x ks G _ IH]; intros o t n A S d F Si D D0 R.
  - exists t, o. split; [reflexivity|]. split; [exact Si|]. tauto.
  - destruct F as [F1 F]. destruct (G o t n A S d F1 Si D D0) as (t1 & o1 & E1 & S1 & W1 & W2 & W3 & W4); [intros Q X; apply (R Q); left; exact X|].
    destruct (IH o1 t1 n A _ d F S1) as (t2 & o2 & E2 & S2 & V1 & V2 & V3 & V4); [lia|exact D0|intros Q X; apply R; [lia|right; exact X]|].
    exists t2, o2. split; [unfold each; fold (each put); rewrite E1; cbn [bind fst snd]; exact E2|]. split; [cbn [map concat]; rewrite fold_left_app; exact S2|].
    split; [congruence|]. split; [lia|]. split; congruence.
Qed.
(** From the start tag to the end. *)
Lemma body_ok n a ks fin o t S d : name_ok n -> Forall attr_ok a -> fin_ok fin -> d + zlen n + fin_room fin + 4 <= 1023 -> kids_fit (d + 2) ks -> Forall put_good ks ->
  run init o = Some (InName n, S) -> w_elem t = n ++ [0] -> w_child t = false -> 0 <= w_deep t <= d -> 1 <= d -> (w_deep t = 1 -> ~ In (Data [32]) ks) ->
  exists o', (do o <- put_attrs o a; do k <- each put o t ks; put_end (snd k) (fst k) fin) = Ok o' /\
    ended (fold_left take (concat (map events ks) ++ text_evs fin ++ [Stop n]) (S ++ [Start n (shown_attrs a)], [])) o'.
Proof.
  intros N Fa Ff L Fk G R We Wc D D1 Rt. rewrite attrs_ok by exact Fa. cbn [bind].
  destruct (run_attrs_out a (InName n) n [] S (or_introl (conj eq_refl eq_refl)) Fa) as (m & M & Rm). cbn [app] in M.
  assert (Si : sim (o ++ concat (map attr_out a)) (negb (w_child t)) n (shown_attrs a) (S ++ [Start n (shown_attrs a)], [])).
  { rewrite Wc. split; [reflexivity|]. exists m, S. split; [exact M|]. split; [rewrite (run_then _ _ _ _ R); exact Rm|reflexivity]. }
  destruct (each_ok ks G _ t n _ _ d Fk Si D ltac:(lia) Rt) as (t1 & o1 & E1 & S1 & W1 & W2 & W3 & W4). rewrite E1. cbn [bind fst snd]. rewrite fold_left_app.
  pose proof (zlen_nonneg n). unfold put_end. destruct fin as [v|]; cbn [fin_ok fin_room text_evs app] in *.
  - pose proof (zlen_nonneg v). destruct (end_data_ok o1 t1 v n _ _ S1 N Ff) as (o2 & E2 & X); [congruence|lia|lia|lia|]. exists o2. split; [exact E2|exact X].
  - destruct (end_ok o1 t1 n _ _ S1 N) as (o2 & E2 & X); [congruence|lia|lia|]. exists o2. split; [exact E2|exact X].
Qed.
Lemma put_ok x : put_good x.
Proof.
  induction x as [v|n a ks fin IH] using node_ind'; intros o t pn A S d F Si D D0 R.
  - cbn [fits] in F. destruct F as [F1 F2]. cbn [put events fold_left]. apply append_ok; [exact Si|exact F1|exact F2|]. intros Q X. apply (R Q). rewrite X. reflexivity.
  - cbn [fits] in F. destruct F as (N & Fa & Ff & L & Fk). pose proof (zlen_nonneg n). assert (0 <= fin_room fin) by (destruct fin as [v|]; cbn [fin_room]; [apply zlen_nonneg|lia]).
    destruct (begin_ok o t n pn A S Si N ltac:(lia) ltac:(lia)) as (o1 & E1 & R1).
    cbn [put]. rewrite E1. cbn [bind fst snd].
    set (t1 := Tw (n ++ [0]) (if w_inside t then 0 else w_deep t + 2) false (w_deep t =? 0) (w_safe t)).
    destruct (body_ok n a ks fin o1 t1 _ (d + 2) N Fa Ff L Fk IH R1 eq_refl eq_refl) as (o2 & E2 & X); [unfold t1; cbn [w_deep]; destruct (w_inside t); lia|lia|unfold t1; cbn [w_deep]; destruct (w_inside t); lia|].
    eexists _, o2. split.
    + revert E2. destruct (put_attrs o1 a) as [| | |o3]; cbn [bind]; try discriminate. destruct (each put o3 t1 ks) as [| | |k]; cbn [bind]; try discriminate. intros ->. reflexivity.
    + cbn [w_child w_elem w_deep w_inside w_safe negb]. split; [|tauto]. cbn [events fold_left take]. rewrite (app_assoc (fst S)). exact X.
Qed.
Lemma run_header n : name_ok n -> run init (xml_line ++ [60] ++ n) = Some (InName n, []).
Proof. intros N. rewrite (run_then init xml_line (InText [10], []) _ eq_refl). change (run (InText [10], []) ([60] ++ n)) with (run (Lt, []) n). apply run_start, N. Qed.
Lemma document_read safe n a ks fin : document_ok n a ks fin ->
  exists o, put_document safe n a ks fin = Ok o /\ read_xml o = Some (meaning (events (Elem n a ks fin))).
Proof.
  intros (F & L & R). cbn [fits] in F. destruct F as (N & Fa & Ff & L1 & Fk). unfold put_document, element_xml. rewrite xml_text; [|apply name_bytes, N|exact L]. cbn [bind fst snd w_elem w_deep w_child w_inside]. cbn [app].
  destruct (body_ok n a ks fin (xml_line ++ [60] ++ n) (Tw (n ++ [0]) 1 false false safe) [] 1 N Fa Ff L1 Fk) as (o & E & X); [apply Forall_forall; intros x _; apply put_ok|apply run_header, N|reflexivity|reflexivity|cbn [w_deep]; lia|lia|intros _; exact R|].
  exists o. split; [exact E|]. destruct X as (bl & B & Rn). unfold read_xml. fold init. rewrite Rn. unfold meaning. cbn [events fold_left take fst snd]. change (flush []) with (@nil ev). cbn [app] in *.
  set (s := fold_left take _ _) in *. assert (Q : snd s = []). { unfold s. rewrite !app_assoc, fold_left_app. reflexivity. } rewrite Q in *. rewrite (flush_before bl [] B). change (flush []) with (@nil ev). rewrite app_nil_r. reflexivity.
Qed.
