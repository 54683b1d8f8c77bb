(** C148: what classes tell about their properties. *)
From Verif Require Import Base BaseProofs Tree Str StrSpec StrProofs DurationsProofs Told ToldSpec.

Lemma first_here {A B} (t : A -> B -> Prop) x l d : t x d -> first_to t (x :: l) d.
Proof. intros H. exists [], x, l. repeat split; [exact H|intros y e []]. Qed.
Lemma first_later {A B} (t : A -> B -> Prop) x l d : (forall e, ~ t x e) -> first_to t l d -> first_to t (x :: l) d.
Proof. intros N (a & y & b & -> & T & F). exists (x :: a), y, b. repeat split; [exact T|]. intros z e [<-|I]; [apply N|apply F; exact I]. Qed.
Lemma first_app1 {A B} (t : A -> B -> Prop) l l' d : first_to t l d -> first_to t (l ++ l') d.
Proof. intros (a & y & b & -> & T & F). exists a, y, (b ++ l'). rewrite <- app_assoc. repeat split; assumption. Qed.
Lemma first_app2 {A B} (t : A -> B -> Prop) l l' d : none_to t l -> first_to t l' d -> first_to t (l ++ l') d.
Proof. intros N (a & y & b & -> & T & F). exists (l ++ a), y, b. rewrite <- app_assoc. repeat split; [exact T|]. intros z e I. apply in_app_or in I as [I|I]; [apply N; exact I|apply F; exact I]. Qed.
Lemma none_app {A B} (t : A -> B -> Prop) l l' : none_to t l -> none_to t l' -> none_to t (l ++ l').
Proof. intros N N' z e I. apply in_app_or in I as [I|I]; [apply N|apply N']; exact I. Qed.
Lemma none_cons {A B} (t : A -> B -> Prop) x l : (forall e, ~ t x e) -> none_to t l -> none_to t (x :: l).
Proof. intros N N' z e [<-|I]; [apply N|apply N'; exact I]. Qed.
Lemma none_tail {A B} (t : A -> B -> Prop) l l' : none_to t (l ++ l') -> none_to t l'.
Proof. intros N z e I. apply N. apply in_or_app. right. exact I. Qed.

Lemma scan_ok ask meta id l : match scan ask meta id l with Some d => first_to (says ask meta id) l d | None => none_to (says ask meta id) l end.
Proof.
  induction l as [|m l IH]; cbn [scan]; [intros y e []|].
  assert (L : (forall e, ~ says ask meta id m e) -> match scan ask meta id l with Some d => first_to (says ask meta id) (m :: l) d | None => none_to (says ask meta id) (m :: l) end).
  { intros N. destruct (scan ask meta id l); [apply first_later|apply none_cons]; assumption. }
  destruct (Z.eqb_spec (e_id m) id) as [E|E]; [|apply L; intros e [(? & _)|(? & _)]; contradiction].
  destruct (Z.eqb_spec (e_meta m) meta) as [F|F]; [apply first_here; left; repeat split; assumption|].
  destruct (Z.eqb_spec (e_meta m) META) as [G|G]; [|apply L; intros e [(_ & ? & _)|(_ & ? & _)]; contradiction].
  destruct (ask (e_data m) id meta) as [d|] eqn:A; [apply first_here; right; repeat split; [assumption..|congruence|assumption]|].
  apply L. intros e [(_ & ? & _)|(_ & _ & _ & ?)]; congruence.
Qed.
Lemma scan_asked_ok ask meta id l : meta <> META -> match scan_asked ask meta id l with Some d => first_to (answers ask meta id) l d | None => none_to (answers ask meta id) l end.
Proof.
  intros NM. induction l as [|m l IH]; cbn [scan_asked]; [intros y e []|].
  assert (L : (forall e, ~ answers ask meta id m e) -> match scan_asked ask meta id l with Some d => first_to (answers ask meta id) (m :: l) d | None => none_to (answers ask meta id) (m :: l) end).
  { intros N. destruct (scan_asked ask meta id l); [apply first_later|apply none_cons]; assumption. }
  destruct (Z.eqb_spec (e_id m) id) as [E|E]; [|apply L; intros e (? & _); contradiction].
  destruct (Z.eqb_spec (e_meta m) META) as [G|G]; cbn [andb]; [|apply L; intros e (_ & ? & _); contradiction].
  destruct (ask (e_data m) id meta) as [d|] eqn:A; [apply first_here; repeat split; assumption|].
  apply L. intros e (_ & _ & _ & ?). congruence.
Qed.
Lemma asked_ok ask meta id c : meta <> META -> match asked ask meta id c with Some d => first_to (answers ask meta id) (all c) d | None => none_to (answers ask meta id) (all c) end.
Proof.
  intros NM. induction c as [|k c IH]; cbn [asked all flat_map]; [intros y e []|]. pose proof (scan_asked_ok ask meta id (entries k) NM) as S.
  destruct (scan_asked ask meta id (entries k)); [apply first_app1; exact S|]. destruct (asked ask meta id c); [apply first_app2|apply none_app]; assumption.
Qed.

(** C148: whatever is asked about a property, other than its text, is told by the first of all descriptions that says something, from the
    class itself on; it is 0 when none does. *)
Theorem C148_found ask ext first EMPTY meta id c : meta <> STRING ->
  first_to (says ask meta id) (all c) (param_meta ask ext first EMPTY meta id c) \/
  (none_to (says ask meta id) (all c) /\ param_meta ask ext first EMPTY meta id c = 0).
Proof.
  intros N. induction c as [|k c IH]; cbn [param_meta all flat_map]; [right; split; [intros y e []|reflexivity]|].
  pose proof (scan_ok ask meta id (entries k)) as S. destruct (scan ask meta id (entries k)); [left; apply first_app1; exact S|].
  destruct (Z.eqb_spec meta STRING) as [|_]; [contradiction|]. destruct IH as [F|[F E]]; [left; apply first_app2; assumption|right; split; [apply none_app; assumption|exact E]].
Qed.
Print Assumptions C148_found.

Lemma external_ok EMPTY first e id c : first_to (has_text e first id) c (external first EMPTY e id c) \/ (none_to (has_text e first id) c /\ external first EMPTY e id c = EMPTY).
Proof.
  induction c as [|k c IH]; cbn [external]; [right; split; [intros y d []|reflexivity]|]. cbv zeta.
  destruct (Z.eqb_spec (e (k_id k) id) 0) as [Z0|Z0]; cbn [negb andb].
  - assert (N : forall d, ~ has_text e first id k d) by (intros d (-> & ? & _); contradiction). destruct IH as [F|[F E]]; [left; apply first_later; assumption|right; split; [apply none_cons; assumption|exact E]].
  - destruct (Z.eqb_spec (first (e (k_id k) id)) 0) as [Z1|Z1]; cbn [negb].
    + assert (N : forall d, ~ has_text e first id k d) by (intros d (-> & _ & ?); contradiction). destruct IH as [F|[F E]]; [left; apply first_later; assumption|right; split; [apply none_cons; assumption|exact E]].
    + left. apply first_here. repeat split; assumption.
Qed.

(** C148: the text of a property is what the class itself says first. *)
Theorem C148_own ask ext first EMPTY id k ps d : first_to (says ask STRING id) (entries k) d -> param_meta ask ext first EMPTY STRING id (k :: ps) = d.
Proof.
  intros F. cbn [param_meta]. pose proof (scan_ok ask STRING id (entries k)) as S. destruct (scan ask STRING id (entries k)) as [d'|].
  - destruct F as (a & x & b & E & T & N), S as (a' & x' & b' & E' & T' & N'). rewrite E in E'. clear E.
    assert (X : x = x'). { revert a' E' N'. induction a as [|y a IH]; intros [|y' a'] E' N'; cbn [app] in E'; injection E' as E1 E2.
      - exact E1.
      - subst y'. elim (N' x d); [left; reflexivity|exact T].
      - subst y. elim (N x' d'); [left; reflexivity|exact T'].
      - subst y'. apply (IH (fun z e I => N z e (or_intror I)) a' E2 (fun z e I => N' z e (or_intror I))). }
    subst x'. destruct T as [(? & ? & ?)|(? & ? & ? & ?)], T' as [(? & ? & ?)|(? & ? & ? & ?)]; congruence.
  - destruct F as (a & x & b & E & T & _). elim (S x d); [rewrite E; apply in_or_app; right; left; reflexivity|exact T].
Qed.
Print Assumptions C148_own.

(** C148: a text the class says nothing of is the first answer of a function of what it derives from; without an answer, and with a
    context that has texts, the first text it has for the class and what it derives from, or the empty one; and without such a context
    the first text written in what it derives from, or 0. *)
Theorem C148_text ask ext first EMPTY id k ps : none_to (says ask STRING id) (entries k) ->
  first_to (answers ask STRING id) (all ps) (param_meta ask ext first EMPTY STRING id (k :: ps)) \/
  (none_to (answers ask STRING id) (all ps) /\
   match ext with
   | Some e => first_to (has_text e first id) (k :: ps) (param_meta ask ext first EMPTY STRING id (k :: ps)) \/
               (none_to (has_text e first id) (k :: ps) /\ param_meta ask ext first EMPTY STRING id (k :: ps) = EMPTY)
   | None => first_to (writes STRING id) (all ps) (param_meta ask ext first EMPTY STRING id (k :: ps)) \/
             (none_to (writes STRING id) (all ps) /\ param_meta ask ext first EMPTY STRING id (k :: ps) = 0)
   end).
Proof.
  intros NK. cbn [param_meta]. pose proof (scan_ok ask STRING id (entries k)) as S. destruct (scan ask STRING id (entries k)) as [d'|].
  { destruct S as (a & x & b & E & T & _). elim (NK x d'); [rewrite E; apply in_or_app; right; left; reflexivity|exact T]. }
  clear S. change (STRING =? STRING) with true. cbv iota. assert (NM : STRING <> META) by discriminate.
  pose proof (asked_ok ask STRING id ps NM) as A. destruct (asked ask STRING id ps); [left; exact A|right]. split; [exact A|].
  destruct ext as [e|]; [apply external_ok|]. clear NK k. induction ps as [|k ps IH]; cbn [param_meta all flat_map] in *; [right; split; [intros y e []|reflexivity]|].
  assert (A1 : none_to (answers ask STRING id) (entries k)) by (intros y e I; apply A; apply in_or_app; left; exact I).
  apply none_tail in A. pose proof (scan_ok ask STRING id (entries k)) as S. destruct (scan ask STRING id (entries k)).
  - left. apply first_app1. destruct S as (a & x & b & E & T & N). exists a, x, b. split; [exact E|]. split.
    + destruct T as [T|T]; [exact T|]. elim (A1 x z); [rewrite E; apply in_or_app; right; left; reflexivity|exact T].
    + intros y e I W. apply (N y e I). left. exact W.
  - assert (W : none_to (writes STRING id) (entries k)) by (intros y e I T; apply (S y e I); left; exact T).
    change (STRING =? STRING) with true. cbv iota. pose proof (asked_ok ask STRING id ps NM) as A2. destruct (asked ask STRING id ps) as [d|].
    + destruct A2 as (a & x & b & E & T & _). elim (A x d); [unfold all in E; rewrite E; apply in_or_app; right; left; reflexivity|exact T].
    + destruct (IH A) as [F|[F E]]; [left; apply first_app2; assumption|right; split; [apply none_app; assumption|exact E]].
Qed.
Print Assumptions C148_text.

(** C148: not so: a text written in what a class derives from is found when nothing nearer says one.  With a context that has texts,
    it never is, where functions do not answer. *)
Theorem C148_hidden_refuted ask e first EMPTY id k ps : none_to (says ask STRING id) (entries k) -> none_to (answers ask STRING id) (all ps) ->
  none_to (has_text e first id) (k :: ps) -> param_meta ask (Some e) first EMPTY STRING id (k :: ps) = EMPTY.
Proof.
  intros N1 N2 N3. destruct (C148_text ask (Some e) first EMPTY id k ps N1) as [(a & x & b & E & T & _)|[_ [(a & x & b & E & T & _)|[_ E]]]]; [| |exact E].
  - elim (N2 x _ ltac:(rewrite E; apply in_or_app; right; left; reflexivity) T).
  - elim (N3 x _ ltac:(rewrite E; apply in_or_app; right; left; reflexivity) T).
Qed.
Print Assumptions C148_hidden_refuted.

(** C148: the text that is given is never NULL. *)
Theorem C148_given ask ext first EMPTY id c : EMPTY <> 0 ->
  class_str ask ext first EMPTY id c <> 0 /\ (param_meta ask ext first EMPTY STRING id c <> 0 -> class_str ask ext first EMPTY id c = param_meta ask ext first EMPTY STRING id c).
Proof. intros H. unfold class_str. cbv zeta. destruct (Z.eqb_spec (param_meta ask ext first EMPTY STRING id c) 0); split; congruence. Qed.
Print Assumptions C148_given.

(** C148: the properties of a class are enumerated each as often as its type is written, those of what it derives from first, each description
    in its order. *)
Theorem C148_enumerated c :
  (forall id, Z.of_nat (count_occ Z.eq_dec (enum c) id) = zlen (filter (fun m => (e_meta m =? TYPE) && (e_id m =? id)) (all c))) /\
  (forall ds ps, c = ds ++ ps -> enum c = enum ps ++ enum ds) /\
  (forall k m1 m2 a b d, c = [k] -> entries k = a ++ m1 :: b ++ m2 :: d -> e_meta m1 = TYPE -> e_meta m2 = TYPE -> exists x y z, enum c = x ++ e_id m1 :: y ++ e_id m2 :: z /\ zlen x <= zlen a /\ zlen y <= zlen b).
Proof.
  split; [|split].
  - intros id. induction c as [|k c IH]; [reflexivity|]. cbn [enum all flat_map]. rewrite count_occ_app, Nat2Z.inj_add, IH, filter_app, zlen_app. unfold all.
    enough (X : forall l, Z.of_nat (count_occ Z.eq_dec (map e_id (filter (fun m => e_meta m =? TYPE) l)) id) = zlen (filter (fun m => (e_meta m =? TYPE) && (e_id m =? id)) l)) by (rewrite X; lia).
    induction l as [|m l IHl]; [reflexivity|]. cbn [filter]. destruct (e_meta m =? TYPE); cbn [andb]; [|exact IHl]. cbn [map count_occ].
    destruct (Z.eq_dec (e_id m) id) as [->|Ne]; [rewrite Z.eqb_refl|destruct (Z.eqb_spec (e_id m) id); [contradiction|exact IHl]]. unfold zlen in *. cbn [length]. lia.
  - intros ds ps ->. induction ds as [|k ds IH]; cbn [app enum]; [symmetry; apply app_nil_r|]. rewrite IH, app_assoc. reflexivity.
  - intros k m1 m2 a b d -> E T1 T2. cbn [enum app]. rewrite E. rewrite filter_app. cbn [filter]. rewrite T1. cbn. rewrite filter_app. cbn [filter]. rewrite T2. change (TYPE =? TYPE) with true. cbv iota.
    rewrite map_app. cbn [map]. rewrite map_app. cbn [map]. do 3 eexists. split; [reflexivity|]. unfold zlen. rewrite !map_length.
    assert (L : forall l, (length (filter (fun m => (e_meta m =? TYPE)%Z) l) <= length l)%nat) by (induction l as [|m l IH]; cbn [filter length]; [lia|destruct (e_meta m =? TYPE)%Z; cbn [length]; lia]).
    pose proof (L a); pose proof (L b). lia.
Qed.
Print Assumptions C148_enumerated.

Lemma find_in_ok text_at s t l : text s -> (forall m, In m l -> e_meta m = NAME -> exists n, text n /\ text_at (e_data m) = n ++ [0]) ->
  exists r, find_in text_at (s ++ 0 :: t) l = Ok r /\ match r with Some id => first_to (names text_at s) l id | None => none_to (names text_at s) l end.
Proof.
  intros Ts. induction l as [|m l IH]; intros W; cbn [find_in]; [exists None; split; [reflexivity|intros y e []]|].
  destruct (IH (fun m I => W m (or_intror I))) as (r & E & S).
  assert (L : (forall e, ~ names text_at s m e) -> match r with Some id => first_to (names text_at s) (m :: l) id | None => none_to (names text_at s) (m :: l) end).
  { intros N. destruct r; [apply first_later|apply none_cons]; assumption. }
  destruct (Z.eqb_spec (e_meta m) NAME) as [F|F]; [|exists r; split; [exact E|apply L; intros e (? & _); contradiction]].
  destruct (W m (or_introl eq_refl) F) as (n & Tn & En). rewrite En, same_text_id by assumption. cbn [Tree.bind].
  destruct (order s n) eqn:O; cbn.
  - exists (Some (e_id m)). split; [reflexivity|]. apply first_here. repeat split; [exact F|]. exists n. split; [exact En|]. apply order_eq; assumption.
  - exists r. split; [exact E|]. apply L. intros e (_ & _ & n' & En' & Sn). rewrite En in En'. apply app_inj_tail in En' as [<- _]. apply order_eq in Sn; [congruence|assumption..].
  - exists r. split; [exact E|]. apply L. intros e (_ & _ & n' & En' & Sn). rewrite En in En'. apply app_inj_tail in En' as [<- _]. apply order_eq in Sn; [congruence|assumption..].
Qed.
(** C148: a property is found by its name, whatever the case of letters: the first of all descriptions that has it, from the class itself
    on; 0 when there is none. *)
Theorem C148_named text_at s t c : text s -> (forall m, In m (all c) -> e_meta m = NAME -> exists n, text n /\ text_at (e_data m) = n ++ [0]) ->
  exists id, find_param text_at (Some (s ++ 0 :: t)) c = Ok id /\ (first_to (names text_at s) (all c) id \/ (none_to (names text_at s) (all c) /\ id = 0)).
Proof.
  intros Ts. unfold find_param. induction c as [|k c IH]; intros W; cbn [find_classes all flat_map]; [exists 0; split; [reflexivity|right; split; [intros y e []|reflexivity]]|].
  destruct (find_in_ok text_at s t (entries k) Ts) as (r & E & S). { intros m I. apply W. apply in_or_app. left. exact I. }
  rewrite E. cbn [Tree.bind]. destruct r as [id|]; [exists id; split; [reflexivity|left; apply first_app1; exact S]|].
  destruct IH as (id & E2 & S2). { intros m I. apply W. apply in_or_app. right. exact I. }
  exists id. split; [exact E2|]. destruct S2 as [F|[F Z]]; [left; apply first_app2; assumption|right; split; [apply none_app; assumption|exact Z]].
Qed.
Print Assumptions C148_named.

(** A class of one property, derived from one that writes its text (at 200), from one with a function that answers 300 for another. *)
Definition ex_chain := [mkCls 1 (Some [mkEntry TYPE 7 1; mkEntry NAME 7 100]); mkCls 2 None; mkCls 3 (Some [mkEntry TYPE 5 1; mkEntry STRING 7 200; mkEntry NAME 5 101]); mkCls 4 (Some [mkEntry META 8 1; mkEntry TYPE 8 2])].
Definition ex_ask (f id meta : Z) : option Z := if (id =? 8) && (meta =? STRING) then Some 300 else None.
Definition ex_text (a : Z) : list Z := if a =? 100 then [65; 98; 0] else [99; 0].
Example C148_ex : param_meta ex_ask None (fun _ => 1) 9 TYPE 5 ex_chain = 1 /\ param_meta ex_ask None (fun _ => 1) 9 STRING 7 ex_chain = 200 /\
  param_meta ex_ask (Some (fun _ _ => 0)) (fun _ => 1) 9 STRING 7 ex_chain = 9 /\ param_meta ex_ask (Some (fun k id => if k =? 3 then 400 else 0)) (fun _ => 1) 9 STRING 7 ex_chain = 400 /\
  param_meta ex_ask (Some (fun k id => 400)) (fun _ => 1) 9 STRING 8 ex_chain = 300 /\ class_str ex_ask None (fun _ => 1) 9 1 ex_chain = 9 /\
  enum ex_chain = [8; 5; 7] /\ find_param ex_text (Some [97; 66; 0; 5]) ex_chain = Ok 7 /\ find_param ex_text (Some [67; 0]) ex_chain = Ok 5 /\ find_param ex_text (Some [0]) ex_chain = Ok 0.
Proof. vm_compute. repeat split. Qed.
Example C148_hidden_ex : none_to (says ex_ask STRING 7) (entries (mkCls 1 (Some [mkEntry TYPE 7 1; mkEntry NAME 7 100]))) /\ none_to (answers ex_ask STRING 7) (all (tl ex_chain)) /\
  none_to (has_text (fun _ _ => 0) (fun _ => 1) 7) ex_chain /\ first_to (writes STRING 7) (all ex_chain) 200.
Proof.
  repeat split.
  - intros y e [<-|[<-|[]]] [(_ & X & _)|(_ & X & _)]; discriminate X.
  - intros y e I (_ & _ & _ & X). discriminate X.
  - intros y e _ (-> & X & _). apply X. reflexivity.
  - exists [mkEntry TYPE 7 1; mkEntry NAME 7 100; mkEntry TYPE 5 1], (mkEntry STRING 7 200), [mkEntry NAME 5 101; mkEntry META 8 1; mkEntry TYPE 8 2].
    repeat split. intros y e [<-|[<-|[<-|[]]]] (_ & X & _); discriminate X.
Qed.
Example C148_named_ex : text [97; 66] /\ forall m, In m (all ex_chain) -> e_meta m = NAME -> exists n, text n /\ ex_text (e_data m) = n ++ [0].
Proof.
  split; [repeat constructor; lia|]. intros m I E. cbn in I. repeat (destruct I as [<-|I]; [first [discriminate E|eexists; split; [|first [exact (eq_refl : _ = [65; 98] ++ [0])|exact (eq_refl : _ = [99] ++ [0])]]; repeat constructor; lia]|]). contradiction.
Qed.
