From Verif Require Import Base BaseProofs Tree Arr Str StrProofs Printf PrintfSpec PrintfProofs PrintfProofs2 PrintfProofs3 ScanProofs2 StrSpec Xml XmlSpec XmlProofs XmlProofs2.

(** ** Blanks around texts *)
Definition blanks_only (s : list Z) : Prop := Forall (fun c => c = 32 \/ c = 10) s.
Lemma skip_app bl l : blanks_only bl -> skip_blanks (bl ++ l) = skip_blanks l.
Proof. induction 1 as [|c bl H _ IH]; [reflexivity|]. cbn [app skip_blanks]. replace (blank_char c) with true by (destruct H as [-> | ->]; reflexivity). exact IH. Qed.
Lemma skip_none l : skip_blanks l = [] -> forall r, skip_blanks (l ++ r) = skip_blanks r.
Proof. induction l as [|c l IH]; intros H r; [reflexivity|]. cbn [app skip_blanks] in *. destruct (blank_char c); [apply IH; exact H|discriminate H]. Qed.
Lemma skip_some l r : skip_blanks l <> [] -> skip_blanks (l ++ r) = skip_blanks l ++ r.
Proof. induction l as [|c l IH]; intros H; [contradiction|]. cbn [app skip_blanks] in *. destruct (blank_char c); [apply IH; exact H|reflexivity]. Qed.
Lemma skip_only bl : blanks_only bl -> skip_blanks bl = [].
Proof. intros H. rewrite <- (app_nil_r bl), skip_app by exact H. reflexivity. Qed.
Lemma trim_around a p b : blanks_only a -> blanks_only b -> trim (a ++ p ++ b) = trim p.
Proof.
  intros A B. unfold trim. rewrite skip_app by exact A. destruct (skip_blanks p) as [|c r] eqn:E.
  - rewrite skip_none by exact E. rewrite (skip_only b B). reflexivity.
  - rewrite skip_some by (rewrite E; discriminate). rewrite E, rev_app_distr. rewrite skip_app; [reflexivity|]. apply Forall_rev. exact B.
Qed.
Lemma flush_around a p b : blanks_only a -> blanks_only b -> flush (a ++ p ++ b) = flush p.
Proof. intros A B. unfold flush. rewrite trim_around by assumption. reflexivity. Qed.
Lemma flush_before a p : blanks_only a -> flush (a ++ p) = flush p.
Proof. intros A. rewrite <- (app_nil_r p) at 1. apply flush_around; [exact A|constructor]. Qed.
Lemma blanks_blank n : blanks_only (blank n).
Proof. apply Forall_forall. intros c H. apply repeat_spec in H. left. exact H. Qed.

(** ** The reader on pieces of text *)
Lemma run_app : forall a s b, run s (a ++ b) = match run s a with Some s => run s b | None => None end.
Proof. induction a as [|c a IH]; intros s b; [reflexivity|]. cbn [app run]. destruct (step s c); [apply IH|reflexivity]. Qed.
Lemma run_then s a s1 b : run s a = Some s1 -> run s (a ++ b) = run s1 b.
Proof. intros H. rewrite run_app, H. reflexivity. Qed.
Lemma run_text v : forall b E, text_ok v -> run (InText b, E) v = Some (InText (b ++ v), E).
Proof.
  induction v as [|c v IH]; intros b E H; [rewrite app_nil_r; reflexivity|]. apply Forall_cons_iff in H. destruct H as [(L & N1 & N2 & N3) H]. cbn [run step fst snd].
  replace (c =? 60) with false by lia. replace (c =? 38) with false by lia. rewrite L. replace (c =? 13) with false by lia. rewrite IH by exact H. rewrite <- app_assoc. reflexivity.
Qed.
Lemma blanks_text s : blanks_only s -> text_ok s.
Proof. apply Forall_impl. intros c [-> | ->]; repeat split; discriminate. Qed.
Lemma run_name m : forall n E, Forall (fun c => name_char c = true) m -> run (InName n, E) m = Some (InName (n ++ m), E).
Proof. induction m as [|c m IH]; intros n E H; [rewrite app_nil_r; reflexivity|]. apply Forall_cons_iff in H. destruct H as [L H]. cbn [run step fst snd]. rewrite L, IH by exact H. rewrite <- app_assoc. reflexivity. Qed.
Lemma run_close m : forall n E, Forall (fun c => name_char c = true) m -> run (InClose n, E) m = Some (InClose (n ++ m), E).
Proof. induction m as [|c m IH]; intros n E H; [rewrite app_nil_r; reflexivity|]. apply Forall_cons_iff in H. destruct H as [L H]. cbn [run step fst snd]. rewrite L, IH by exact H. rewrite <- app_assoc. reflexivity. Qed.
Lemma run_attr m : forall n A a E, Forall (fun c => name_char c = true) m -> run (InAttr n A a, E) m = Some (InAttr n A (a ++ m), E).
Proof. induction m as [|c m IH]; intros n A a E H; [rewrite app_nil_r; reflexivity|]. apply Forall_cons_iff in H. destruct H as [L H]. cbn [run step fst snd]. rewrite L, IH by exact H. rewrite <- app_assoc. reflexivity. Qed.
Lemma run_start n E : name_ok n -> run (Lt, E) n = Some (InName n, E).
Proof.
  intros [N H]. destruct n as [|c n]; [contradiction|]. apply Forall_cons_iff in H. destruct H as [L H]. pose proof (name_char_range c L). cbn [run step fst snd]. replace (c =? 47) with false by lia. replace (c =? 63) with false by lia. rewrite L. apply run_name. exact H.
Qed.
Lemma run_stop n E r : name_ok n -> run (Lt, E) ([47] ++ n ++ [62] ++ r) = run (InText [], E ++ [Stop n]) r.
Proof.
  intros [N H]. cbn [app run step fst snd Z.eqb Pos.eqb]. rewrite (run_then _ _ _ _ (run_close n [] E H)). cbn [app run step fst snd].
  replace (name_char 62) with false by reflexivity. replace (zlen n =? 0) with false; [reflexivity|]. destruct n; [contradiction|]. rewrite zlen_cons. pose proof (zlen_nonneg n). lia.
Qed.
Lemma run_esc1 c n A a v E : 32 <= c < 256 -> run (InVal n A a v, E) (esc1 c) = Some (InVal n A a (v ++ [c]), E).
Proof.
  intros H. unfold esc1, entity. destruct (Z.eqb_spec c 38) as [->|N1]; [reflexivity|]. destruct (Z.eqb_spec c 34) as [->|N2]; [reflexivity|]. destruct (Z.eqb_spec c 60) as [->|N3]; [reflexivity|]. destruct (Z.eqb_spec c 62) as [->|N4]; [reflexivity|].
  cbn [run step fst snd]. replace (c =? 34) with false by lia. replace (c =? 60) with false by lia. replace (c =? 38) with false by lia. replace (legal c) with true by (unfold legal; lia).
  replace (if blank_char c then 32 else c) with c; [reflexivity|]. unfold blank_char. destruct (Z.eqb_spec c 32) as [->|]; [reflexivity|]. replace (c =? 9) with false by lia. replace (c =? 10) with false by lia. replace (c =? 13) with false by lia. reflexivity.
Qed.
Lemma run_esc s : forall n A a v E, Forall (fun c => 32 <= c < 256) s -> run (InVal n A a v, E) (esc s) = Some (InVal n A a (v ++ s), E).
Proof.
  induction s as [|c s IH]; intros n A a v E H; [rewrite app_nil_r; reflexivity|]. apply Forall_cons_iff in H. destruct H as [L H]. change (esc (c :: s)) with (esc1 c ++ esc s). rewrite (run_then _ _ _ _ (run_esc1 c n A a v E L)), IH by exact H. rewrite <- app_assoc. reflexivity.
Qed.

Lemma run_eq n A a E r : run (InAttr n A a, E) (61 :: 34 :: r) = run (InVal n A a [], E) r.
Proof. reflexivity. Qed.

(** A start tag not ended yet. *)
Definition in_tag (m : mode) (n : list Z) (A : list (list Z * list Z)) : Prop := m = InName n /\ A = [] \/ m = AfterVal n A.
Lemma run_attr_out m n A E a : in_tag m n A -> attr_ok a -> exists m', in_tag m' n (A ++ shown_attrs [a]) /\ run (m, E) (attr_out a) = Some (m', E).
Proof.
  intros M H. destruct a as [[an dflt] v]. destruct H as (N & V & _). cbn [attr_out]. unfold shown_attrs. cbn [map concat]. destruct (dflt && nothing v).
  - exists m. rewrite !app_nil_r. split; [exact M|reflexivity].
  - exists (AfterVal n (A ++ [(an, attr_text v)])). split; [right; rewrite app_nil_r; reflexivity|].
    assert (S : run (m, E) [32] = Some (InTag n A, E)) by (destruct M as [[-> ->] | ->]; reflexivity).
    rewrite (run_then _ _ _ _ S). destruct N as [N1 N2]. destruct an as [|c an]; [contradiction|]. apply Forall_cons_iff in N2. destruct N2 as [L N2]. cbn [app run step fst snd]. rewrite L.
    rewrite (run_then _ _ _ _ (run_attr an n A [c] E N2)). rewrite run_eq. cbn [app].
    destruct (val_bytes v V) as [_ R]. rewrite (run_then _ _ _ _ (run_esc _ n A (c :: an) [] E R)). reflexivity.
Qed.
Lemma run_attrs_out : forall l m n A E, in_tag m n A -> Forall attr_ok l -> exists m', in_tag m' n (A ++ shown_attrs l) /\ run (m, E) (concat (map attr_out l)) = Some (m', E).
Proof.
  induction l as [|a l IH]; intros m n A E M H; [exists m; rewrite app_nil_r; split; [exact M|reflexivity]|]. apply Forall_cons_iff in H. destruct H as [H1 H]. destruct (run_attr_out m n A E a M H1) as (m1 & M1 & R1). destruct (IH m1 n _ E M1 H) as (m2 & M2 & R2).
  exists m2. split; [|cbn [map concat]; rewrite (run_then _ _ _ _ R1); exact R2]. replace (A ++ shown_attrs (a :: l)) with ((A ++ shown_attrs [a]) ++ shown_attrs l); [exact M2|]. rewrite <- app_assoc. f_equal. unfold shown_attrs. cbn [map concat]. rewrite app_nil_r. reflexivity.
Qed.
Lemma run_gt m n A E r : in_tag m n A -> run (m, E) ([62] ++ r) = run (InText [], E ++ [Start n A]) r.
Proof. intros [[-> ->] | ->]; reflexivity. Qed.
Lemma run_empty m n A E r : in_tag m n A -> run (m, E) ([47; 62] ++ r) = run (InText [], E ++ [Start n A; Stop n]) r.
Proof. intros [[-> ->] | ->]; reflexivity. Qed.
(** Indentation and '<'. *)
Lemma run_pad w b E r : run (InText b, E) (pad w ++ r) = run (Lt, E ++ flush (b ++ blank (w - 1))) r.
Proof. unfold pad. rewrite <- app_assoc. rewrite (run_then _ _ _ _ (run_text _ b E (blanks_text _ (blanks_blank (w - 1))))). reflexivity. Qed.
