From Verif Require Import Base BaseProofs Tree Arr Str StrProofs Printf PrintfSpec PrintfProofs PrintfProofs2 PrintfProofs3 ScanProofs2 StrSpec Xml XmlSpec.

(** ** Printing into the stream *)
Lemma tcslen_end s t : Forall (fun c => 0 < c) s -> tcslen (s ++ 0 :: t) = Ok (zlen s).
Proof. induction s as [|c s IH]; intros H; [reflexivity|]. apply Forall_cons_iff in H. destruct H as [H1 H]. cbn [app tcslen]. replace (c =? 0) with false by lia. rewrite IH by exact H. cbn [bind]. f_equal. rewrite zlen_cons. lia. Qed.
Lemma write_ok o s : Forall (fun c => 0 < c) s -> zlen s <= 1023 -> text_write o (s ++ [0]) = Ok (o ++ s).
Proof.
  intros H L. unfold text_write. rewrite tcslen_end by exact H. cbn [bind]. f_equal. f_equal. unfold MAXLINE. replace (Z.min (zlen s) (1024 - 1)) with (zlen s) by lia. unfold zlen. rewrite Nat2Z.id. rewrite firstn_app, Nat.sub_diag, firstn_all. cbn [firstn]. apply app_nil_r.
Qed.
Lemma printf_ok o ps : Forall piece_ok ps -> rooms 1024 ps -> Forall (fun c => 0 < c) (concat (map text_of ps)) -> zlen (concat (map text_of ps)) <= 1023 ->
  text_printf o (concat (map fmt_of ps) ++ [0]) (concat (map args_of ps)) = Ok (o ++ concat (map text_of ps)).
Proof.
  intros H R P L. unfold text_printf. rewrite (vstprintf_ok false MAXLINE ps []) by (try assumption; unfold MAXLINE; lia). cbn [bind]. rewrite fit_all by (unfold MAXLINE; lia). apply write_ok; assumption.
Qed.
Lemma printf_eq o fmt args ps txt : fmt = concat (map fmt_of ps) ++ [0] -> args = concat (map args_of ps) -> concat (map text_of ps) = txt ->
  Forall piece_ok ps -> rooms 1024 ps -> Forall (fun c => 0 < c) txt -> zlen txt <= 1023 -> text_printf o fmt args = Ok (o ++ txt).
Proof. intros -> -> <- H R P L. apply printf_ok; assumption. Qed.
Lemma field0 s : field false 0 s = s.
Proof. unfold field, blank. replace (Z.to_nat (0 - zlen s)) with 0%nat by (pose proof (zlen_nonneg s); lia). reflexivity. Qed.
Lemma field_pad w : field false w [60] = blank (w - 1) ++ [60].
Proof. reflexivity. Qed.
Lemma zlen_blank n : zlen (blank n) = Z.max 0 n.
Proof. unfold blank, zlen. rewrite repeat_length. lia. Qed.
Lemma zlen_pad w : zlen (field false w [60]) = Z.max 1 w.
Proof. rewrite field_pad, zlen_app, zlen_blank. change (zlen [60]) with 1. lia. Qed.
Lemma blank_pos n : Forall (fun c => 0 < c) (blank n).
Proof. apply Forall_forall. intros c H. apply repeat_spec in H. lia. Qed.

(** ** The kinds of characters *)
Lemma name_char_range c : name_char c = true -> 33 < c < 256 /\ c <> 34 /\ c <> 38 /\ c <> 39 /\ c <> 47 /\ c <> 60 /\ c <> 61 /\ c <> 62 /\ c <> 63.
Proof. unfold name_char. cbn [existsb]. intros H. apply andb_true_iff in H. destruct H as [H1 H2]. apply andb_true_iff in H1. apply negb_true_iff in H2. rewrite !orb_false_iff in H2. lia. Qed.
Definition bytes (s : list Z) : Prop := Forall (fun c => 0 < c < 256) s.
Lemma bytes_pos s : bytes s -> Forall (fun c => 0 < c) s.
Proof. apply Forall_impl. intros; lia. Qed.
Lemma name_bytes n : Forall (fun c => name_char c = true) n -> bytes n.
Proof. apply Forall_impl. intros c H. apply name_char_range in H. lia. Qed.
Lemma legal_range c : legal c = true -> 32 <= c < 256 \/ c = 9 \/ c = 10 \/ c = 13.
Proof. unfold legal. rewrite !orb_true_iff, andb_true_iff. lia. Qed.
Lemma text_bytes v : text_ok v -> bytes v.
Proof. apply Forall_impl. intros c (H & _). apply legal_range in H. lia. Qed.
Lemma bytes_app a b : bytes a -> bytes b -> bytes (a ++ b).
Proof. intros A B. apply Forall_app. split; assumption. Qed.
Lemma bytes_blank n : bytes (blank n).
Proof. apply Forall_forall. intros c H. apply repeat_spec in H. lia. Qed.
Ltac bys := repeat first [assumption | apply bytes_blank | apply bytes_app | (apply text_bytes; assumption) | (apply name_bytes; assumption) | (apply Forall_cons; [lia|]) | apply Forall_nil].

(** ** The calls, as text *)
Definition pad (w : Z) : list Z := blank (w - 1) ++ [60].
Ltac rooms_t := cbn [rooms room_for width_of text_of]; rewrite ?field0, ?zlen_pad; repeat (split; [let Q := fresh in intros Q; first [exact I | lia]|]); exact I.
Lemma begin_text o w n : 0 <= w <= 1022 -> bytes n -> w + zlen n + 1 <= 1023 ->
  text_printf o [37; 42; 99; 37; 115; 0] [AInt w; AInt 60; AStr (Some (n ++ [0]))] = Ok (o ++ pad w ++ n).
Proof.
  intros W B L. pose proof (zlen_nonneg n).
  apply (printf_eq o _ _ [Chr false (WArg w) 60; Txt false WNone n]); [reflexivity|reflexivity| | | | |].
  - cbn [map concat text_of width_of]. rewrite field0, field_pad, app_nil_r. reflexivity.
  - repeat constructor; try lia; exact B.
  - rooms_t.
  - apply bytes_pos. unfold pad. bys.
  - unfold pad. rewrite !zlen_app, zlen_blank. change (zlen [60]) with 1. lia.
Qed.
Lemma end_text o w n : 0 <= w <= 1022 -> bytes n -> w + zlen n + 4 <= 1023 ->
  text_printf o [37; 42; 99; 47; 37; 115; 62; 10; 0] [AInt w; AInt 60; AStr (Some (n ++ [0]))] = Ok (o ++ pad w ++ [47] ++ n ++ [62; 10]).
Proof.
  intros W B L. pose proof (zlen_nonneg n).
  apply (printf_eq o _ _ [Chr false (WArg w) 60; Lit 47; Txt false WNone n; Lit 62; Lit 10]); [reflexivity|reflexivity| | | | |].
  - cbn [map concat text_of width_of]. rewrite field0, field_pad. unfold pad. rewrite <- !app_assoc. reflexivity.
  - repeat constructor; try lia; exact B.
  - rooms_t.
  - apply bytes_pos. unfold pad. bys.
  - unfold pad. rewrite !zlen_app, zlen_blank. change (zlen [60]) with 1. change (zlen [47]) with 1. change (zlen [62; 10]) with 2. lia.
Qed.
Lemma end_inline o n : bytes n -> zlen n + 4 <= 1023 ->
  text_printf o [60; 47; 37; 115; 62; 32; 0] [AStr (Some (n ++ [0]))] = Ok (o ++ [60; 47] ++ n ++ [62; 32]).
Proof.
  intros B L. pose proof (zlen_nonneg n).
  apply (printf_eq o _ _ [Lit 60; Lit 47; Txt false WNone n; Lit 62; Lit 32]); [reflexivity|reflexivity| | | | |].
  - cbn [map concat text_of width_of]. rewrite field0. reflexivity.
  - repeat constructor; try lia; exact B.
  - rooms_t.
  - apply bytes_pos. bys.
  - rewrite !zlen_app. change (zlen [60; 47]) with 2. change (zlen [62; 32]) with 2. lia.
Qed.
Lemma end_safe o n : bytes n -> zlen n + 4 <= 1023 ->
  text_printf o [62; 60; 47; 37; 115; 62; 0] [AStr (Some (n ++ [0]))] = Ok (o ++ [62; 60; 47] ++ n ++ [62]).
Proof.
  intros B L. pose proof (zlen_nonneg n).
  apply (printf_eq o _ _ [Lit 62; Lit 60; Lit 47; Txt false WNone n; Lit 62]); [reflexivity|reflexivity| | | | |].
  - cbn [map concat text_of width_of]. rewrite field0. reflexivity.
  - repeat constructor; try lia; exact B.
  - rooms_t.
  - apply bytes_pos. bys.
  - rewrite !zlen_app. change (zlen [62; 60; 47]) with 3. change (zlen [62]) with 1. lia.
Qed.
Lemma end_data1 o v w n : 0 <= w <= 1022 -> bytes v -> bytes n -> w + zlen n + zlen v + 4 <= 1023 ->
  text_printf o [37; 115; 37; 42; 99; 47; 37; 115; 62; 10; 0] [AStr (Some (v ++ [0])); AInt w; AInt 60; AStr (Some (n ++ [0]))] = Ok (o ++ v ++ pad w ++ [47] ++ n ++ [62; 10]).
Proof.
  intros W V B L. pose proof (zlen_nonneg n). pose proof (zlen_nonneg v).
  apply (printf_eq o _ _ [Txt false WNone v; Chr false (WArg w) 60; Lit 47; Txt false WNone n; Lit 62; Lit 10]); [reflexivity|reflexivity| | | | |].
  - cbn [map concat text_of width_of]. rewrite !field0, field_pad. unfold pad. rewrite <- !app_assoc. reflexivity.
  - repeat constructor; try lia; assumption.
  - rooms_t.
  - apply bytes_pos. unfold pad. bys.
  - unfold pad. rewrite !zlen_app, zlen_blank. change (zlen [60]) with 1. change (zlen [47]) with 1. change (zlen [62; 10]) with 2. lia.
Qed.
Lemma end_data0 o v n : bytes v -> bytes n -> zlen n + zlen v + 5 <= 1023 ->
  text_printf o [62; 37; 115; 60; 47; 37; 115; 62; 10; 0] [AStr (Some (v ++ [0])); AStr (Some (n ++ [0]))] = Ok (o ++ [62] ++ v ++ [60; 47] ++ n ++ [62; 10]).
Proof.
  intros V B L. pose proof (zlen_nonneg n). pose proof (zlen_nonneg v).
  apply (printf_eq o _ _ [Lit 62; Txt false WNone v; Lit 60; Lit 47; Txt false WNone n; Lit 62; Lit 10]); [reflexivity|reflexivity| | | | |].
  - cbn [map concat text_of width_of]. rewrite !field0. reflexivity.
  - repeat constructor; try lia; assumption.
  - rooms_t.
  - apply bytes_pos. bys.
  - rewrite !zlen_app. change (zlen [60; 47]) with 2. change (zlen [62]) with 1. change (zlen [62; 10]) with 2. lia.
Qed.
Lemma data0 o v : bytes v -> zlen v <= 1022 -> text_printf o [62; 37; 115; 0] [AStr (Some (v ++ [0]))] = Ok (o ++ [62] ++ v).
Proof.
  intros V L. pose proof (zlen_nonneg v).
  apply (printf_eq o _ _ [Lit 62; Txt false WNone v]); [reflexivity|reflexivity| | | | |].
  - cbn [map concat text_of width_of]. rewrite !field0, app_nil_r. reflexivity.
  - repeat constructor; try lia; assumption.
  - rooms_t.
  - apply bytes_pos. bys.
  - rewrite !zlen_app. change (zlen [62]) with 1. lia.
Qed.
Definition xml_line : list Z := firstn 39 xml_fmt.
Lemma xml_text o n : bytes n -> zlen n <= 983 -> text_printf o xml_fmt [AStr (Some (n ++ [0]))] = Ok (o ++ xml_line ++ [60] ++ n).
Proof.
  intros V L. pose proof (zlen_nonneg n).
  apply (printf_eq o _ _ (map Lit xml_line ++ [Lit 60; Txt false WNone n])); [reflexivity|reflexivity| | | | |].
  - rewrite map_app, concat_app. cbn [map concat text_of width_of]. rewrite !field0, app_nil_r. reflexivity.
  - cbn [xml_line xml_fmt firstn map app]. repeat constructor; try lia; assumption.
  - cbn [xml_line xml_fmt firstn map app]. rooms_t.
  - apply bytes_pos. cbn [xml_line xml_fmt firstn]. bys.
  - rewrite !zlen_app. change (zlen xml_line) with 39. change (zlen [60]) with 1. lia.
Qed.
Lemma attr_text_ok o n t : bytes n -> bytes t -> zlen n + zlen t + 4 <= 1023 ->
  text_printf o [32; 37; 115; 61; 34; 37; 115; 34; 0] [AStr (Some (n ++ [0])); AStr (Some (t ++ [0]))] = Ok (o ++ [32] ++ n ++ [61; 34] ++ t ++ [34]).
Proof.
  intros V B L. pose proof (zlen_nonneg n). pose proof (zlen_nonneg t).
  apply (printf_eq o _ _ [Lit 32; Txt false WNone n; Lit 61; Lit 34; Txt false WNone t; Lit 34]); [reflexivity|reflexivity| | | | |].
  - cbn [map concat text_of width_of]. rewrite !field0. reflexivity.
  - repeat constructor; try lia; assumption.
  - rooms_t.
  - apply bytes_pos. bys.
  - rewrite !zlen_app. change (zlen [61; 34]) with 2. change (zlen [34]) with 1. change (zlen [32]) with 1. lia.
Qed.
