From Verif Require Import Base BaseProofs Tree Arr Str StrProofs Printf PrintfSpec PrintfProofs PrintfProofs2 PrintfProofs3 ScanProofs2 StrSpec Xml XmlSpec XmlProofs.

(** ** Values of attributes *)
Definition esc1 (c : Z) : list Z := match entity c with Some e => e | None => [c] end.
Definition esc (s : list Z) : list Z := concat (map esc1 s).
Lemma esc1_room c : zlen (esc1 c) = char_room c.
Proof. unfold esc1, entity, char_room. destruct (c =? 38), (c =? 34), (c =? 60), (c =? 62); reflexivity. Qed.
Lemma esc_room s : zlen (esc s) = fold_right (fun c n => char_room c + n) 0 s.
Proof. induction s as [|c s IH]; [reflexivity|]. unfold esc in *. cbn [map concat fold_right]. rewrite zlen_app, esc1_room, IH. reflexivity. Qed.
Lemma esc_bytes s : bytes s -> bytes (esc s).
Proof.
  induction s as [|c s IH]; intros H; [constructor|]. apply Forall_cons_iff in H. destruct H as [H1 H]. unfold esc in *. cbn [map concat]. apply bytes_app; [|apply IH; exact H]. unfold esc1, entity.
  destruct (c =? 38); [repeat constructor; lia|]. destruct (c =? 34); [repeat constructor; lia|]. destruct (c =? 60); [repeat constructor; lia|]. destruct (c =? 62); [repeat constructor; lia|]. repeat constructor; lia.
Qed.
Lemma escape_ok : forall s acc t, bytes s -> zlen acc + zlen (esc s) <= 4158 -> escape acc (s ++ 0 :: t) = Ok (acc ++ esc s ++ [0]).
Proof.
  induction s as [|c s IH]; intros acc t H L.
  - reflexivity.
  - apply Forall_cons_iff in H. destruct H as [H1 H]. change (esc (c :: s)) with (esc1 c ++ esc s) in *. rewrite zlen_app in L. pose proof (zlen_nonneg (esc s)). assert (1 <= zlen (esc1 c)) by (rewrite esc1_room; unfold char_room; destruct (c =? 38), (c =? 34), ((c =? 60) || (c =? 62)); lia).
    cbn [app escape]. unfold MAXVALUE in *. replace ((c =? 0) || (4096 + 64 - 1 <=? zlen acc)) with false by (symmetry; apply orb_false_iff; lia).
    unfold esc1 in *. destruct (entity c) as [e|].
    + rewrite firstn_all2 by (unfold zlen in *; lia). rewrite IH; [rewrite <- !app_assoc; reflexivity|exact H|rewrite zlen_app; lia].
    + rewrite IH; [rewrite <- !app_assoc; reflexivity|exact H|rewrite zlen_app; lia].
Qed.
Definition plain (s : list Z) : Prop := Forall (fun c => 32 <= c < 256 /\ c <> 38 /\ c <> 34 /\ c <> 60 /\ c <> 62) s.
Lemma plain_esc s : plain s -> esc s = s.
Proof.
  induction s as [|c s IH]; intros H; [reflexivity|]. apply Forall_cons_iff in H. destruct H as [H1 H]. change (esc (c :: s)) with (esc1 c ++ esc s). rewrite IH by exact H. unfold esc1, entity.
  replace (c =? 38) with false by lia. replace (c =? 34) with false by lia. replace (c =? 60) with false by lia. replace (c =? 62) with false by lia. reflexivity.
Qed.
Lemma plain_app a b : plain a -> plain b -> plain (a ++ b).
Proof. intros A B. apply Forall_app. split; assumption. Qed.
Lemma shown_plain q up n : 1 < q <= 16 -> 0 <= n < q ^ 40 -> plain (shown q up n).
Proof.
  intros Q N. unfold shown. destruct (numeral_ok q ltac:(lia) 40 n N) as (_ & H & _). apply Forall_map. revert H. apply Forall_impl. intros d D. unfold digit_char. destruct (d <? 10) eqn:Ed; [lia|]. destruct up; lia.
Qed.
Lemma decimal_plain p : int_ok p -> plain (decimal p).
Proof.
  intros P. unfold int_ok in P. unfold decimal. apply plain_app; [destruct (p <? 0); repeat constructor; lia|]. apply shown_plain; [lia|]. assert (2 ^ 31 < 10 ^ 40) by reflexivity. lia.
Qed.
Lemma hex2_plain b : 0 <= b < 256 -> plain (hex_digits true 2 b) /\ zlen (hex_digits true 2 b) = 2.
Proof.
  intros B. split.
  - unfold hex_digits, num_field. cbn [app]. apply plain_app; [apply Forall_forall; intros c H; apply repeat_spec in H; lia|]. apply shown_plain; [lia|]. assert (256 < 16 ^ 40) by reflexivity. lia.
  - apply (hex_digits_ok true 2 b); [lia|]. change (16 ^ Z.of_nat 2) with 256. exact B.
Qed.
Lemma bins_plain bs : Forall (fun b => 0 <= b < 256) bs -> plain (concat (map (hex_digits true 2) bs)) /\ zlen (concat (map (hex_digits true 2) bs)) = 2 * zlen bs.
Proof.
  induction bs as [|b bs IH]; intros H; [split; [constructor|reflexivity]|]. apply Forall_cons_iff in H. destruct H as [H1 H]. destruct (IH H) as [I1 I2]. destruct (hex2_plain b H1) as [P1 P2]. cbn [map concat]. split; [apply plain_app; assumption|]. rewrite zlen_app, zlen_cons, P2, I2. lia.
Qed.
Lemma val_bytes v : val_ok v -> (match v with VStr _ => True | _ => plain (attr_text v) end) /\ Forall (fun c => 32 <= c < 256) (attr_text v).
Proof.
  assert (PL : forall s, plain s -> Forall (fun c => 32 <= c < 256) s) by (intros s; apply Forall_impl; intros; lia).
  assert (P44 : plain [44]) by (repeat constructor; lia).
  destruct v as [s|p|p|bs|x y|x y w h]; cbn [val_ok attr_text]; intros H.
  - split; [exact I|exact H].
  - pose proof (decimal_plain p H). split; auto.
  - pose proof (decimal_plain p H). split; auto.
  - destruct (bins_plain bs H) as [P _]. split; auto.
  - assert (plain (decimal x ++ [44] ++ decimal y)) by (repeat first [exact P44 | apply decimal_plain; tauto | apply plain_app]). split; auto.
  - assert (plain (decimal x ++ [44] ++ decimal y ++ [44] ++ decimal w ++ [44] ++ decimal h)) by (repeat first [exact P44 | apply decimal_plain; tauto | apply plain_app]). split; auto.
Qed.
Lemma plain_bytes s : plain s -> bytes s.
Proof. apply Forall_impl. intros; lia. Qed.
Lemma bin_ok : forall bs acc, Forall (fun b => 0 <= b < 256) bs -> bytes acc -> zlen acc + 2 * zlen bs <= 4158 -> bin_loop acc bs = Ok (acc ++ concat (map (hex_digits true 2) bs) ++ [0]).
Proof.
  induction bs as [|b bs IH]; intros acc H A L; [reflexivity|]. apply Forall_cons_iff in H. destruct H as [H1 H]. rewrite zlen_cons in L. pose proof (zlen_nonneg bs). pose proof (zlen_nonneg acc). destruct (hex2_plain b H1) as [P1 P2].
  cbn [bin_loop map concat]. unfold MAXVALUE in *. replace (zlen acc <? 4096 + 64) with true by lia.
  pose proof (vstprintf_ok false (4096 + 64 - zlen acc) [Hex true (WLit [2]) false true b] []) as V. cbn [map concat app] in V. change (fmt_of (Hex true (WLit [2]) false true b)) with [37; 48; 50; 88] in V. change (args_of (Hex true (WLit [2]) false true b)) with [AInt b] in V. cbn [app] in V. rewrite V; [|lia| |].
  - change (text_of (Hex true (WLit [2]) false true b)) with (hex_digits true 2 b). rewrite app_nil_r. rewrite fit_all by lia. cbn [bind]. rewrite tcslen_end by (apply bytes_pos, plain_bytes; exact P1). cbn [bind].
    rewrite firstn_app. unfold zlen at 1 2. rewrite Nat2Z.id, Nat.sub_diag, firstn_all. cbn [firstn]. rewrite app_nil_r. rewrite IH; [rewrite <- !app_assoc; reflexivity|exact H|apply bytes_app; [exact A|apply plain_bytes; exact P1]|rewrite zlen_app; lia].
  - constructor; [|constructor]. cbn [piece_ok width_ok]. split; [|lia]. split; [repeat constructor; lia|]. split; [discriminate|]. vm_compute. discriminate.
  - cbn [rooms room_for]. split; [intros _; exact I|exact I].
Qed.
Lemma num_text' long c v : text_of (Num false WNone long c v) = decimal v.
Proof. cbn [text_of width_of]. unfold num_field, blank, decimal. replace (Z.to_nat (0 - zlen (if v <? 0 then [45] else []) - zlen (shown 10 false (Z.abs v)))) with 0%nat; [reflexivity|]. pose proof (zlen_nonneg (if v <? 0 then [45] else [])). pose proof (zlen_nonneg (shown 10 false (Z.abs v))). lia. Qed.
Lemma data_ok v : val_ok v -> val_room v <= 1019 -> match v with VStr s => True | _ => data_to_string v = Ok (attr_text v ++ [0]) end.
Proof.
  intros H L. destruct v as [s|p|p|bs|x y|x y w h]; cbn [val_ok] in H; cbn [data_to_string attr_text]; [exact I| | | | |].
  - unfold MAXVALUE. pose proof (decimal_len p H). rewrite int_dec by (try lia; exact H). rewrite fit_all by lia. reflexivity.
  - unfold MAXVALUE. pose proof (decimal_len p H). rewrite int_dec by (try lia; exact H). rewrite fit_all by lia. reflexivity.
  - rewrite bin_ok; [reflexivity|exact H|constructor|]. destruct (bins_plain bs H) as [P1 P2]. unfold val_room in L. cbn [attr_text] in L. rewrite <- esc_room, plain_esc in L by exact P1. change (zlen (@nil Z)) with 0. lia.
  - destruct H as [Hx Hy]. pose proof (decimal_len x Hx). pose proof (decimal_len y Hy).
    pose proof (vstprintf_ok false MAXVALUE [Num false WNone false 100 x; Lit 44; Num false WNone false 100 y] []) as V. unfold MAXVALUE in *.
    change (concat (map args_of [Num false WNone false 100 x; Lit 44; Num false WNone false 100 y])) with [AInt x; AInt y] in V. cbn [map concat] in V. rewrite !num_text' in V. change (text_of (Lit 44)) with [44] in V.
    change ((fmt_of (Num false WNone false 100 x) ++ fmt_of (Lit 44) ++ fmt_of (Num false WNone false 100 y) ++ []) ++ [0]) with [37; 100; 44; 37; 100; 0] in V. rewrite app_nil_r in V. rewrite V.
    + rewrite fit_all by (rewrite !zlen_app; change (zlen [44]) with 1; lia). reflexivity.
    + lia.
    + repeat constructor; try exact I; try (left; reflexivity); try lia; unfold int_ok in *; lia.
    + cbn [rooms room_for]. repeat (split; [intros; exact I|]). exact I.
  - destruct H as (Hx & Hy & Hw & Hh). pose proof (decimal_len x Hx). pose proof (decimal_len y Hy). pose proof (decimal_len w Hw). pose proof (decimal_len h Hh).
    pose proof (vstprintf_ok false MAXVALUE [Num false WNone false 100 x; Lit 44; Num false WNone false 100 y; Lit 44; Num false WNone false 100 w; Lit 44; Num false WNone false 100 h] []) as V. unfold MAXVALUE in *.
    change (concat (map args_of [Num false WNone false 100 x; Lit 44; Num false WNone false 100 y; Lit 44; Num false WNone false 100 w; Lit 44; Num false WNone false 100 h])) with [AInt x; AInt y; AInt w; AInt h] in V. cbn [map concat] in V. rewrite !num_text' in V. change (text_of (Lit 44)) with [44] in V.
    change ((fmt_of (Num false WNone false 100 x) ++ fmt_of (Lit 44) ++ fmt_of (Num false WNone false 100 y) ++ fmt_of (Lit 44) ++ fmt_of (Num false WNone false 100 w) ++ fmt_of (Lit 44) ++ fmt_of (Num false WNone false 100 h) ++ []) ++ [0]) with [37; 100; 44; 37; 100; 44; 37; 100; 44; 37; 100; 0] in V. rewrite app_nil_r in V. rewrite V.
    + rewrite fit_all by (rewrite !zlen_app; change (zlen [44]) with 1; lia). reflexivity.
    + lia.
    + repeat constructor; try exact I; try (left; reflexivity); try lia; unfold int_ok in *; lia.
    + cbn [rooms room_for]. repeat (split; [intros; exact I|]). exact I.
Qed.
Lemma default_ok v : val_ok v -> is_default (zend v) = Ok (nothing v).
Proof.
  destruct v as [s|p|p|bs|x y|x y w h]; cbn [zend is_default nothing val_ok forallb]; intros H.
  - destruct s as [|c s]; [reflexivity|]. apply Forall_cons_iff in H. cbn [app cur bind]. f_equal. lia.
  - reflexivity.
  - reflexivity.
  - assert (E : forallb (fun b : Z => b =? 0) bs = forallb (Z.eqb 0) bs); [|rewrite E; reflexivity]. clear H. induction bs as [|b bs IH]; [reflexivity|]. cbn [forallb]. rewrite IH, (Z.eqb_sym b). reflexivity.
  - f_equal. rewrite andb_true_r, (Z.eqb_sym x), (Z.eqb_sym y). reflexivity.
  - f_equal. rewrite andb_true_r, (Z.eqb_sym x), (Z.eqb_sym y), (Z.eqb_sym w), (Z.eqb_sym h), !andb_assoc. reflexivity.
Qed.
(** One attribute, as text. *)
Definition attr_out (a : list Z * bool * aval) : list Z :=
  match a with (n, dflt, v) => if dflt && nothing v then [] else [32] ++ n ++ [61; 34] ++ esc (attr_text v) ++ [34] end.
Lemma attrib_ok o n dflt v : attr_ok (n, dflt, v) -> text_attrib o (n ++ [0]) dflt (zend v) = Ok (o ++ attr_out (n, dflt, v)).
Proof.
  intros ([N1 N2] & V & L). pose proof (zlen_nonneg n). unfold text_attrib, attr_out.
  assert (Z0 : (if dflt then is_default (zend v) else Ok false) = Ok (dflt && nothing v)) by (destruct dflt; [rewrite default_ok by exact V; reflexivity|reflexivity]). rewrite Z0. cbn [bind].
  destruct (dflt && nothing v); [rewrite app_nil_r; reflexivity|].
  destruct (val_bytes v V) as [P R]. assert (BB : bytes (attr_text v)) by (revert R; apply Forall_impl; intros; lia). unfold val_room in L. rewrite <- esc_room in L.
  assert (T : (do t <- data_to_string (zend v); match zend v with VStr s => escape [] s | _ => Ok t end) = Ok (esc (attr_text v) ++ [0])).
  { destruct v as [s|p|p|bs|x y|x y w h]; cbn [zend].
    - cbn [data_to_string bind attr_text] in *. rewrite escape_ok; [reflexivity|exact BB|change (zlen (@nil Z)) with 0; lia].
    - pose proof (data_ok (VInt p) V) as D. cbv beta match in D. rewrite D by (unfold val_room; rewrite <- esc_room; lia). cbn [bind]. rewrite plain_esc by exact P. reflexivity.
    - pose proof (data_ok (VBool p) V) as D. cbv beta match in D. rewrite D by (unfold val_room; rewrite <- esc_room; lia). cbn [bind]. rewrite plain_esc by exact P. reflexivity.
    - pose proof (data_ok (VBin bs) V) as D. cbv beta match in D. rewrite D by (unfold val_room; rewrite <- esc_room; lia). cbn [bind]. rewrite plain_esc by exact P. reflexivity.
    - pose proof (data_ok (VPoint x y) V) as D. cbv beta match in D. rewrite D by (unfold val_room; rewrite <- esc_room; lia). cbn [bind]. rewrite plain_esc by exact P. reflexivity.
    - pose proof (data_ok (VRect x y w h) V) as D. cbv beta match in D. rewrite D by (unfold val_room; rewrite <- esc_room; lia). cbn [bind]. rewrite plain_esc by exact P. reflexivity. }
  destruct (data_to_string (zend v)) as [| | |t]; try discriminate T. cbn [bind] in *. rewrite T. cbn [bind].
  apply attr_text_ok; [apply name_bytes; exact N2|apply esc_bytes; exact BB|lia].
Qed.
Lemma attrs_ok : forall l o, Forall attr_ok l -> put_attrs o l = Ok (o ++ concat (map attr_out l)).
Proof.
  induction l as [|[[n d] v] l IH]; intros o H; [cbn [put_attrs map concat]; rewrite app_nil_r; reflexivity|]. apply Forall_cons_iff in H. destruct H as [H1 H]. cbn [put_attrs]. rewrite attrib_ok by exact H1. cbn [bind]. rewrite IH by exact H. cbn [map concat]. rewrite app_assoc. reflexivity.
Qed.
(** Strings of any length. *)
Lemma bytes_firstn k s : bytes s -> bytes (firstn k s).
Proof. intros H. apply Forall_forall. intros c C. unfold bytes in H. rewrite Forall_forall in H. apply H. rewrite <- (firstn_skipn k s). apply in_or_app. left. exact C. Qed.
Lemma escape_any : forall s acc, bytes s -> bytes acc -> exists q, escape acc (s ++ [0]) = Ok (q ++ [0]) /\ bytes q.
Proof.
  induction s as [|c s IH]; intros acc H A.
  - exists acc. split; [reflexivity|exact A].
  - apply Forall_cons_iff in H. destruct H as [H1 H]. cbn [app escape]. destruct ((c =? 0) || (MAXVALUE - 1 <=? zlen acc)); [exists acc; split; [reflexivity|exact A]|].
    pose proof (esc_bytes [c] ltac:(constructor; [exact H1|constructor])) as B. unfold esc, esc1 in B. cbn [map concat] in B. rewrite app_nil_r in B. destruct (entity c) as [e|].
    + apply IH; [exact H|]. apply bytes_app; [exact A|apply bytes_firstn; exact B].
    + apply IH; [exact H|]. apply bytes_app; [exact A|exact B].
Qed.
Lemma attr_any o n q : bytes n -> bytes q ->
  text_printf o [32; 37; 115; 61; 34; 37; 115; 34; 0] [AStr (Some (n ++ [0])); AStr (Some (q ++ [0]))] = Ok (o ++ firstn 1023 ([32] ++ n ++ [61; 34] ++ q ++ [34])).
Proof.
  intros N Q. unfold text_printf.
  pose proof (vstprintf_ok false MAXLINE [Lit 32; Txt false WNone n; Lit 61; Lit 34; Txt false WNone q; Lit 34] []) as V. unfold MAXLINE in *.
  change (concat (map fmt_of [Lit 32; Txt false WNone n; Lit 61; Lit 34; Txt false WNone q; Lit 34]) ++ [0]) with [32; 37; 115; 61; 34; 37; 115; 34; 0] in V.
  change (concat (map args_of [Lit 32; Txt false WNone n; Lit 61; Lit 34; Txt false WNone q; Lit 34])) with [AStr (Some (n ++ [0])); AStr (Some (q ++ [0]))] in V.
  rewrite V; [|lia|repeat constructor; try lia; assumption|rooms_t]. cbn [bind]. cbn [map concat text_of width_of]. rewrite !field0. unfold fit. change (Z.to_nat (1024 - 1)) with 1023%nat.
  set (x := [32] ++ n ++ [61] ++ [34] ++ q ++ [34] ++ []). assert (E : x = [32] ++ n ++ [61; 34] ++ q ++ [34]) by (unfold x; rewrite app_nil_r; reflexivity). rewrite <- E.
  apply write_ok; [apply bytes_pos, bytes_firstn; rewrite E; bys|]. unfold zlen. rewrite firstn_length. lia.
Qed.
