(** Proofs about character conversion: strings. *)
From Verif Require Import Base BaseProofs VintProofs Tree CodePages Text TextSpec TextProofs TextProofs2.

(** The characters a reader gets from a terminated string. *)
Inductive reads (rd : list Z -> res (Z * list Z)) : list Z -> list Z -> Prop :=
| r_stop t : reads rd (0 :: t) []
| r_char b l c l' cps : b <> 0 -> rd (b :: l) = Ok (c, l') -> reads rd l' cps -> reads rd (b :: l) (c :: cps).
Fixpoint put_all (wr : Z -> Z -> res (list Z * Z)) (len : Z) (cps : list Z) : res (list Z) :=
  match cps with
  | [] => Ok []
  | c :: cps => do w <- wr len c; do o <- put_all wr (snd w) cps; Ok (fst w ++ o)
  end.
Lemma conv_loop_ok rd wr fuel : forall len l cps, reads rd l cps -> (length cps < fuel)%nat -> conv_loop rd wr fuel len l = do o <- put_all wr len cps; Ok (o ++ [0]).
Proof.
  induction fuel as [|fuel IH]; intros len l cps H Hf; [lia|]. cbn [conv_loop]. destruct H as [t|b l c l' cps Hb Hr H]; [reflexivity|]. cbn [length] in Hf.
  replace (b =? 0) with false by lia. rewrite Hr. cbn [bind put_all]. destruct (wr len c) as [| | |[w len']]; try reflexivity. cbn [bind fst snd]. rewrite (IH len' l' cps H) by lia.
  destruct (put_all wr len' cps) as [| | |o]; try reflexivity. cbn [bind]. rewrite app_assoc. reflexivity.
Qed.
Lemma reads_length rd l cps : (forall b l c l', b <> 0 -> rd (b :: l) = Ok (c, l') -> (length l' <= length l)%nat) -> reads rd l cps -> (length cps < length l)%nat.
Proof. intros P. induction 1 as [t|b l c l' cps Hb Hr H IH]; cbn [length]; [lia|]. specialize (P _ _ _ _ Hb Hr). lia. Qed.

(** Reading what was encoded. *)
Lemma reads_enc rd (enc : Z -> list Z) (dom : Z -> Prop) t : (forall c r, dom c -> rd (enc c ++ r) = Ok (c, r)) -> (forall c, dom c -> exists b e, enc c = b :: e /\ b <> 0) ->
  forall cps, Forall dom cps -> reads rd (concat (map enc cps) ++ 0 :: t) cps.
Proof.
  intros H1 H2. induction cps as [|c cps IH]; intros H; cbn [map concat app]; [constructor|]. apply Forall_cons_iff in H. destruct H as [Hc H].
  destruct (H2 c Hc) as (b & e & E & Hb). rewrite <- app_assoc. specialize (H1 c (concat (map enc cps) ++ 0 :: t) Hc). rewrite E in H1 |- *. cbn [app] in *. eapply r_char; [exact Hb|exact H1|]. apply IH. exact H.
Qed.
Lemma utf8_head c : code_point c -> exists b e, utf8_of c = b :: e /\ b <> 0.
Proof.
  intros Hc. pose proof (utf8_nonzero c Hc) as H. destruct (utf8_of c) as [|b e] eqn:E.
  - destruct (utf8_bytes c) as [_ L]; [unfold code_point in Hc; lia|]. rewrite E in L. change (zlen (@nil Z)) with 0 in L. lia.
  - apply Forall_cons_iff in H. exists b, e. split; [reflexivity|apply H].
Qed.
Lemma reads_utf8 cps t : Forall code_point cps -> reads read_utf8 (concat (map utf8_of cps) ++ 0 :: t) cps.
Proof. apply reads_enc; [intros c r H; apply read_utf8_ok; unfold code_point in H; lia|apply utf8_head]. Qed.
Lemma reads_utf16 cps t : Forall unicode cps -> reads read_utf16 (concat (map utf16_of cps) ++ 0 :: t) cps.
Proof.
  apply reads_enc; [intros c r H; apply read_utf16_ok; exact H|]. intros c H. destruct (utf16_units c H) as [F L]. destruct (utf16_of c) as [|b e]; [change (zlen (@nil Z)) with 0 in L; lia|].
  apply Forall_cons_iff in F. exists b, e. split; [reflexivity|lia].
Qed.
Lemma reads_simple utf index s t : page_ok utf index -> Forall (fun b => 0 < b < 256) s -> reads (read_simple utf) (s ++ 0 :: t) (map (page_char utf) s).
Proof.
  intros OK. induction s as [|b s IH]; intros H; cbn [map app]; [constructor|]. apply Forall_cons_iff in H. destruct H as [Hb H].
  eapply r_char; [lia|apply (read_simple_ok utf index OK); unfold is_byte; lia|]. apply IH. exact H.
Qed.
(** Reading any terminated string. *)
Lemma tail_string l l' : c_string l -> tail_of l l' -> c_string l'.
Proof.
  intros (s & t & E & Hs) (p & -> & _ & Hp). revert p l' Hp E. induction s as [|x s IH]; intros p l' Hp E; destruct p as [|y p]; cbn [app] in E.
  - exists [], t. auto.
  - injection E as -> _. apply Forall_cons_iff in Hp. destruct Hp as [Hp _]. contradiction.
  - exists (x :: s), t. auto.
  - injection E as -> E. apply Forall_cons_iff in Hs, Hp. apply (IH (proj2 Hs) p l' (proj2 Hp) E).
Qed.
Lemma reads_any rd (unit_ok : Z -> Prop) : (forall a l, Forall unit_ok (a :: l) -> c_string (a :: l) -> a <> 0 -> exists c r, rd (a :: l) = Ok (c, r) /\ 0 <= c < 2 ^ 21 /\ tail_of (a :: l) r) ->
  forall l, Forall unit_ok l -> c_string l -> exists cps, reads rd l cps /\ Forall (fun c => 0 <= c < 2 ^ 21) cps /\ (length cps < length l)%nat.
Proof.
  intros P l. remember (length l) as n eqn:En. revert l En. induction n as [n IH] using lt_wf_ind. intros l -> Hu Hs.
  destruct l as [|a l]. { destruct Hs as ([|] & t & E & _); discriminate. }
  destruct (Z.eq_dec a 0) as [->|Ha]. { exists []. split; [constructor|]. split; [constructor|cbn; lia]. }
  destruct (P a l Hu Hs Ha) as (c & r & E & Hc & T). assert (Hlr : (length r < length (a :: l))%nat).
  { destruct T as (p & -> & Hp & _). rewrite app_length. destruct p; [contradiction|cbn; lia]. }
  assert (Hur : Forall unit_ok r). { destruct T as (p & E1 & _). rewrite E1 in Hu. apply Forall_app in Hu. apply Hu. }
  destruct (IH (length r) Hlr r eq_refl Hur (tail_string _ _ Hs T)) as (cps & R & F & L). exists (c :: cps). split; [eapply r_char; eassumption|]. split; [constructor; assumption|cbn [length] in *; lia].
Qed.
Lemma read_cp_safe p a l : good p -> Forall is_byte (a :: l) -> c_string (a :: l) -> a <> 0 -> exists c r, read_cp p (a :: l) = Ok (c, r) /\ 0 <= c < 2 ^ 21 /\ tail_of (a :: l) r.
Proof.
  intros G Hb Hs Ha. destruct p as [utf index|]; cbn [read_cp good] in *; [|apply read_utf8_safe; assumption]. apply Forall_cons_iff in Hb. destruct Hb as [Hb _].
  exists (page_char utf a), l. rewrite (read_simple_ok utf index G a l Hb). destruct (page_char_range utf index G a Hb) as (R & _). split; [reflexivity|]. split; [lia|].
  exists [a]. split; [reflexivity|]. split; [discriminate|]. repeat constructor. exact Ha.
Qed.

(** Writing. *)
Definition bounded (wr : Z -> Z -> res (list Z * Z)) (dom : Z -> Prop) : Prop :=
  forall c len, dom c -> 1 <= len -> exists o, wr len c = Ok (o, len - zlen o) /\ zlen o < len.
Lemma put_all_bounded wr dom : bounded wr dom -> forall cps len, Forall dom cps -> 1 <= len -> exists o, put_all wr len cps = Ok o /\ zlen o < len.
Proof.
  intros B. induction cps as [|c cps IH]; intros len H Hl; cbn [put_all]. { exists []. split; [reflexivity|]. change (zlen (@nil Z)) with 0. lia. }
  apply Forall_cons_iff in H. destruct H as [Hc H]. destruct (B c len Hc Hl) as (o & E & Lo). rewrite E. cbn [bind fst snd]. destruct (IH (len - zlen o) H ltac:(lia)) as (o2 & E2 & L2). rewrite E2. cbn [bind].
  exists (o ++ o2). split; [reflexivity|]. rewrite zlen_app. lia.
Qed.
Lemma put_all_room wr (enc : Z -> list Z) (dom : Z -> Prop) : (forall c len, dom c -> zlen (enc c) < len -> wr len c = Ok (enc c, len - zlen (enc c))) ->
  forall cps len, Forall dom cps -> zlen (concat (map enc cps)) < len -> put_all wr len cps = Ok (concat (map enc cps)).
Proof.
  intros W. induction cps as [|c cps IH]; intros len H Hl; cbn [put_all map concat]; [reflexivity|]. apply Forall_cons_iff in H. destruct H as [Hc H]. cbn [map concat] in Hl. rewrite zlen_app in Hl.
  pose proof (zlen_nonneg (concat (map enc cps))). rewrite W by (assumption || lia). cbn [bind fst snd]. rewrite IH by (assumption || lia). reflexivity.
Qed.
Lemma put_all_whole wr (enc : Z -> list Z) (dom : Z -> Prop) : (forall c len, dom c -> wr len c = Ok (if zlen (enc c) <? len then (enc c, len - zlen (enc c)) else ([], len))) ->
  forall cps len, Forall dom cps -> exists sub, subseq sub cps /\ put_all wr len cps = Ok (concat (map enc sub)).
Proof.
  intros W. induction cps as [|c cps IH]; intros len H; cbn [put_all]. { exists []. split; [constructor|reflexivity]. }
  apply Forall_cons_iff in H. destruct H as [Hc H]. rewrite W by exact Hc. cbn [bind]. destruct (zlen (enc c) <? len); cbn [fst snd].
  - destruct (IH (len - zlen (enc c)) H) as (sub & S & E). exists (c :: sub). rewrite E. split; [constructor; exact S|reflexivity].
  - destruct (IH len H) as (sub & S & E). exists sub. rewrite E. split; [constructor; exact S|reflexivity].
Qed.
Lemma write_utf8_bounded : bounded (write_cp Utf8) (fun c => 0 <= c).
Proof.
  intros c len Hc Hl. cbn [write_cp]. unfold write_utf8. cbv zeta.
  destruct ((c <? 128) && (1 <? len)) eqn:E1; [|destruct ((c <? 2048) && (2 <? len)) eqn:E2; [|destruct ((c <? 65536) && (3 <? len)) eqn:E3; [|destruct (4 <? len) eqn:E4]]]; eexists; (split; [f_equal; f_equal; first [reflexivity|change (zlen (@nil Z)) with 0; lia]|]).
  - change (zlen [_]) with 1. lia.
  - change (zlen [_; _]) with 2. lia.
  - change (zlen [_; _; _]) with 3. lia.
  - change (zlen [_; _; _; _]) with 4. lia.
  - change (zlen (@nil Z)) with 0. lia.
Qed.
Lemma write_cp_bounded p : good p -> bounded (write_cp p) (fun c => 0 <= c).
Proof.
  intros G. destruct p as [utf index|]; [|exact write_utf8_bounded]. intros c len Hc Hl. destruct (write_simple_any utf index G c len Hc) as (b & _ & E). cbn [write_cp]. rewrite E.
  destruct (1 <? len) eqn:L; eexists; (split; [f_equal; f_equal; first [reflexivity|change (zlen (@nil Z)) with 0; lia]|]); [change (zlen [b]) with 1|change (zlen (@nil Z)) with 0]; lia.
Qed.
Lemma write_utf16_bounded : bounded (fun len ch => Ok (write_utf16 len ch)) (fun c => 0 <= c).
Proof.
  intros c len Hc Hl. unfold write_utf16. destruct ((65536 <=? c) && (2 <? len)) eqn:E1; [|destruct (1 <? len) eqn:E2]; eexists; (split; [f_equal; f_equal; first [reflexivity|change (zlen (@nil Z)) with 0; lia]|]).
  - change (zlen [_; _]) with 2. lia.
  - change (zlen [_]) with 1. lia.
  - change (zlen (@nil Z)) with 0. lia.
Qed.

(** The converters. *)
Lemma weak_dom cps : Forall (fun c => 0 <= c < 2 ^ 21) cps -> Forall (fun c => 0 <= c) cps.
Proof. apply Forall_impl. intros; lia. Qed.
Lemma conv_loop_safe rd wr (unit_ok : Z -> Prop) : (forall a l, Forall unit_ok (a :: l) -> c_string (a :: l) -> a <> 0 -> exists c r, rd (a :: l) = Ok (c, r) /\ 0 <= c < 2 ^ 21 /\ tail_of (a :: l) r) ->
  bounded wr (fun c => 0 <= c) -> forall len l, Forall unit_ok l -> c_string l -> 1 <= len -> exists o, conv_loop rd wr (S (length l)) len l = Ok (o ++ [0]) /\ zlen (o ++ [0]) <= len.
Proof.
  intros R W len l Hu Hs Hl. destruct (reads_any rd unit_ok R l Hu Hs) as (cps & Hr & F & L). rewrite (conv_loop_ok rd wr _ len l cps Hr) by lia.
  destruct (put_all_bounded wr _ W cps len (weak_dom _ F) Hl) as (o & E & Lo). rewrite E. exists o. split; [reflexivity|]. rewrite zlen_app. change (zlen [0]) with 1. lia.
Qed.
Lemma conv_ws_ok p fuel : forall len l cps, 1 <= len -> reads (read_cp p) l cps -> (length cps < fuel)%nat -> conv_ws_loop fuel p len l = Ok (firstn (Z.to_nat (len - 1)) (map s32 cps) ++ [0]).
Proof.
  induction fuel as [|fuel IH]; intros len l cps Hl H Hf; [lia|]. cbn [conv_ws_loop]. destruct H as [t|b l c l' cps Hb Hr H]. { cbn [Z.eqb orb map]. rewrite firstn_nil. reflexivity. }
  cbn [length] in Hf. replace (b =? 0) with false by lia. cbn [orb]. destruct (len <=? 1) eqn:E. { replace (Z.to_nat (len - 1)) with 0%nat by lia. reflexivity. }
  rewrite Hr. cbn [bind]. rewrite (IH (len - 1) l' cps) by (assumption || lia). cbn [bind map]. replace (Z.to_nat (len - 1)) with (S (Z.to_nat (len - 1 - 1))) by lia. reflexivity.
Qed.
Lemma s32_small c : - 2 ^ 31 <= c < 2 ^ 31 -> s32 c = c.
Proof. intros H. unfold s32, s_wrap. change (2 ^ (32 - 1)) with (2 ^ 31). rewrite Z.mod_small by lia. lia. Qed.
Lemma map_s32 cps : Forall (fun c => 0 <= c < 2 ^ 21) cps -> map s32 cps = cps.
Proof. induction 1 as [|c cps Hc H IH]; [reflexivity|]. cbn [map]. rewrite s32_small, IH by lia. reflexivity. Qed.
Lemma conv_sw_ok p s t : forall len, Forall (fun b => b <> 0) s -> conv_sw_loop p len (s ++ 0 :: t) = do o <- put_all (write_cp p) len (map u64 s); Ok (o ++ [0]).
Proof.
  induction s as [|b s IH]; intros len H; cbn [app conv_sw_loop map put_all]; [reflexivity|]. apply Forall_cons_iff in H. destruct H as [Hb H]. replace (b =? 0) with false by lia.
  destruct (write_cp p len (u64 b)) as [| | |[w len']]; try reflexivity. cbn [bind fst snd]. rewrite (IH len' H). destruct (put_all _ len' _) as [| | |o]; try reflexivity. cbn [bind]. rewrite app_assoc. reflexivity.
Qed.
Lemma map_u64 cps : Forall code_point cps -> map u64 cps = cps.
Proof. induction 1 as [|c cps Hc H IH]; [reflexivity|]. cbn [map]. rewrite IH. unfold u64. unfold code_point in Hc. rewrite Z.mod_small by lia. reflexivity. Qed.
Lemma c_str_ok s t : Forall (fun b => b <> 0) s -> c_str (s ++ 0 :: t) = Ok s.
Proof. induction s as [|b s IH]; intros H; [reflexivity|]. apply Forall_cons_iff in H. destruct H as [Hb H]. cbn [app c_str]. replace (b =? 0) with false by lia. rewrite IH by exact H. reflexivity. Qed.

Lemma write_utf8_enc c len : code_point c -> write_cp Utf8 len c = Ok (if zlen (utf8_of c) <? len then (utf8_of c, len - zlen (utf8_of c)) else ([], len)).
Proof. intros H. cbn [write_cp]. rewrite write_utf8_ok by (unfold code_point in H; lia). reflexivity. Qed.
Lemma write_utf8_room c len : code_point c -> zlen (utf8_of c) < len -> write_cp Utf8 len c = Ok (utf8_of c, len - zlen (utf8_of c)).
Proof. intros H L. rewrite write_utf8_enc by exact H. replace (zlen (utf8_of c) <? len) with true by lia. reflexivity. Qed.
Lemma page_points utf index s : page_ok utf index -> Forall (fun b => 0 < b < 256) s -> Forall code_point (map (page_char utf) s).
Proof.
  intros G H. apply Forall_map. eapply Forall_impl; [|exact H]. intros b Hb. cbv beta in Hb. destruct (page_char_range utf index G b) as (R & _ & _ & N); [unfold is_byte; lia|]. specialize (N ltac:(lia)). unfold code_point. lia.
Qed.
