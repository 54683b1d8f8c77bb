(** Proofs about formatted scanning. *)
From Verif Require Import Base BaseProofs VintProofs IntEltProofs Tree Arr Str StrSpec StrProofs Printf PrintfSpec PrintfProofs PrintfProofs2 Scan ScanSpec.

Definition known (base : Z) : Prop := base = 8 \/ base = 10 \/ base = 16.
Lemma digit_val_of base c d : known base -> digit_of base c d -> digit_val base c = d /\ 0 <= d < base /\ is_space c = false /\ (c =? 45) = false /\ c <> 0.
Proof.
  intros K H. unfold digit_val, hex_val, is_digit, is_space. destruct H as [d H1 H2|d H|d H]; (destruct K as [->|[->| ->]]; [change (8 =? 16) with false; change (8 =? 10) with false|change (10 =? 16) with false; change (10 =? 10) with true|change (16 =? 16) with true]); cbv iota; try lia.
  - replace ((48 <=? 48 + d) && (48 + d <=? 55)) with true by lia. lia.
  - replace ((48 <=? 48 + d) && (48 + d <=? 57)) with true by lia. lia.
  - replace ((48 <=? 48 + d) && (48 + d <=? 57)) with true by lia. lia.
  - replace ((48 <=? 87 + d) && (87 + d <=? 57)) with false by lia. replace ((97 <=? 87 + d) && (87 + d <=? 102)) with true by lia. lia.
  - replace ((48 <=? 55 + d) && (55 + d <=? 57)) with false by lia. replace ((97 <=? 55 + d) && (55 + d <=? 102)) with false by lia. replace ((65 <=? 55 + d) && (55 + d <=? 70)) with true by lia. lia.
Qed.
Lemma digit_val_none base c : known base -> (forall d, ~ digit_of base c d) -> digit_val base c <? 0 = true.
Proof.
  intros K H. unfold digit_val, hex_val, is_digit. destruct K as [->|[->| ->]]; [change (8 =? 16) with false; change (8 =? 10) with false|change (10 =? 16) with false; change (10 =? 10) with true|change (16 =? 16) with true]; cbv iota.
  - destruct ((48 <=? c) && (c <=? 55)) eqn:E; [|reflexivity]. exfalso. apply (H (c - 48)). replace c with (48 + (c - 48)) at 1 by lia. apply D_dec; lia.
  - destruct ((48 <=? c) && (c <=? 57)) eqn:E; [|reflexivity]. exfalso. apply (H (c - 48)). replace c with (48 + (c - 48)) at 1 by lia. apply D_dec; lia.
  - destruct ((48 <=? c) && (c <=? 57)) eqn:E. { exfalso. apply (H (c - 48)). replace c with (48 + (c - 48)) at 1 by lia. apply D_dec; lia. }
    destruct ((97 <=? c) && (c <=? 102)) eqn:E2. { exfalso. apply (H (c - 87)). replace c with (87 + (c - 87)) at 1 by lia. apply D_low; lia. }
    destruct ((65 <=? c) && (c <=? 70)) eqn:E3; [|reflexivity]. exfalso. apply (H (c - 55)). replace c with (55 + (c - 55)) at 1 by lia. apply D_up; lia.
Qed.
Lemma space_is c : space_char c <-> is_space c = true.
Proof. unfold space_char, is_space. lia. Qed.
Definition starts (P : Z -> Prop) (l : list Z) : Prop := match l with [] => True | c :: _ => P c end.
Lemma skip_ok t : forall ws rest, Forall space_char ws -> starts (fun c => ~ space_char c) rest -> zlen ws + zlen rest < 2 ^ 64 ->
  skip_space (zlen ws + zlen rest) (ws ++ rest ++ 0 :: t) = Ok (rest ++ 0 :: t, zlen rest).
Proof.
  induction ws as [|c ws IH]; intros rest H S L.
  - cbn [app]. change (zlen (@nil Z)) with 0. rewrite Z.add_0_l. destruct rest as [|c r]; [reflexivity|]. cbn [app skip_space]. rewrite zlen_cons in *. pose proof (zlen_nonneg r). replace (zlen r + 1 =? 0) with false by lia. cbn [starts] in S. rewrite space_is in S. apply Bool.not_true_is_false in S. rewrite S. reflexivity.
  - apply Forall_cons_iff in H. destruct H as [Hc H]. cbn [app skip_space]. rewrite zlen_cons in *. pose proof (zlen_nonneg ws). pose proof (zlen_nonneg rest). replace (zlen ws + 1 + zlen rest =? 0) with false by lia. apply space_is in Hc. rewrite Hc.
    replace (u64 (zlen ws + 1 + zlen rest - 1)) with (zlen ws + zlen rest) by (unfold u64; rewrite Z.mod_small; lia). apply IH; [assumption|assumption|lia].
Qed.
Lemma fold_ge base ds : 1 < base -> Forall (fun d => 0 <= d) ds -> forall a, 0 <= a -> a <= fold_left (fun a d => a * base + d) ds a.
Proof. intros Hb. induction 1 as [|d ds Hd _ IH]; intros a Ha; cbn [fold_left]; [lia|]. specialize (IH (a * base + d) ltac:(nia)). nia. Qed.
Lemma digits_nonneg base : known base -> forall cs ds, digits_of base cs ds -> Forall (fun d => 0 <= d) ds.
Proof. intros K cs ds. induction 1 as [|c d cs ds H _ IH]; constructor; [|assumption]. destruct (digit_val_of base c d K H) as (_ & ? & _). lia. Qed.
Lemma take_ok base t rest : known base -> forall cs ds w v ov, digits_of base cs ds -> 0 <= v -> fold_left (fun a d => a * base + d) ds v < 2 ^ 63 ->
  zlen cs + zlen rest < 2 ^ 64 -> (w < 0 /\ starts (fun c => forall d, ~ digit_of base c d) rest \/ zlen cs <= w /\ (starts (fun c => forall d, ~ digit_of base c d) rest \/ zlen cs = w)) ->
  take_digits base w v ov (zlen cs + zlen rest) (cs ++ rest ++ 0 :: t) = Ok (fold_left (fun a d => a * base + d) ds v, ov, rest ++ 0 :: t, zlen rest).
Proof.
  intros K. induction cs as [|c cs IH]; intros ds w v ov D Hv F L S; inversion D as [|? d ? ds' Hd D']; subst.
  - cbn [app fold_left]. change (zlen (@nil Z)) with 0 in *. rewrite Z.add_0_l. destruct rest as [|c r].
    + cbn [app]. change (zlen (@nil Z)) with 0. cbn [take_digits Z.eqb orb]. reflexivity.
    + cbn [app take_digits]. rewrite zlen_cons. pose proof (zlen_nonneg r). replace (zlen r + 1 =? 0) with false by lia. cbn [orb]. destruct (Z.eqb_spec w 0); [reflexivity|]. cbn [starts] in S.
      rewrite (digit_val_none base c K) by (destruct S as [[_ S]|[_ [S|S]]]; [exact S|exact S|lia]). reflexivity.
  - destruct (digit_val_of base c d K Hd) as (E1 & E2 & _). cbn [app take_digits fold_left] in *. rewrite zlen_cons in *. pose proof (zlen_nonneg cs). pose proof (zlen_nonneg rest).
    replace ((zlen cs + 1 + zlen rest =? 0) || (w =? 0)) with false by lia. rewrite E1. replace (d <? 0) with false by lia.
    assert (Hb : 1 < base) by (destruct K as [->|[->| ->]]; lia). assert (V : 0 <= v * base + d) by nia.
    pose proof (fold_ge base ds' Hb (digits_nonneg base K _ _ D') _ V). assert (Es : s64 (v * base + d) = v * base + d) by (unfold s64; apply s_wrap_small; [lia|change (2 ^ (64 - 1)) with (2 ^ 63); lia]).
    rewrite Es, Z.eqb_refl. cbn [negb]. rewrite orb_false_r. replace (u64 (zlen cs + 1 + zlen rest - 1)) with (zlen cs + zlen rest) by (unfold u64; rewrite Z.mod_small; lia).
    apply IH; try assumption; [lia|]. destruct S as [[S1 S2]|[S1 [S2|S2]]]; [left; split; [lia|assumption]|right; split; [lia|left; assumption]|right; split; [lia|right; lia]].
Qed.
Lemma base_known base l : reads_base base l -> known base.
Proof. unfold reads_base, known. lia. Qed.
Definition wval (w : option Z) : Z := match w with Some k => k | None => -1 end.
Lemma scan_int_ok base l (w : option Z) ws (neg : bool) cs ds rest t : reads_base base l -> Forall space_char ws -> digits_of base cs ds -> cs <> [] -> value base ds < 2 ^ 63 ->
  match w with Some k => 0 < k < 10 /\ zlen cs <= digit_room base neg k | None => True end ->
  starts (fun c => (forall d, ~ digit_of base c d) \/ (exists k, w = Some k /\ zlen cs = digit_room base neg k)) rest ->
  zlen (ws ++ (if neg then [45] else []) ++ cs) + zlen rest < 2 ^ 64 ->
  scan_int base (base =? 16) (wval w) (zlen (ws ++ (if neg then [45] else []) ++ cs) + zlen rest) ((ws ++ (if neg then [45] else []) ++ cs) ++ rest ++ 0 :: t) =
    Ok (Some (if neg then - value base ds else value base ds, false, rest ++ 0 :: t, zlen rest)).
Proof.
  intros Hb Hws D Hn Hv Hw Hs L. pose proof (base_known _ _ Hb) as K. unfold scan_int. set (body := (if neg then [45] else []) ++ cs) in *. assert (L2 : zlen ws + zlen body + zlen rest < 2 ^ 64) by (rewrite zlen_app in L; lia). clear L.
  assert (Hbody : starts (fun c => ~ space_char c) (body ++ rest) /\ exists c r, body = c :: r /\ (c =? 45) = neg).
  { unfold body. destruct neg; cbn [app]; [split; [cbn [starts]; unfold space_char; lia|do 2 eexists; split; reflexivity]|]. destruct cs as [|c cs]; [contradiction|]. inversion D as [|? d ? ds' Hd D']; subst. destruct (digit_val_of base c d K Hd) as (_ & _ & E & E' & _).
    cbn [app starts]. split; [rewrite space_is, E; discriminate|do 2 eexists; split; [reflexivity|exact E']]. }
  destruct Hbody as [Hst (c0 & r0 & Eb & Ec)].
  replace (zlen (ws ++ body) + zlen rest) with (zlen ws + zlen (body ++ rest)) by (rewrite !zlen_app; lia).
  replace ((ws ++ body) ++ rest ++ 0 :: t) with (ws ++ (body ++ rest) ++ 0 :: t) by (rewrite <- !app_assoc; reflexivity).
  rewrite skip_ok by (try assumption; rewrite zlen_app; lia). cbn [bind fst snd]. rewrite Eb at 1. cbn [app cur bind]. rewrite Ec.
  assert (T : forall w', (w' < 0 /\ w = None \/ exists k, w = Some k /\ w' = digit_room base neg k) -> zlen cs + zlen rest < 2 ^ 64 ->
    take_digits base w' 0 false (zlen cs + zlen rest) (cs ++ rest ++ 0 :: t) = Ok (value base ds, false, rest ++ 0 :: t, zlen rest)).
  { intros w' Hw' L'. apply take_ok; try assumption; [lia|]. destruct Hw' as [[H1 ->]|(k & -> & ->)].
    - left. split; [exact H1|]. destruct rest; [exact I|]. cbn [starts] in *. destruct Hs as [Hs|(k & Hk & _)]; [exact Hs|discriminate].
    - right. split; [apply Hw|]. destruct rest; [left; exact I|]. cbn [starts] in *. destruct Hs as [Hs|(k' & Hk & Hs)]; [left; exact Hs|right; injection Hk as <-; exact Hs]. }
  assert (V0 : 0 <= value base ds). { unfold value. apply fold_ge; [destruct K as [->|[->| ->]]; lia|apply (digits_nonneg base K cs ds D)|lia]. }
  assert (Ln : (0 < length cs)%nat) by (destruct cs; [contradiction|cbn; lia]).
  pose proof (zlen_nonneg ws). pose proof (zlen_nonneg rest). pose proof (zlen_nonneg cs).
  destruct neg.
  - unfold body in *. cbn [app] in *. cbn [tl]. rewrite zlen_cons in *. rewrite zlen_app. replace (u64 (zlen cs + zlen rest + 1 - 1)) with (zlen cs + zlen rest) by (unfold u64; rewrite Z.mod_small; lia). rewrite <- app_assoc.
    rewrite T; [|destruct w as [k|]; cbn [wval]; [right; exists k; split; [reflexivity|unfold digit_room; rewrite andb_true_r; reflexivity]|left; split; [destruct (base =? 16); lia|reflexivity]]|lia].
    cbn [bind]. replace (length (rest ++ 0%Z :: t) =? length (45%Z :: cs ++ rest ++ 0%Z :: t))%nat with false by (symmetry; apply Nat.eqb_neq; cbn [length]; rewrite !app_length; lia).
    replace (s64 (- value base ds)) with (- value base ds) by (symmetry; unfold s64; apply s_wrap_small; [lia|change (2 ^ (64 - 1)) with (2 ^ 63); lia]). rewrite Z.eqb_refl. reflexivity.
  - unfold body in *. cbn [app] in *. rewrite zlen_app, <- app_assoc. rewrite T; [|destruct w as [k|]; cbn [wval]; [right; exists k; split; [reflexivity|unfold digit_room; rewrite andb_false_r; reflexivity]|left; split; [lia|reflexivity]]|lia].
    cbn [bind]. replace (length (rest ++ 0%Z :: t) =? length (cs ++ rest ++ 0%Z :: t))%nat with false by (symmetry; apply Nat.eqb_neq; rewrite !app_length; lia). reflexivity.
Qed.
Definition store_of (x : bool * Z) : stored := if fst x then SL (snd x) else SI (s32 (snd x)).
Lemma scan_dir_ok base l w (long : bool) ws (neg : bool) cs ds rest t m st : item_ok (SNum base l w long ws neg cs ds) -> ends (SNum base l w long ws neg cs ds) rest ->
  zlen (item_text (SNum base l w long ws neg cs ds)) + zlen rest < 2 ^ 64 -> s_len st = zlen (item_text (SNum base l w long ws neg cs ds)) + zlen rest ->
  scan_dir (tl (item_mask (SNum base l w long ws neg cs ds)) ++ m) (item_text (SNum base l w long ws neg cs ds) ++ rest ++ 0 :: t) st =
  Ok (Sst (Some (rest ++ 0 :: t)) (zlen rest) (s_long st || long) (s_vals st ++ [store_of ((base =? 10) && (s_long st || long), if neg then - value base ds else value base ds)]) (s_ov st), m).
Proof.
  intros (Hb & Hws & D & Hn & Hv & Hw) He L Hl. cbn [item_text item_mask app tl] in *. unfold scan_dir.
  assert (Ll : is_digit l = false /\ (l =? 108) = false) by (unfold reads_base, is_digit in *; lia). destruct Ll as [Ll1 Ll2].
  assert (P : (do c <- cur ((match w with Some k => [48 + k] | None => [] end ++ (if long then [108] else []) ++ [l]) ++ m);
     do w <- (if is_digit c then number 0 ((match w with Some k => [48 + k] | None => [] end ++ (if long then [108] else []) ++ [l]) ++ m) else Ok (-1, (match w with Some k => [48 + k] | None => [] end ++ (if long then [108] else []) ++ [l]) ++ m)); Ok w)
    = Ok (wval w, (if long then [108] else []) ++ l :: m)).
  { assert (Q : exists x y, (if long then [108] else []) ++ l :: m = x :: y /\ is_digit x = false) by (destruct long; do 2 eexists; (split; [reflexivity|]); [reflexivity|exact Ll1]). destruct Q as (x & y & Eq & Hx). rewrite <- !app_assoc. cbn [app]. rewrite Eq.
    destruct w as [k|]; cbn [app cur bind wval]; [|rewrite Hx; reflexivity]. replace (is_digit (48 + k)) with true by (unfold is_digit; lia). cbn [number]. replace (is_digit (48 + k)) with true by (unfold is_digit; lia). rewrite Hx. cbn [bind]. do 2 f_equal. lia. }
  destruct (cur ((match w with Some k => [48 + k] | None => [] end ++ (if long then [108] else []) ++ [l]) ++ m)) as [| | |c]; cbn [bind] in P |- *; try discriminate.
  destruct (if is_digit c then number 0 _ else _) as [| | |w1]; cbn [bind] in P |- *; try discriminate. injection P as ->. cbn [snd fst].
  assert (G : longs (s_long st) ((if long then [108] else []) ++ l :: m) = Ok (s_long st || long, l :: m)) by (destruct long; cbn [app longs]; [change (108 =? 108) with true; cbv iota|]; rewrite Ll2; [rewrite orb_true_r|rewrite orb_false_r]; reflexivity).
  rewrite G. cbn [bind fst snd cur s_len s_in s_vals s_ov s_long]. rewrite Hl.
  assert (SI' : scan_int base (base =? 16) (wval w) (zlen (ws ++ (if neg then [45] else []) ++ cs) + zlen rest) ((ws ++ (if neg then [45] else []) ++ cs) ++ rest ++ 0 :: t) =
    Ok (Some (if neg then - value base ds else value base ds, false, rest ++ 0 :: t, zlen rest))) by (apply (scan_int_ok base l); try assumption; destruct rest; exact He || exact I).
  unfold reads_base in Hb. destruct Hb as [[-> Hb]|[[-> Hb]|[-> ->]]].
  - replace ((l =? 88) || (l =? 120)) with false by lia. replace ((l =? 100) || (l =? 105)) with true by lia. change (10 =? 16) with false in SI'. rewrite SI'. cbn [bind tl]. rewrite orb_false_r. change (10 =? 10) with true. unfold store_of. cbn [fst snd andb]. destruct (s_long st || long); reflexivity.
  - replace ((l =? 88) || (l =? 120)) with true by lia. change (16 =? 16) with true in SI'. rewrite SI'. cbn [bind tl]. rewrite orb_false_r. reflexivity.
  - change ((111 =? 88) || (111 =? 120)) with false. change ((111 =? 100) || (111 =? 105)) with false. change (111 =? 111) with true. change (8 =? 16) with false in SI'. cbv iota. rewrite SI'. cbn [bind tl]. rewrite orb_false_r. reflexivity.
Qed.
Lemma no_text_no_values : forall is lg, separated is -> concat (map item_text is) = [] -> values lg is = [].
Proof.
  induction is as [|i is IH]; intros lg S E; [reflexivity|]. cbn [separated] in S. destruct S as (Hi & _ & S). cbn [map concat] in E. apply app_eq_nil in E. destruct E as [E1 E2]. destruct i as [c|ws|base l w long ws neg cs ds]; cbn [values item_text] in *; [discriminate|apply IH; assumption|].
  destruct Hi as (_ & _ & _ & Hn & _). apply app_eq_nil in E1. destruct E1 as [_ E1]. apply app_eq_nil in E1. destruct E1 as [_ E1]. contradiction.
Qed.
Lemma scan_loop_ok t tm : forall is fuel st, (length is < fuel)%nat -> separated is -> zlen (concat (map item_text is)) < 2 ^ 64 -> s_in st = Some (concat (map item_text is) ++ 0 :: t) -> s_len st = zlen (concat (map item_text is)) ->
  exists st', scan_loop fuel (concat (map item_mask is) ++ 0 :: tm) st = Ok st' /\ s_vals st' = s_vals st ++ map store_of (values (s_long st) is) /\ s_ov st' = s_ov st.
Proof.
  induction is as [|i is IH]; intros fuel st Hf S L Hi Hl; (destruct fuel as [|fuel]; [cbn [length] in Hf; lia|]).
  - exists st. cbn [map concat app scan_loop values] in *. rewrite Hi. change (zlen (@nil Z)) with 0 in Hl. rewrite Hl. cbn [Z.eqb]. rewrite app_nil_r. repeat split.
  - cbn [scan_loop]. rewrite Hi. destruct (Z.eqb_spec (s_len st) 0) as [E|E].
    { exists st. split; [reflexivity|]. rewrite no_text_no_values; [cbn [map]; rewrite app_nil_r; split; reflexivity|exact S|]. rewrite Hl in E. destruct (concat (map item_text (i :: is))) as [|x l]; [reflexivity|]. rewrite zlen_cons in E. pose proof (zlen_nonneg l). lia. }
    cbn [separated] in S. destruct S as (Hok & He & S). cbn [map concat length] in *. rewrite zlen_app in *. rewrite <- !app_assoc. set (rest := concat (map item_text is)) in *. set (mr := concat (map item_mask is) ++ 0 :: tm) in *.
    pose proof (zlen_nonneg rest). pose proof (zlen_nonneg (item_text i)).
    destruct i as [c|ws|base l w long ws neg cs ds].
    + destruct Hok as (H1 & H2 & H3 & H4). cbn [item_mask item_text app cur bind tl values] in *. change (zlen [c]) with 1 in *. replace (c =? 0) with false by lia. replace (c =? 37) with false by lia. replace ((c =? 9) || (c =? 32)) with false by lia. rewrite Z.eqb_refl.
      destruct (IH fuel (Sst (Some (rest ++ 0 :: t)) (u64 (s_len st - 1)) (s_long st) (s_vals st) (s_ov st))) as (st' & E' & V' & O'); [lia|exact S|lia|reflexivity|cbn [s_len]; rewrite Hl; unfold u64; rewrite Z.mod_small; lia|]. exists st'. split; [exact E'|]. split; assumption.
    + cbn [item_mask item_text app cur bind tl values] in *. change (32 =? 0) with false. change (32 =? 37) with false. change ((32 =? 9) || (32 =? 32)) with true. cbv iota. rewrite Hl. rewrite skip_ok; [|exact Hok|destruct rest; [exact I|exact He]|lia]. cbn [bind fst snd].
      destruct (IH fuel (Sst (Some (rest ++ 0 :: t)) (zlen rest) (s_long st) (s_vals st) (s_ov st))) as (st' & E' & V' & O'); [lia|exact S|lia|reflexivity|reflexivity|]. exists st'. split; [exact E'|]. split; assumption.
    + set (it := SNum base l w long ws neg cs ds) in *. assert (M : item_mask it ++ mr = 37 :: tl (item_mask it) ++ mr) by reflexivity. rewrite M. cbn [cur bind]. change (37 =? 0) with false. change (37 =? 37) with true. cbv iota. cbn [tl]. unfold it in *. rewrite scan_dir_ok by assumption. cbn [bind fst snd].
      match goal with |- context [scan_loop fuel mr ?s] => destruct (IH fuel s) as (st' & E' & V' & O'); [lia|exact S|lia|reflexivity|reflexivity|] end. exists st'. split; [exact E'|]. cbn [s_vals s_long s_ov] in V', O'. split; [|exact O']. rewrite V'. cbn [values map]. rewrite <- app_assoc. reflexivity.
Qed.
Lemma mask_length is : (length is <= length (concat (map item_mask is)))%nat.
Proof. induction is as [|i is IH]; [cbn; lia|]. cbn [map concat length]. rewrite app_length. assert (1 <= length (item_mask i))%nat; [|lia]. destruct i; cbn [item_mask app length]; lia. Qed.
Lemma items_nonzero : forall is, separated is -> Forall (fun b => b <> 0) (concat (map item_text is)).
Proof.
  assert (Sp : forall ws, Forall space_char ws -> Forall (fun b => b <> 0) ws) by (intros ws; apply Forall_impl; unfold space_char; intros; lia).
  induction is as [|i is IH]; intros S; [constructor|]. cbn [separated] in S. destruct S as (Hi & _ & S). cbn [map concat]. apply Forall_app. split; [|apply IH; exact S]. destruct i as [c|ws|base l w long ws neg cs ds]; cbn [item_text].
  - destruct Hi as (H & _). constructor; [lia|constructor].
  - apply Sp. exact Hi.
  - destruct Hi as (Hb & Hws & D & _). apply Forall_app. split; [apply Sp; exact Hws|]. apply Forall_app. split; [destruct neg; repeat constructor; lia|]. pose proof (base_known _ _ Hb) as K. clear -D K. induction D as [|c d cs ds H _ IH]; constructor; [|exact IH]. destruct (digit_val_of base c d K H) as (_ & _ & _ & _ & H'). exact H'.
Qed.
Lemma stscanf_ok is t tm : separated is -> zlen (concat (map item_text is)) < 2 ^ 64 ->
  stscanf (concat (map item_text is) ++ 0 :: t) (concat (map item_mask is) ++ 0 :: tm) = Ok (map store_of (values false is), false).
Proof.
  intros S L. unfold stscanf. rewrite (tcslen_ok _ (concat (map item_text is))) by (exists t; split; [reflexivity|apply items_nonzero; exact S]). cbn [bind].
  match goal with |- context [scan_loop ?f _ ?s] => destruct (scan_loop_ok t tm is f s) as (st' & E & V & O); [pose proof (mask_length is); rewrite app_length; cbn [length]; lia|exact S|exact L|reflexivity|reflexivity|] end.
  rewrite E. cbn [bind]. rewrite V, O. reflexivity.
Qed.
