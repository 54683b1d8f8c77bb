(** What the LZO decoder accepts is in the format; whole streams. *)
From Verif Require Import Base BaseProofs VintProofs Tree Lzo LzoSpec LzoProofs LzoProofs2.

Lemma bytes_app l l' : bytes_ok (l ++ l') -> bytes_ok l /\ bytes_ok l'.
Proof. apply Forall_app. Qed.
Definition accounts (tail : list Z) (cap : Z) (rest out : list Z) (st : Z) (r : res outcome) : Prop :=
  (r = Bad /\ ~ stops tail) \/
  (exists code, r = Ok (Stop code out) /\ fails code) \/
  (exists s rest', rest = [17; s; 0] ++ rest' /\ 0 <= s <= 3 /\ r = Ok (Stop (match rest' with [] => L_SUCCESS | _ => L_NOT_CONSUMED end) out)) \/
  (exists code rest' out' st', rest = code ++ rest' /\ instr st out code st' out' /\ zlen out' <= cap /\ 0 <= st' <= 4 /\ r = Ok (Go rest' out' st')).
Lemma acc_fail tail cap rest out st code : fails code -> accounts tail cap rest out st (Ok (Stop code out)).
Proof. intros H. right. left. exists code. auto. Qed.

(** A block copy whose instruction is in the format. *)
Lemma acc_match tail cap pre rest out st len dist n : 1 <= dist -> 0 <= len -> 0 <= n <= 3 ->
  (forall ls out', zlen ls = n -> copied out len dist ls out' -> instr st out (pre ++ ls) (zlen ls) out') ->
  accounts tail cap (pre ++ rest) out st (copy_match cap rest out len (zlen out - dist) n).
Proof.
  intros Hd Hl Hn HI. destruct (copy_match_inv cap rest out len dist n) as [(code & -> & F)|(ls & rest' & out' & -> & L & Hc & C & ->)]; try lia.
  - apply acc_fail, F.
  - right. right. right. exists (pre ++ ls), rest', out', n. rewrite <- app_assoc. split; [reflexivity|]. split; [rewrite <- L; apply HI; assumption|]. split; [exact Hc|]. split; [lia|reflexivity].
Qed.
Lemma acc_tail3 tail cap code rest out st len : bytes_ok rest -> coded_length 32 3 33 len code -> 0 <= len ->
  accounts tail cap (code ++ rest) out st (tail3 cap out len rest).
Proof.
  intros Hb Hc Hl. destruct rest as [|a [|b rest]]; [apply acc_fail; split; discriminate..|]. cbn [tail3].
  unfold bytes_ok in Hb. apply Forall_cons_iff in Hb. destruct Hb as [Ha Hb]. apply Forall_cons_iff in Hb. destruct Hb as [Hb _]. unfold is_byte in *.
  change (code ++ a :: b :: rest) with (code ++ [a; b] ++ rest). rewrite app_assoc. apply acc_match; try lia. intros ls out' L C. rewrite <- app_assoc.
  replace [a; b] with [(((a + b * 256) / 4 + 1 - 1) mod 64) * 4 + zlen ls; ((a + b * 256) / 4 + 1 - 1) / 64] by (f_equal; [|f_equal]; lia).
  apply m3 with (len := len); try assumption; lia.
Qed.
Lemma acc_tail4 tail cap code rest out st h len : bytes_ok rest -> 0 <= h <= 1 -> coded_length (16 + 8 * h) 3 9 len code -> 0 <= len ->
  accounts tail cap (code ++ rest) out st (tail4 cap out h len rest).
Proof.
  intros Hb Hh Hc Hl. destruct rest as [|a [|b rest]]; [apply acc_fail; split; discriminate..|]. cbn [tail4].
  unfold bytes_ok in Hb. apply Forall_cons_iff in Hb. destruct Hb as [Ha Hb]. apply Forall_cons_iff in Hb. destruct Hb as [Hb _]. unfold is_byte in *.
  destruct (Z.eqb_spec (h * 16384 + (a + b * 256) / 4) 0) as [E|Hn].
  - unfold finish. destruct (Z.eqb_spec len 3) as [->|Hn]; [|apply acc_fail; split; discriminate].
    destruct Hc as [[_ ->]|(ext & (z & c & Hz & Hc & Hx & _) & _)]; [|lia]. right. right. left. exists a, rest. assert (h = 0) as -> by lia. assert (b = 0) as -> by lia.
    split; [reflexivity|]. split; [lia|]. reflexivity.
  - change (code ++ a :: b :: rest) with (code ++ [a; b] ++ rest). rewrite app_assoc. apply acc_match; try lia. intros ls out' L C. rewrite <- app_assoc.
    set (d := h * 16384 + (a + b * 256) / 4 + 16384) in *. assert (Hd : d mod 16384 = (a + b * 256) / 4) by (subst d; lia).
    replace [a; b] with [(d mod 64) * 4 + zlen ls; d mod 16384 / 64] by (rewrite Hd; f_equal; [subst d|f_equal]; lia).
    apply m4 with (len := len); try assumption; try lia. replace ((d - 16384) / 16384) with h by (subst d; lia). exact Hc.
Qed.
Lemma acc_lits tail cap code rest out n : 0 <= n -> coded_length 0 4 18 n code ->
  accounts tail cap (code ++ rest) out 0 (copy_lits cap rest out n 4).
Proof.
  intros Hn Hc. destruct (copy_lits_inv cap rest out n 4 Hn) as [(c & -> & F)|(ls & rest' & -> & L & H & ->)]; [apply acc_fail, F|].
  right. right. right. exists (code ++ ls), rest', (out ++ ls), 4. rewrite <- app_assoc. split; [reflexivity|]. split; [|split; [exact H|split; [lia|reflexivity]]].
  apply m1_lits. rewrite L. exact Hc.
Qed.
Lemma acc_extend tail cap base rest out st top k : bytes_ok rest ->
  (forall x ext rest', rest = ext ++ rest' -> bytes_ok rest' -> long_length top (top + x) ext -> 0 <= x -> accounts tail cap ((base :: ext) ++ rest') out st (k x rest')) ->
  accounts tail cap (base :: rest) out st (extend tail rest out k).
Proof.
  intros Hb H. destruct (extend_inv tail rest out k Hb) as [[-> Hs]|[(code & -> & F)|(z & b & rest' & -> & Hz & Hbb & ->)]].
  - left. auto.
  - apply acc_fail, F.
  - replace (base :: repeat 0 (Z.to_nat z) ++ b :: rest') with ((base :: repeat 0 (Z.to_nat z) ++ [b]) ++ rest') by (cbn [app]; rewrite <- app_assoc; reflexivity).
    apply H; [rewrite <- app_assoc; reflexivity| |exists z, b; repeat split; lia|lia].
    apply bytes_app in Hb. destruct Hb as [_ Hb]. apply Forall_cons_iff in Hb. apply Hb.
Qed.
Lemma step_inv tail cap rest out st : bytes_ok rest -> 0 <= st <= 4 -> accounts tail cap rest out st (step tail cap rest out st).
Proof.
  intros Hb Hst. destruct rest as [|inst rest]; [apply acc_fail; split; discriminate|]. apply Forall_cons_iff in Hb. destruct Hb as [Hi Hb]. pose proof Hi as Hi'. unfold is_byte in Hi'.
  destruct (Z.lt_ge_cases inst 16) as [H1|H1]; [|destruct (Z.lt_ge_cases inst 32) as [H2|H2]; [|destruct (Z.lt_ge_cases inst 64) as [H3|H3]]].
  - destruct (Z.eq_dec st 0) as [->|Hs].
    + rewrite step_lits by (try exact Hi; lia). destruct (Z.eqb_spec inst 0) as [->|Hn].
      * apply acc_extend with (top := 18); [exact Hb|]. intros x ext rest' _ _ L Hx. apply acc_lits; [lia|]. right. exists ext. auto.
      * change (inst :: rest) with ([inst] ++ rest). apply acc_lits; [lia|]. left. split; [lia|]. f_equal. lia.
    + rewrite step_m1 by (try exact Hi; lia). destruct rest as [|h rest]; [apply acc_fail; split; discriminate|]. apply Forall_cons_iff in Hb. destruct Hb as [Hh _]. unfold is_byte in Hh.
      change (inst :: h :: rest) with ([inst; h] ++ rest). destruct (Z.eqb_spec st 4) as [->|H4].
      * apply acc_match; try lia. intros ls out' L C. set (d := inst / 4 + h * 4 + 2049) in *.
        replace [inst; h] with [(d - 2049) mod 4 * 4 + zlen ls; (d - 2049) / 4] by (subst d; f_equal; [|f_equal]; lia). apply m1_far; try assumption; subst d; lia.
      * apply acc_match; try lia. intros ls out' L C. set (d := inst / 4 + h * 4 + 1) in *.
        replace [inst; h] with [(d - 1) mod 4 * 4 + zlen ls; (d - 1) / 4] by (subst d; f_equal; [|f_equal]; lia). apply m1_near; try assumption; subst d; lia.
  - rewrite step_m4 by (try exact Hi; lia). destruct (Z.eqb_spec (inst mod 8) 0) as [E|Hn].
    + apply acc_extend with (top := 9); [exact Hb|]. intros x ext rest' _ Hr L Hx. apply acc_tail4; [exact Hr|lia| |lia]. right. exists ext. split; [exact L|]. f_equal. lia.
    + change (inst :: rest) with ([inst] ++ rest). apply acc_tail4; [exact Hb|lia| |lia]. left. split; [lia|]. f_equal. lia.
  - rewrite step_m3 by (try exact Hi; lia). destruct (Z.eqb_spec inst 32) as [->|Hn].
    + apply acc_extend with (top := 33); [exact Hb|]. intros x ext rest' _ Hr L Hx. apply acc_tail3; [exact Hr| |lia]. right. exists ext. auto.
    + change (inst :: rest) with ([inst] ++ rest). apply acc_tail3; [exact Hb| |lia]. left. split; [lia|]. f_equal. lia.
  - rewrite step_m2 by (try exact Hi; lia). destruct rest as [|h rest]; [apply acc_fail; split; discriminate|]. apply Forall_cons_iff in Hb. destruct Hb as [Hh _]. unfold is_byte in Hh.
    change (inst :: h :: rest) with ([inst; h] ++ rest). apply acc_match; try lia. intros ls out' L C. set (d := h * 8 + inst / 4 mod 8 + 1) in *.
    replace [inst; h] with [(inst / 32 + 1 - 1) * 32 + (d - 1) mod 8 * 4 + zlen ls; (d - 1) / 8] by (subst d; f_equal; [|f_equal]; lia).
    apply m2 with (len := inst / 32 + 1); try assumption; subst d; lia.
Qed.

(** ** Streams *)
Lemma instr_grows st out code st' out' : instr st out code st' out' -> exists w, out' = out ++ w.
Proof.
  intros []; try (match goal with H : copied _ _ _ _ _ |- _ => destruct H as (_ & w & -> & _) end; eexists; reflexivity). eexists. reflexivity.
Qed.
Lemma instr_bytes st out code st' out' : instr st out code st' out' -> (1 <= length code)%nat.
Proof.
  intros []; rewrite ?app_length; cbn [length]; try lia.
  destruct H as [[_ ->]|(e & _ & ->)]; cbn [length]; lia.
Qed.
Lemma instr_state st out code st' out' : instr st out code st' out' -> 0 <= st' <= 4.
Proof. intros []; try (pose proof (zlen_nonneg ls)); lia. Qed.
Lemma runs_grows st out rest fin : runs st out rest fin -> exists w, fin = out ++ w.
Proof.
  induction 1 as [st out s Hs|st out code st' out' rest fin I R [w ->]]; [exists []; rewrite app_nil_r; reflexivity|].
  destruct (instr_grows _ _ _ _ _ I) as [v ->]. exists (v ++ w). rewrite app_assoc. reflexivity.
Qed.
Definition verdict (extra : list Z) : Z := match extra with [] => L_SUCCESS | _ => L_NOT_CONSUMED end.
Lemma loop_runs tail cap extra st out rest fin : runs st out rest fin -> forall fuel, bytes_ok rest -> zlen rest <= MAX255 -> (length rest <= fuel)%nat -> zlen out <= cap ->
  (zlen fin <= cap -> lzo_loop tail cap fuel (Go (rest ++ extra) out st) = Ok (verdict extra, fin)) /\
  (cap < zlen fin -> exists p w, lzo_loop tail cap fuel (Go (rest ++ extra) out st) = Ok (L_OUT, p) /\ fin = p ++ w /\ zlen p <= cap).
Proof.
  induction 1 as [st out s Hs|st out code st' out' rest fin I R IH]; intros fuel Hb Hz Hf Hc.
  - destruct fuel as [|fuel]; [cbn in Hf; lia|]. cbn [lzo_loop]. rewrite end_step by exact Hs. cbn [bind lzo_loop].
    split; [intros _; destruct fuel; reflexivity|lia].
  - pose proof (instr_bytes _ _ _ _ _ I) as H1. rewrite app_length in Hf. destruct fuel as [|fuel]; [lia|]. apply bytes_app in Hb. destruct Hb as [Hb1 Hb2]. rewrite zlen_app in Hz.
    pose proof (zlen_nonneg rest). pose proof (zlen_nonneg code). destruct (instr_step tail cap (rest ++ extra) out st code st' out' I Hb1) as [D1 D2]; [lia|].
    destruct (runs_grows _ _ _ _ R) as [w ->]. rewrite zlen_app in *. pose proof (zlen_nonneg w). cbn [lzo_loop]. rewrite <- app_assoc.
    destruct (Z.lt_ge_cases cap (zlen out')) as [Hlt|Hle].
    + split; [lia|]. intros _. rewrite D2 by exact Hlt. cbn [bind]. destruct (instr_grows _ _ _ _ _ I) as [v ->]. exists out, (v ++ w). split; [destruct fuel; reflexivity|]. split; [rewrite app_assoc; reflexivity|exact Hc].
    + rewrite D1 by lia. cbn [bind]. apply IH; try assumption; lia.
Qed.

Lemma loop_inv tail cap fuel : forall rest out st, bytes_ok rest -> 0 <= st <= 4 -> zlen out <= cap -> (length rest < fuel)%nat ->
  (lzo_loop tail cap fuel (Go rest out st) = Bad /\ ~ stops tail) \/
  exists code fin, lzo_loop tail cap fuel (Go rest out st) = Ok (code, fin) /\ zlen fin <= cap /\
    (fails code \/ exists used extra, rest = used ++ extra /\ code = verdict extra /\ runs st out used fin).
Proof.
  induction fuel as [|fuel IH]; intros rest out st Hb Hs Hc Hf; [lia|]. cbn [lzo_loop].
  destruct (step_inv tail cap rest out st Hb Hs) as [[-> Ht]|[(code & -> & F)|[(s & rest' & -> & Hs' & ->)|(code & rest' & out' & st' & -> & I & Hc' & Hs' & ->)]]]; cbn [bind].
  - left. auto.
  - right. exists code, out. split; [destruct fuel; reflexivity|]. auto.
  - right. exists (verdict rest'), out. split; [destruct fuel; reflexivity|]. split; [exact Hc|]. right. exists [17; s; 0], rest'. split; [reflexivity|]. split; [reflexivity|]. apply r_end, Hs'.
  - pose proof (instr_bytes _ _ _ _ _ I). rewrite app_length in Hf. apply bytes_app in Hb. destruct Hb as [_ Hb].
    destruct (IH rest' out' st' Hb Hs' Hc') as [[E Ht]|(c & fin & E & Hfin & D)]; [lia|left; auto|]. right. exists c, fin. split; [exact E|]. split; [exact Hfin|].
    destruct D as [F|(used & extra & -> & -> & R)]; [left; exact F|]. right. exists (code ++ used), extra. rewrite <- app_assoc. split; [reflexivity|]. split; [reflexivity|]. eapply r_step; eassumption.
Qed.

(** ** lzokay_decompress *)
Lemma runs_len st out rest fin : runs st out rest fin -> (3 <= length rest)%nat.
Proof. induction 1; [cbn; lia|]. rewrite app_length. lia. Qed.
(** With nothing written yet only literals or the end can come. *)
Lemma runs_first src fin : runs 0 [] src fin -> exists b rest, src = b :: rest /\ b < 18.
Proof.
  intros R. inversion R as [st out s Hs|st out code st' out' rest fin' I R']; subst; [eexists _, _; split; [reflexivity|lia]|].
  assert (H0 : forall len dist ls o, ~ copied [] len dist ls o) by (intros ? ? ? ? (Hd & _); change (zlen (@nil Z)) with 0 in Hd; lia).
  inversion I; subst; try (exfalso; eapply H0; eassumption); try lia.
  match goal with H : coded_length _ _ _ _ _ |- _ => destruct H as [[Hl ->]|(e & _ & ->)] end; eexists _, _; (split; [reflexivity|lia]).
Qed.
Lemma lzo_ok tail src extra fin cap : lzo_stream src fin -> bytes_ok src -> zlen src <= MAX255 -> 0 <= cap ->
  (zlen fin <= cap -> lzo tail (src ++ extra) cap = Ok (verdict extra, fin)) /\
  (cap < zlen fin -> exists p w, lzo tail (src ++ extra) cap = Ok (L_OUT, p) /\ fin = p ++ w /\ zlen p <= cap).
Proof.
  intros S Hb Hz Hc. unfold lzo. destruct S as [src fin R|ls rest fin Hl R].
  - pose proof (runs_len _ _ _ _ R) as H3. rewrite (proj2 (Z.ltb_ge _ _)) by (rewrite zlen_app; pose proof (zlen_nonneg extra); unfold zlen in *; lia).
    destruct (runs_first _ _ R) as (b & rest & E & Hb18).
    assert (first_byte cap (src ++ extra) = Ok (Go (src ++ extra) [] 0)) as ->.
    { rewrite E. cbn [app first_byte]. rewrite (proj2 (Z.leb_gt _ _)), (proj2 (Z.leb_gt _ _)) by lia. reflexivity. }
    cbn [bind]. apply loop_runs; try assumption. rewrite app_length. lia.
  - pose proof (runs_len _ _ _ _ R) as H3. rewrite (proj2 (Z.ltb_ge _ _)) by (cbn [app]; rewrite zlen_cons, !zlen_app; pose proof (zlen_nonneg extra); pose proof (zlen_nonneg ls); unfold zlen in *; lia).
    assert (F : first_byte cap (((zlen ls + 17) :: ls ++ rest) ++ extra) = copy_lits cap (ls ++ rest ++ extra) [] (zlen ls) (Z.min (zlen ls) 4)).
    { cbn [app first_byte]. rewrite <- app_assoc. replace (zlen ls + 17 - 17) with (zlen ls) by lia. destruct (Z.leb_spec 22 (zlen ls + 17)); [rewrite Z.min_r by lia; reflexivity|].
      rewrite (proj2 (Z.leb_le _ _)) by lia. rewrite Z.min_l by lia. reflexivity. }
    rewrite F. destruct (runs_grows _ _ _ _ R) as [w ->]. rewrite zlen_app. pose proof (zlen_nonneg w). apply Forall_cons_iff in Hb. destruct Hb as [_ Hb]. apply bytes_app in Hb. destruct Hb as [_ Hb].
    rewrite zlen_cons, zlen_app in Hz. destruct (Z.lt_ge_cases cap (zlen ls)) as [H0|H0].
    + rewrite copy_lits_over by (cbn [app]; exact H0). cbn [bind]. split; [lia|]. intros _. exists [], (ls ++ w). split; [reflexivity|]. split; [reflexivity|]. change (zlen (@nil Z)) with 0. lia.
    + rewrite copy_lits_ok by (cbn [app]; lia). cbn [bind app]. rewrite <- zlen_app. apply loop_runs; try assumption; try lia. cbn [length]. rewrite !app_length. lia.
Qed.
Lemma lzo_inv tail src cap : bytes_ok src -> 0 <= cap ->
  (lzo tail src cap = Bad /\ ~ stops tail) \/
  exists code fin, lzo tail src cap = Ok (code, fin) /\ zlen fin <= cap /\
    (fails code \/ exists used extra, src = used ++ extra /\ code = verdict extra /\ lzo_stream used fin).
Proof.
  intros Hb Hc. unfold lzo. destruct (Z.ltb_spec (zlen src) 3) as [H|H].
  { right. exists L_IN, []. split; [reflexivity|]. split; [exact Hc|]. left. split; discriminate. }
  destruct src as [|b rest]; [change (zlen (@nil Z)) with 0 in H; lia|]. pose proof Hb as Hb'. apply Forall_cons_iff in Hb. destruct Hb as [Hb Hr]. unfold is_byte in Hb.
  assert (L : forall n st, 1 <= n <= 238 -> b = n + 17 -> st = Z.min n 4 -> 
    (bind (copy_lits cap rest [] n st) (fun o => lzo_loop tail cap (S (length (b :: rest))) o) = Bad /\ ~ stops tail) \/
    exists code fin, bind (copy_lits cap rest [] n st) (fun o => lzo_loop tail cap (S (length (b :: rest))) o) = Ok (code, fin) /\ zlen fin <= cap /\
    (fails code \/ exists used extra, b :: rest = used ++ extra /\ code = verdict extra /\ lzo_stream used fin)).
  { intros n st Hn -> ->. destruct (copy_lits_inv cap rest [] n (Z.min n 4)) as [(code & -> & F)|(ls & rest' & -> & Ln & Hl & ->)]; [lia| |]; cbn [bind].
    - right. exists code, []. split; [reflexivity|]. split; [exact Hc|]. auto.
    - cbn [app] in *. apply bytes_app in Hr. destruct Hr as [_ Hr]. 
      destruct (loop_inv tail cap (S (length (n + 17 :: ls ++ rest'))) rest' ls (Z.min n 4) Hr) as [D|(code & fin & E & Hf & D)]; [lia|exact Hl|cbn [length]; rewrite app_length; lia|left; exact D|].
      right. exists code, fin. split; [exact E|]. split; [exact Hf|]. destruct D as [F|(used & extra & -> & -> & R)]; [left; exact F|]. right. exists (n + 17 :: ls ++ used), extra.
      cbn [app]. rewrite <- app_assoc. split; [reflexivity|]. split; [reflexivity|]. subst n. apply s_lits; [lia|exact R]. }
  cbn [first_byte]. destruct (Z.leb_spec 22 b); [apply L; lia|]. destruct (Z.leb_spec 18 b); [apply L; lia|]. cbn [bind].
  destruct (loop_inv tail cap (S (length (b :: rest))) (b :: rest) [] 0 Hb') as [D|(code & fin & E & Hf & D)]; [lia|exact Hc|lia|left; exact D|].
  right. exists code, fin. split; [exact E|]. split; [exact Hf|]. destruct D as [F|(used & extra & E' & -> & R)]; [left; exact F|]. right. exists used, extra. split; [exact E'|]. split; [reflexivity|]. apply s_plain, R.
Qed.
