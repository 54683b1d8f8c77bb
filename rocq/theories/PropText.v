(** Properties of character conversion. *)
From Verif Require Import Base BaseProofs VintProofs Tree CodePages Text TextSpec TextProofs TextProofs2 TextProofs3.

(** A page of the library. *)
Definition library_page (p : codepage) : Prop := In p (map snd code_pages).
Lemma library_good p : library_page p -> good p.
Proof. intros H. apply in_map_iff in H. destruct H as ((n & q) & <- & H). pose proof library_pages as F. rewrite Forall_forall in F. exact (F _ H). Qed.

(** ** C39 *)

(** Text written as UTF-8 is its UTF-8 encoding. *)
Theorem C39_write : forall cps t len, Forall code_point cps -> zlen (concat (map utf8_of cps)) < len ->
  conv_sw Utf8 len (cps ++ 0 :: t) = Ok (concat (map utf8_of cps) ++ [0]).
Proof.
  intros cps t len H L. unfold conv_sw. pose proof (zlen_nonneg (concat (map utf8_of cps))). replace (0 <? len) with true by lia.
  rewrite conv_sw_ok by (eapply Forall_impl; [|exact H]; unfold code_point; intros; lia). rewrite map_u64 by exact H. rewrite (put_all_room _ utf8_of code_point) by (assumption || exact write_utf8_room). reflexivity.
Qed.
Print Assumptions C39_write.
(** UTF-8 is read as the text it encodes, cut to the room there is. *)
Theorem C39_read : forall cps t len, Forall code_point cps -> 1 <= len ->
  conv_ws Utf8 len (concat (map utf8_of cps) ++ 0 :: t) = Ok (firstn (Z.to_nat (len - 1)) cps ++ [0]).
Proof.
  intros cps t len H L. unfold conv_ws. replace (0 <? len) with true by lia. pose proof (reads_utf8 cps t H) as R.
  rewrite (conv_ws_ok Utf8 _ len _ cps L R).
  - rewrite map_s32; [reflexivity|]. eapply Forall_impl; [|exact H]. unfold code_point. intros; lia.
  - assert (length cps <= length (concat (map utf8_of cps)))%nat; [|rewrite app_length; lia]. clear -H. induction H as [|c cps Hc H IH]; cbn [map concat length]; [lia|].
    rewrite app_length. destruct (utf8_head c Hc) as (b & e & E & _). rewrite E. cbn [length]. lia.
Qed.
Print Assumptions C39_read.
(** Whatever the text, writing it and reading it gives it back. *)
Theorem C39_round_trip : forall cps len, Forall code_point cps -> zlen (concat (map utf8_of cps)) < len ->
  exists out, conv_sw Utf8 len (cps ++ [0]) = Ok out /\ conv_ws Utf8 (zlen cps + 1) out = Ok (cps ++ [0]).
Proof.
  intros cps len H L. exists (concat (map utf8_of cps) ++ [0]). split; [apply (C39_write cps []); assumption|]. rewrite (C39_read cps []) by (try assumption; pose proof (zlen_nonneg cps); lia).
  rewrite firstn_all2; [reflexivity|]. unfold zlen. lia.
Qed.
Print Assumptions C39_round_trip.
Example C39_ex : conv_sw Utf8 20 [65; 233; 8364; 128512; 0] = Ok [65; 195; 169; 226; 130; 172; 240; 159; 152; 128; 0] /\
  conv_ws Utf8 5 [65; 195; 169; 226; 130; 172; 240; 159; 152; 128; 0] = Ok [65; 233; 8364; 128512; 0] /\ Forall code_point [65; 233; 8364; 128512].
Proof. split; [vm_compute; reflexivity|]. split; [vm_compute; reflexivity|]. repeat constructor; unfold code_point; lia. Qed.

(** On any terminated strings and any room, every converter ends, reads no unit after the terminator, writes
    no more than the room it is given and terminates what it writes. *)
Theorem C39_safe : forall from to l u w t len, library_page from -> library_page to -> bytes_ok l -> c_string l -> Forall (fun x => 0 <= x < 65536) u -> c_string u -> Forall (fun x => x <> 0) w -> 1 <= len ->
  let fits r := exists o, r = Ok (o ++ [0]) /\ zlen (o ++ [0]) <= len in
  fits (conv_ss (Some (from, to)) len l) /\ fits (conv_ss None len l) /\ fits (conv_us from len l) /\ fits (conv_su to len u) /\ fits (conv_ws from len l) /\ fits (conv_sw to len (w ++ 0 :: t)).
Proof.
  intros from to l u w t len Hf Ht Hl Hsl Hu Hsu Hw Hlen fits. apply library_good in Hf, Ht.
  assert (R : forall a l, Forall is_byte (a :: l) -> c_string (a :: l) -> a <> 0 -> exists c r, read_cp from (a :: l) = Ok (c, r) /\ 0 <= c < 2 ^ 21 /\ tail_of (a :: l) r) by (intros; apply read_cp_safe; assumption).
  unfold conv_ss, conv_us, conv_su, conv_ws, conv_sw. replace (0 <? len) with true by lia. split; [apply (conv_loop_safe _ _ is_byte R); try assumption; apply write_cp_bounded; exact Ht|]. split.
  { destruct Hsl as (s & t' & -> & Hs). rewrite c_str_ok by exact Hs. cbn [bind]. eexists. split; [reflexivity|]. rewrite zlen_app. change (zlen [0]) with 1.
    unfold zlen at 1. rewrite firstn_length. lia. }
  split; [apply (conv_loop_safe _ _ is_byte R); try assumption; exact write_utf16_bounded|].
  split; [apply (conv_loop_safe _ _ _ read_utf16_safe); try assumption; apply write_cp_bounded; exact Ht|]. split.
  { destruct (reads_any _ is_byte R l Hl Hsl) as (cps & Hr & F & L). rewrite (conv_ws_ok from _ len l cps Hlen Hr) by lia. eexists. split; [reflexivity|]. rewrite zlen_app. change (zlen [0]) with 1.
    unfold zlen at 1. rewrite firstn_length. lia. }
  rewrite conv_sw_ok by exact Hw. destruct (put_all_bounded _ _ (write_cp_bounded to Ht) (map u64 w) len) as (o & E & Lo); [|exact Hlen|].
  - apply Forall_map. apply Forall_forall. intros x _. unfold u64. lia.
  - rewrite E. exists o. split; [reflexivity|]. rewrite zlen_app. change (zlen [0]) with 1. lia.
Qed.
Print Assumptions C39_safe.
Example C39_safe_ex : library_page (Simple codepage_1251 codepage_1251_r) /\ library_page Utf8 /\ c_string [240; 159; 0; 7] /\ conv_ws Utf8 10 [240; 159; 0; 7] = Ok [240; 159; 0] /\
  conv_ss (Some (Utf8, Simple codepage_1251 codepage_1251_r)) 3 [208; 150; 226; 130; 172; 65; 0] = Ok [198; 136; 0].
Proof.
  split; [cbn; tauto|]. split; [cbn; tauto|]. split; [exists [240; 159], [7]; split; [reflexivity|repeat constructor; discriminate]|]. split; vm_compute; reflexivity.
Qed.

(** Without enough room, the UTF-8 written is still that of whole characters of the text, in order. *)
Theorem C39_whole : forall cps t len, Forall code_point cps -> 1 <= len -> exists sub, subseq sub cps /\ conv_sw Utf8 len (cps ++ 0 :: t) = Ok (concat (map utf8_of sub) ++ [0]).
Proof.
  intros cps t len H L. unfold conv_sw. replace (0 <? len) with true by lia.
  rewrite conv_sw_ok by (eapply Forall_impl; [|exact H]; unfold code_point; intros; lia). rewrite map_u64 by exact H.
  destruct (put_all_whole (write_cp Utf8) utf8_of code_point write_utf8_enc cps len H) as (sub & S & E). exists sub. split; [exact S|]. rewrite E. reflexivity.
Qed.
Print Assumptions C39_whole.
(** But not of the beginning of the text: a character that does not fit is left out and the text goes on. *)
Theorem C39_prefix_refuted : exists cps, Forall code_point cps /\ conv_sw Utf8 3 (cps ++ [0]) = Ok [66; 0] /\ forall n, concat (map utf8_of (firstn n cps)) <> [66].
Proof.
  exists [8364; 66]. split; [repeat constructor; unfold code_point; lia|]. split; [vm_compute; reflexivity|]. intros n. destruct n as [|[|[|n]]]; vm_compute; discriminate.
Qed.
Print Assumptions C39_prefix_refuted.
(** An overlong zero is accepted: it ends the text in the middle. *)
Theorem C39_overlong_refuted : exists l, bytes_ok l /\ c_string l /\ conv_ws Utf8 10 l = Ok [65; 0; 66; 0] /\ conv_ss (Some (Utf8, Simple codepage_1252 codepage_1252_r)) 10 l = Ok [65; 0; 66; 0].
Proof.
  exists [65; 192; 128; 66; 0]. split; [repeat constructor; unfold is_byte; lia|]. split; [exists [65; 192; 128; 66], []; split; [reflexivity|repeat constructor; discriminate]|]. split; vm_compute; reflexivity.
Qed.
Print Assumptions C39_overlong_refuted.

(** ** C56: code pages *)

(** A string in a code page becomes the UTF-8 of the characters its page shows. *)
Theorem C56_to_utf8 : forall utf index s t len, library_page (Simple utf index) -> Forall (fun b => 0 < b < 256) s -> zlen (concat (map utf8_of (map (page_char utf) s))) < len ->
  conv_ss (Some (Simple utf index, Utf8)) len (s ++ 0 :: t) = Ok (concat (map utf8_of (map (page_char utf) s)) ++ [0]).
Proof.
  intros utf index s t len G Hs L. apply library_good in G. cbn [good] in G. unfold conv_ss. pose proof (zlen_nonneg (concat (map utf8_of (map (page_char utf) s)))). replace (0 <? len) with true by lia.
  rewrite (conv_loop_ok _ _ _ len _ (map (page_char utf) s)) by (try (rewrite map_length, app_length; lia); apply (reads_simple utf index); assumption).
  rewrite (put_all_room _ utf8_of code_point) by (try assumption; try exact write_utf8_room; apply (page_points utf index); assumption). reflexivity.
Qed.
Print Assumptions C56_to_utf8.
(** Back from UTF-8 every string is restored, in every page. *)
Theorem C56_from_utf8 : forall utf index s t len, library_page (Simple utf index) -> Forall (fun b => 0 < b < 256) s -> zlen s < len ->
  conv_ss (Some (Utf8, Simple utf index)) len (concat (map utf8_of (map (page_char utf) s)) ++ 0 :: t) = Ok (s ++ [0]).
Proof.
  intros utf index s t len G Hs L. apply library_good in G. cbn [good] in G. unfold conv_ss. pose proof (zlen_nonneg s). replace (0 <? len) with true by lia.
  pose proof (reads_utf8 (map (page_char utf) s) t (page_points utf index s G Hs)) as R. rewrite (conv_loop_ok _ _ _ len _ _ R).
  - assert (P : forall len, zlen s < len -> put_all (write_cp (Simple utf index)) len (map (page_char utf) s) = Ok s); [|rewrite P by exact L; reflexivity].
    clear -G Hs. induction Hs as [|b s Hb Hs IH]; intros len L; cbn [map put_all]; [reflexivity|]. rewrite zlen_cons in L. pose proof (zlen_nonneg s). cbn [write_cp].
    rewrite (write_simple_ok utf index G b len) by (unfold is_byte; lia). replace (1 <? len) with true by lia. cbn [bind fst snd]. rewrite IH by lia. reflexivity.
  - pose proof (page_points utf index s G Hs) as F. rewrite app_length. cbn [length]. clear -F. induction F as [|c cps Hc H IH]; cbn [map concat length]; [lia|].
    rewrite app_length. destruct (utf8_head c Hc) as (b & e & E & _). rewrite E. cbn [length]. lia.
Qed.
Print Assumptions C56_from_utf8.
Example C56_ex : library_page (Simple codepage_1253 codepage_1253_r) /\ conv_ss (Some (Simple codepage_1253 codepage_1253_r, Utf8)) 20 [65; 128; 225; 255; 0] = Ok [65; 226; 130; 172; 206; 177; 239; 163; 187; 0] /\
  conv_ss (Some (Utf8, Simple codepage_1253 codepage_1253_r)) 5 [65; 226; 130; 172; 206; 177; 239; 163; 187; 0] = Ok [65; 128; 225; 255; 0].
Proof. split; [cbn; tauto|]. split; vm_compute; reflexivity. Qed.
(** Text in a page: a character of the page becomes its byte, any other a question mark. *)
Definition shown (utf : list Z) (c b : Z) : Prop := (is_byte b /\ page_char utf b = c) \/ (b = 63 /\ forall x, is_byte x -> page_char utf x <> c).
Theorem C56_from_text : forall utf index cps t len, library_page (Simple utf index) -> Forall code_point cps -> zlen cps < len ->
  exists s, Forall2 (shown utf) cps s /\ conv_sw (Simple utf index) len (cps ++ 0 :: t) = Ok (s ++ [0]).
Proof.
  intros utf index cps t len G H L. apply library_good in G. cbn [good] in G. unfold conv_sw. pose proof (zlen_nonneg cps). replace (0 <? len) with true by lia.
  rewrite conv_sw_ok by (eapply Forall_impl; [|exact H]; unfold code_point; intros; lia). rewrite map_u64 by exact H.
  assert (P : forall len, zlen cps < len -> exists s, Forall2 (shown utf) cps s /\ put_all (write_cp (Simple utf index)) len cps = Ok s).
  { clear -G H. induction H as [|c cps Hc H IH]; intros len L; cbn [put_all]; [exists []; split; [constructor|reflexivity]|]. rewrite zlen_cons in L. pose proof (zlen_nonneg cps).
    destruct (IH (len - 1) ltac:(lia)) as (s & S & E). cbn [write_cp].
    assert (D : (exists b, is_byte b /\ page_char utf b = c) \/ forall b, is_byte b -> page_char utf b <> c).
    { destruct (existsb (fun b => page_char utf b =? c) all_bytes) eqn:X.
      - left. apply existsb_exists in X. destruct X as (b & Hb & X). exists b. split; [|lia]. unfold all_bytes in Hb. apply in_map_iff in Hb. destruct Hb as (n & <- & Hn). apply in_seq in Hn. unfold is_byte. lia.
      - right. intros b Hb E'. assert (Y : existsb (fun b => page_char utf b =? c) all_bytes = true); [|congruence]. apply existsb_exists. exists b. split; [|lia].
        unfold all_bytes. apply in_map_iff. exists (Z.to_nat b). unfold is_byte in Hb. split; [lia|]. apply in_seq. lia. }
    destruct D as [(b & Hb & <-)|D].
    - rewrite (write_simple_ok utf index G b len Hb). replace (1 <? len) with true by lia. cbn [bind fst snd]. rewrite E. exists (b :: s). split; [constructor; [left; auto|exact S]|reflexivity].
    - rewrite (write_simple_unknown utf index G c len) by (try assumption; unfold code_point in Hc; lia). replace (1 <? len) with true by lia. cbn [bind fst snd]. rewrite E. exists (63 :: s). split; [constructor; [right; auto|exact S]|reflexivity]. }
  destruct (P len L) as (s & S & E). exists s. rewrite E. split; [exact S|reflexivity].
Qed.
Print Assumptions C56_from_text.
Example C56_from_text_ex : conv_sw (Simple codepage_1252 codepage_1252_r) 10 [65; 8364; 945; 0] = Ok [65; 128; 63; 0].
Proof. vm_compute. reflexivity. Qed.

(** ** C57: UTF-16 *)

(** UTF-8 to UTF-16 and back, for every text of Unicode. *)
Lemma unicode_points cps : Forall unicode cps -> Forall code_point cps.
Proof. apply Forall_impl. unfold unicode, code_point. intros. lia. Qed.
Theorem C57_to_utf16 : forall cps t len, Forall unicode cps -> zlen (concat (map utf16_of cps)) < len ->
  conv_us Utf8 len (concat (map utf8_of cps) ++ 0 :: t) = Ok (concat (map utf16_of cps) ++ [0]).
Proof.
  intros cps t len H L. pose proof (unicode_points cps H) as Hp. unfold conv_us. pose proof (zlen_nonneg (concat (map utf16_of cps))). replace (0 <? len) with true by lia.
  rewrite (conv_loop_ok _ _ _ len _ cps (reads_utf8 cps t Hp)).
  - rewrite (put_all_room _ utf16_of unicode) by (try assumption; intros c n Hc Hn; rewrite write_utf16_ok by assumption; reflexivity). reflexivity.
  - rewrite app_length. cbn [length]. clear -Hp. induction Hp as [|c cps Hc H IH]; cbn [map concat length]; [lia|]. rewrite app_length. destruct (utf8_head c Hc) as (b & e & E & _). rewrite E. cbn [length]. lia.
Qed.
Print Assumptions C57_to_utf16.
Theorem C57_from_utf16 : forall cps t len, Forall unicode cps -> zlen (concat (map utf8_of cps)) < len ->
  conv_su Utf8 len (concat (map utf16_of cps) ++ 0 :: t) = Ok (concat (map utf8_of cps) ++ [0]).
Proof.
  intros cps t len H L. pose proof (unicode_points cps H) as Hp. unfold conv_su. pose proof (zlen_nonneg (concat (map utf8_of cps))). replace (0 <? len) with true by lia.
  rewrite (conv_loop_ok _ _ _ len _ cps (reads_utf16 cps t H)).
  - rewrite (put_all_room _ utf8_of code_point) by (assumption || exact write_utf8_room). reflexivity.
  - rewrite app_length. cbn [length]. clear -H. induction H as [|c cps Hc H IH]; cbn [map concat length]; [lia|]. rewrite app_length. destruct (utf16_units c Hc) as [_ U].
    destruct (utf16_of c); [change (zlen (@nil Z)) with 0 in U; lia|]. cbn [length]. lia.
Qed.
Print Assumptions C57_from_utf16.
Example C57_ex : conv_us Utf8 10 [65; 226; 130; 172; 240; 159; 152; 128; 0] = Ok [65; 8364; 55357; 56832; 0] /\ conv_su Utf8 10 [65; 8364; 55357; 56832; 0] = Ok [65; 226; 130; 172; 240; 159; 152; 128; 0] /\ Forall unicode [65; 8364; 128512].
Proof. split; [vm_compute; reflexivity|]. split; [vm_compute; reflexivity|]. repeat constructor; unfold unicode; lia. Qed.
(** With room for one unit, half of a pair would not fit: the code point is stored modulo 65536, as another
    character. *)
Theorem C57_cut_refuted : exists c u, unicode c /\ conv_us Utf8 2 (utf8_of c ++ [0]) = Ok [u; 0] /\ unicode u /\ u <> c.
Proof. exists 128512, 62976. split; [unfold unicode; lia|]. split; [vm_compute; reflexivity|]. split; [unfold unicode; lia|lia]. Qed.
Print Assumptions C57_cut_refuted.
