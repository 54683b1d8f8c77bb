(** Proofs about Zlib.v. *)
From Verif Require Import Base BaseProofs FinderSpec Arr ArrProofs2 Void Vint VintSpec VintProofs StreamProofs Stream Ebml Tree TreeRead TreeProofs2 TreeProofs3.
From Verif Require Import Block BlockSpec BlockProofs BlockProofs2 BlockProofs3 Frame BlockProofs4 BlockProofs5 BlockProofs6 Zlib ZlibSpec.

Section ZP.
Context (z : zlib) (junk : Z).

Lemma resize_len l n : 0 <= n -> zlen (resize junk l n) = n.
Proof. intros H. unfold resize, zlen. rewrite app_length, firstn_length, repeat_length. unfold zlen in *. lia. Qed.
Lemma resize_keep l n k : 0 <= k <= n -> k <= zlen l -> firstn (Z.to_nat k) (resize junk l n) = firstn (Z.to_nat k) l.
Proof.
  intros H L. unfold resize. rewrite firstn_app, firstn_firstn. replace (Nat.min (Z.to_nat k) (Z.to_nat n)) with (Z.to_nat k) by lia.
  replace (Z.to_nat k - length (firstn (Z.to_nat n) l))%nat with 0%nat by (rewrite firstn_length; unfold zlen in L; lia). rewrite app_nil_r. reflexivity.
Qed.
Lemma patch_at (l bs : list Z) p : 0 <= p <= zlen l -> firstn (Z.to_nat (p + zlen bs)) (patch l p bs) = firstn (Z.to_nat p) l ++ bs.
Proof.
  intros H. unfold patch. rewrite app_assoc, firstn_app. pose proof (zlen_nonneg bs).
  assert (L : length (firstn (Z.to_nat p) l ++ bs) = Z.to_nat (p + zlen bs)) by (rewrite app_length, firstn_length; unfold zlen in *; lia).
  rewrite firstn_all2 by lia. rewrite L, Nat.sub_diag. cbn [firstn]. rewrite app_nil_r. reflexivity.
Qed.
Lemma patch_len' (l bs : list Z) p : 0 <= p -> p + zlen bs <= zlen l -> zlen (patch l p bs) = zlen l.
Proof. intros H L. pose proof (zlen_nonneg bs). unfold patch, zlen in *. rewrite !app_length, firstn_length, skipn_length. lia. Qed.
Lemma firstn_less {A} (l : list A) a b x : firstn b l = x -> (a <= b)%nat -> firstn a l = firstn a x.
Proof. intros <- H. rewrite firstn_firstn. f_equal. lia. Qed.

(** Decompressing a whole stream. *)
Lemma inflate_whole R : inflating z R -> forall fuel st d buf count total, R st d -> 0 <= count <= zlen buf -> zlen d / 1024 + 1 < Z.of_nat fuel ->
  exists buf', inflate_loop z junk fuel st buf count total = Ok (ZEnd, buf', total + zlen d) /\ firstn (Z.to_nat (count + zlen d)) buf' = firstn (Z.to_nat count) buf ++ d /\ count + zlen d <= zlen buf'.
Proof.
  intros HR. induction fuel as [|fuel IH]; intros st d buf count total H Hc Hf; [pose proof (zlen_nonneg d); lia|]. pose proof (zlen_nonneg d) as Hd.
  cbn [inflate_loop]. cbv zeta. specialize (HR st d 1024 H ltac:(lia)). destruct (z_icall z st 1024) as [[r o] st']. assert (LB : zlen (resize junk buf (count + 1024)) = count + 1024) by (apply resize_len; lia).
  destruct HR as [(L & -> & ->)|(L & -> & -> & Li & HR)].
  - replace (1024 <? zlen d) with false by lia. eexists. split; [reflexivity|]. rewrite patch_at by lia. rewrite resize_keep by lia. split; [reflexivity|]. rewrite patch_len' by lia. lia.
  - assert (Lo : zlen (firstn (Z.to_nat 1024) d) = 1024) by (unfold zlen in *; rewrite firstn_length; lia). set (o := firstn (Z.to_nat 1024) d) in *. rewrite Lo. change (1024 <? 1024) with false. cbv iota.
    replace (0 <? z_ileft z st') with true by lia. change (1024 =? 1024) with true. cbn [andb].
    assert (Ls : zlen (skipn (Z.to_nat 1024) d) = zlen d - 1024) by (unfold zlen in *; rewrite skipn_length; lia).
    assert (LP : zlen (patch (resize junk buf (count + 1024)) count o) = count + 1024) by (rewrite patch_len' by lia; lia).
    destruct (IH st' (skipn (Z.to_nat 1024) d) (patch (resize junk buf (count + 1024)) count o) (count + 1024) (total + 1024) HR) as (buf' & E & F & G); [lia|rewrite Ls; replace (zlen d - 1024) with (zlen d + (-1) * 1024) by lia; rewrite Z.div_add by lia; lia|].
    exists buf'. split; [rewrite E, Ls; replace (total + 1024 + (zlen d - 1024)) with (total + zlen d) by lia; reflexivity|]. rewrite Ls in F, G. replace (count + 1024 + (zlen d - 1024)) with (count + zlen d) in F, G by lia. split; [|lia].
    pose proof (patch_at (resize junk buf (count + 1024)) o count ltac:(lia)) as PA. rewrite Lo in PA. rewrite F, PA. rewrite resize_keep by lia. rewrite <- app_assoc. f_equal. apply firstn_skipn.
Qed.
Lemma uncompress_ok fuel c d buf off : inflates z c d -> 0 <= off <= zlen buf -> zlen d / 1024 + 1 < Z.of_nat fuel ->
  exists buf', uncompress_frame z junk fuel c buf off = Ok (ERR_NONE, buf', zlen d, off + zlen d) /\ firstn (Z.to_nat (off + zlen d)) buf' = firstn (Z.to_nat off) buf ++ d /\ off + zlen d <= zlen buf'.
Proof.
  intros (R & st & HR & E & H) Ho Hf. destruct (inflate_whole R HR fuel st d buf off 0 H Ho Hf) as (buf' & E' & F). exists buf'. split; [|exact F]. unfold uncompress_frame. rewrite E, E'. reflexivity.
Qed.
(** Decompressing a cut or damaged one. *)
Lemma inflate_failing R : failing z R -> forall fuel st m buf count total, R st m -> m / 1024 + 1 < Z.of_nat fuel -> 0 <= count <= zlen buf ->
  exists r buf' n, inflate_loop z junk fuel st buf count total = Ok (r, buf', n) /\ r <> ZEnd /\ total <= n <= total + m /\ firstn (Z.to_nat count) buf' = firstn (Z.to_nat count) buf.
Proof.
  intros HR. induction fuel as [|fuel IH]; intros st m buf count total H Hf Hc.
  - specialize (HR st m 1024 H ltac:(lia)). destruct (z_icall z st 1024) as [[r o] st']. destruct HR as (_ & _ & L & _). pose proof (zlen_nonneg o). lia.
  - cbn [inflate_loop]. cbv zeta. specialize (HR st m 1024 H ltac:(lia)). destruct (z_icall z st 1024) as [[r o] st']. destruct HR as (NE & L1 & L2 & HR). pose proof (zlen_nonneg o).
    replace (1024 <? zlen o) with false by lia. assert (LB : zlen (resize junk buf (count + 1024)) = count + 1024) by (apply resize_len; lia).
    assert (K : firstn (Z.to_nat count) (patch (resize junk buf (count + 1024)) count o) = firstn (Z.to_nat count) buf).
    { pose proof (patch_at (resize junk buf (count + 1024)) o count ltac:(lia)) as PA. rewrite (firstn_less _ (Z.to_nat count) (Z.to_nat (count + zlen o)) _ PA ltac:(lia)). rewrite firstn_app, firstn_firstn, Nat.min_id, firstn_length. replace (Z.to_nat count - Nat.min (Z.to_nat count) (length (resize junk buf (count + 1024))))%nat with 0%nat by (unfold zlen in LB; lia).
      cbn [firstn]. rewrite app_nil_r. apply resize_keep; lia. }
    destruct r; [|congruence|].
    + destruct ((0 <? z_ileft z st') && (zlen o =? 1024)) eqn:C.
      * apply andb_true_iff in C. destruct C as [_ C]. assert (Lo : zlen o = 1024) by lia. rewrite Lo in *.
        destruct (IH st' (m - 1024) (patch (resize junk buf (count + 1024)) count o) (count + 1024) (total + 1024) HR) as (r & buf' & n & E & N & B & F).
        -- replace (m - 1024) with (m + (-1) * 1024) by lia. rewrite Z.div_add by lia. lia.
        -- rewrite patch_len' by lia. lia.
        -- exists r, buf', n. split; [exact E|]. split; [exact N|]. split; [lia|]. assert (LL : (Z.to_nat count <= Z.to_nat (count + 1024))%nat) by lia. rewrite (firstn_less _ (Z.to_nat count) _ _ F LL). rewrite firstn_firstn. replace (Nat.min (Z.to_nat count) (Z.to_nat (count + 1024))) with (Z.to_nat count) by lia. exact K.
      * eexists _, _, _. split; [reflexivity|]. split; [discriminate|]. split; [lia|exact K].
    + eexists _, _, _. split; [reflexivity|]. split; [discriminate|]. split; [lia|exact K].
Qed.
Lemma uncompress_damaged fuel c m buf off : damaged z c m -> 0 <= m -> 0 <= off <= zlen buf -> m / 1024 + 1 < Z.of_nat fuel ->
  exists buf' n off', uncompress_frame z junk fuel c buf off = Ok (ERR_INVALID_DATA, buf', n, off') /\ 0 <= n <= m /\ firstn (Z.to_nat off) buf' = firstn (Z.to_nat off) buf.
Proof.
  intros D Hm Ho Hf. unfold uncompress_frame. destruct D as [E|(R & st & HR & E & H)]; rewrite E; [eexists _, _, _; split; [reflexivity|split; [lia|reflexivity]]|].
  destruct (inflate_failing R HR fuel st m buf off 0 H Hf Ho) as (r & buf' & n & E' & N & B & F). rewrite E'. cbn [bind]. exists buf', n, (off + n). split; [destruct r; congruence|]. split; [lia|exact F].
Qed.

End ZP.

Section Deflate.
Context (z : zlib).
(** Compressing. *)
Lemma deflate_whole R : deflating z R -> forall n, 0 < n -> forall fuel st c out, R st c -> zlen c / n + 1 < Z.of_nat fuel -> deflate_loop z fuel st n out = Ok (out ++ c).
Proof.
  intros HR n Hn. induction fuel as [|fuel IH]; intros st c out H Hf; [assert (0 <= zlen c / n) by (apply Z.div_pos; [apply zlen_nonneg|lia]); lia|].
  cbn [deflate_loop]. specialize (HR st c n H ltac:(lia)). destruct (z_ocall z st n) as [[r o] st']. destruct HR as [(_ & L & -> & ->)|(L & N & -> & HR)].
  - replace (n <? zlen c) with false by lia. rewrite andb_false_r. reflexivity.
  - assert (Lo : zlen (firstn (Z.to_nat n) c) = n) by (unfold zlen in *; rewrite firstn_length; lia). rewrite Lo, Z.ltb_irrefl, Z.eqb_refl. replace (match r with ZEnd => false | _ => true end) with true by (destruct r; congruence). cbn [andb].
    rewrite (IH st' (skipn (Z.to_nat n) c)); [|exact HR|].
    + rewrite <- app_assoc, firstn_skipn. reflexivity.
    + assert (Ls : zlen (skipn (Z.to_nat n) c) = zlen c + (-1) * n) by (unfold zlen in *; rewrite skipn_length; lia). rewrite Ls, Z.div_add by lia. lia.
Qed.
Definition enough (fuel : nat) (d c : list Z) : Prop := zlen c / zlen d + 1 < Z.of_nat fuel.
Lemma compress_ok fuel d c room : deflates z d c -> d <> [] -> enough fuel d c -> compress_frame z fuel d room = Ok (ERR_NONE, firstn (Z.to_nat room) c, zlen c).
Proof.
  intros (R & st & HR & E & H) Hd Hf. unfold compress_frame. rewrite E. rewrite (deflate_whole R HR (zlen d)) with (c := c); [reflexivity| |exact H|exact Hf].
  destruct d; [congruence|]. rewrite zlen_cons. pose proof (zlen_nonneg d). lia.
Qed.
(** An empty frame gets no room. *)
Lemma deflate_empty R : deflating z R -> forall fuel st c out, R st c -> deflate_loop z fuel st 0 out = Fuel.
Proof.
  intros HR. induction fuel as [|fuel IH]; intros st c out H; [reflexivity|]. cbn [deflate_loop]. specialize (HR st c 0 H ltac:(lia)). destruct (z_ocall z st 0) as [[r o] st']. destruct HR as [(L & _)|(_ & N & -> & HR)]; [lia|].
  cbn [Z.to_nat firstn]. change (zlen (@nil Z)) with 0. change (0 <? 0) with false. change (0 =? 0) with true. replace (match r with ZEnd => false | _ => true end) with true by (destruct r; congruence). cbn [andb]. exact (IH st' _ _ HR).
Qed.
Lemma compress_empty fuel c room : deflates z [] c -> compress_frame z fuel [] room = Fuel.
Proof. intros (R & st & HR & E & H). unfold compress_frame. rewrite E. change (zlen (@nil Z)) with 0. rewrite (deflate_empty R HR fuel st c [] H). reflexivity. Qed.
End Deflate.
