(** C143: files read, written, moved in and cut, and skipping over streams. *)
From Verif Require Import Base BaseProofs Tree Stream StreamSpec StreamProofs PropStream Ebml FileIO FileIOSpec FileIOProofs.

(** Every call ends, and a history of calls goes on. *)
Theorem C143_ends init h f c : fhappens init h f -> all_ok h -> call_ok c -> exists f' r, fstep f c = Ok (f', r).
Proof. intros H A C. destruct (step_inv init h f c (happens_inv init h f H A) C) as (f' & r & S & _). eauto. Qed.

(** What is read are the bytes written there last, at the place the calls so far lead to; it is not more than asked for or
    there; success is told exactly when all that was asked for is given, and it is told how much is. *)
Theorem C143_read init h f size a : fhappens init h f -> all_ok h -> 0 <= size < 2 ^ 63 -> answer_ok a ->
  exists e n f', fstep f (FRead size a) = Ok (f', RRead e (Some (Z.of_nat n)) (bytes_of init h (where_of h) n)) /\
    Z.of_nat n <= size /\ Z.of_nat n <= Z.max 0 (length_of init h - where_of h) /\ (e = ERR_NONE <-> Z.of_nat n = size /\ a <> None) /\
    (forall k, a = Some k -> size <= k -> Z.of_nat n = Z.min size (Z.max 0 (length_of init h - where_of h))).
Proof.
  intros H A S AO. pose proof (happens_inv init h f H A) as I. destruct (inv_pos _ _ _ I) as (P & P0). pose proof (inv_len _ _ _ I) as L.
  cbn [fstep]. unfold f_read, SSIZE_MAX. rewrite (proj2 (Z.ltb_ge _ _)) by lia. unfold os_read. destruct a as [k|].
  - cbn [answer_ok] in AO. pose (n := length (firstn (Z.to_nat (Z.min k size)) (skipn (Z.to_nat (f_pos f)) (f_data f)))).
    assert (N : Z.of_nat n = Z.min (Z.min k size) (Z.max 0 (length_of init h - where_of h))) by (unfold n; rewrite firstn_length, skipn_length; unfold zlen in L; lia).
    assert (E : firstn (Z.to_nat (Z.min k size)) (skipn (Z.to_nat (f_pos f)) (f_data f)) = bytes_of init h (where_of h) n).
    { rewrite <- (bytes_ok init h f n I) by lia. unfold n. rewrite firstn_length. destruct (Nat.min_spec (Z.to_nat (Z.min k size)) (length (skipn (Z.to_nat (f_pos f)) (f_data f)))) as [(Q & ->)|(Q & ->)]; [reflexivity|].
      rewrite firstn_all. apply firstn_all2. exact Q. }
    rewrite E. replace (zlen (bytes_of init h (where_of h) n)) with (Z.of_nat n) by (unfold zlen, bytes_of; rewrite map_length, seq_length; reflexivity).
    eexists _, n, _. split; [reflexivity|]. split; [lia|]. split; [lia|]. split.
    + destruct (Z.eqb_spec (Z.of_nat n) size); split; try tauto; try discriminate. intros _. split; [assumption|discriminate].
    + intros k' [= <-] K. lia.
  - eexists _, 0%nat, _. split; [reflexivity|]. split; [cbn; lia|]. split; [cbn; lia|]. split; [split; [discriminate|intros (_ & X); contradiction]|]. discriminate.
Qed.

(** What is written is a beginning of what is given, the whole of it exactly when success is told, and it is told how much; the file
    is that of the calls ([C143_holds]). *)
Theorem C143_write init h f bs a : fhappens init h f -> all_ok h -> zlen bs < 2 ^ 63 -> answer_ok a ->
  exists e n f', fstep f (FWrite bs a) = Ok (f', RWrite e (Some n)) /\ 0 <= n <= zlen bs /\ (e = ERR_NONE <-> n = zlen bs /\ a <> None) /\
    (forall k, a = Some k -> n = Z.min k (zlen bs)) /\
    forall i, 0 <= i < n -> nth (Z.to_nat (where_of h + i)) (f_data f') 0 = nth (Z.to_nat i) bs 0.
Proof.
  intros H A S AO. pose proof (happens_inv init h f H A) as I. destruct (step_inv init h f (FWrite bs a) I AO) as (f' & r & E & I'). rewrite E.
  destruct (inv_pos _ _ _ I) as (P & P0).
  assert (Q : exists e n, r = RWrite e (Some n) /\ 0 <= n <= zlen bs /\ (e = ERR_NONE <-> n = zlen bs /\ a <> None) /\ (forall k, a = Some k -> n = Z.min k (zlen bs))).
  { cbn [fstep] in E. unfold f_write, SSIZE_MAX in E. rewrite (proj2 (Z.ltb_ge _ _)) in E by lia. unfold os_write in E. destruct a as [k|].
    - cbn [answer_ok] in AO. injection E as <- <-. eexists _, _. split; [reflexivity|].
      assert (N : zlen (firstn (Z.to_nat k) bs) = Z.min k (zlen bs)) by (unfold zlen; rewrite firstn_length; lia). rewrite N. pose proof (zlen_nonneg bs).
      split; [lia|]. split; [|intros k' [= <-]; reflexivity]. destruct (Z.eqb_spec (Z.min k (zlen bs)) (zlen bs)); split; try tauto; try discriminate. intros _. split; [assumption|discriminate].
    - injection E as <- <-. eexists _, _. split; [reflexivity|]. pose proof (zlen_nonneg bs). split; [lia|]. split; [split; [discriminate|intros (_ & X); contradiction]|]. discriminate. }
  destruct Q as (e & n & -> & N & EN & NK). exists e, n, f'. split; [reflexivity|]. split; [exact N|]. split; [exact EN|]. split; [exact NK|].
  intros i Hi. rewrite (inv_byte _ _ _ I') by lia. cbn [byte_of count]. rewrite (proj2 (Z.leb_le _ _)), (proj2 (Z.ltb_lt _ _)) by lia. cbn [andb]. f_equal. lia.
Qed.

(** The file, its length and the place in it are those told by the calls and their replies alone. *)
Theorem C143_holds init h f : fhappens init h f -> all_ok h ->
  f_pos f = where_of h /\ 0 <= where_of h /\ f_data f = bytes_of init h 0 (length (f_data f)) /\ zlen (f_data f) = length_of init h.
Proof.
  intros H A. pose proof (happens_inv init h f H A) as I. destruct (inv_pos _ _ _ I) as (P & P0). split; [exact P|]. split; [lia|]. split; [|apply (inv_len _ _ _ I)].
  apply (nth_ext _ _ 0 0); [rewrite bytes_len; reflexivity|]. intros i L. rewrite bytes_nth by exact L. rewrite <- (inv_byte _ _ _ I) by lia. f_equal. lia.
Qed.

(** A seek says where it leads, or -1 and stays. *)
Theorem C143_seek init h f p w : fhappens init h f -> all_ok h ->
  exists q f', fstep f (FSeek p w) = Ok (f', RSeek q) /\ f_data f' = f_data f /\
    let t := p + match w with SeekSet => 0 | SeekCur => where_of h | SeekEnd => length_of init h end in
    (0 <= t < 2 ^ 63 /\ q = t /\ f_pos f' = t) \/ (~ 0 <= t < 2 ^ 63 /\ q = -1 /\ f' = f).
Proof.
  intros H A. pose proof (happens_inv init h f H A) as I. destruct (inv_pos _ _ _ I) as (P & P0). pose proof (inv_len _ _ _ I) as L.
  cbn [fstep]. unfold f_seek, os_seek. rewrite P, L. set (t := p + _). destruct (Z.ltb_spec t 0); cbn [orb].
  - eexists _, _. split; [reflexivity|]. split; [reflexivity|]. right. split; [lia|]. split; reflexivity.
  - destruct (Z.leb_spec (2 ^ 63) t).
    + eexists _, _. split; [reflexivity|]. split; [reflexivity|]. right. split; [lia|]. split; reflexivity.
    + rewrite (proj2 (Z.ltb_ge _ _)) by lia. eexists _, _. split; [reflexivity|]. split; [reflexivity|]. left. split; [lia|]. split; reflexivity.
Qed.

(** Skipping over any stream whose reads tell what they give: it ends, what is told to be left was not skipped and the rest was,
    no byte more; success is told exactly when nothing is left. *)
Theorem C143_skip U W inv (view : U -> W) adv rd n u : skippable inv view adv rd -> inv u -> 0 <= n ->
  exists e m u', skip rd (Z.to_nat n) u n = Ok (e, m, u') /\ inv u' /\ 0 <= m <= n /\ (e = ERR_NONE <-> m = 0) /\ view u' = adv (n - m) (view u).
Proof. intros S I N. unfold skip. apply (skip_ok inv view adv rd S); [exact I|lia]. Qed.

(** Files are such streams, whatever the system answers. *)
Theorem C143_skip_file f l n : 0 <= f_pos f -> Forall answer_ok l -> 0 <= n ->
  exists e m f' l', skip file_rd (Z.to_nat n) (f, l) n = Ok (e, m, (f', l')) /\ 0 <= m <= n /\ (e = ERR_NONE <-> m = 0) /\ f_data f' = f_data f /\ f_pos f' = f_pos f + (n - m).
Proof.
  intros P A N. destruct (C143_skip _ _ finv fview fadv file_rd n (f, l) file_skippable (conj P A) N) as (e & m & (f' & l') & R & _ & M & E & V).
  exists e, m, f', l'. unfold fview, fadv in V. cbn [fst snd] in V. injection V as V1 V2. repeat split; auto; try lia; tauto.
Qed.

(** So is a buffer over a file: skipping through it is skipping what it still gives. *)
Theorem C143_skip_buffered b n : buf_ok b -> 0 <= n ->
  exists e m b', skip buf_rd (Z.to_nat n) b n = Ok (e, m, b') /\ 0 <= m <= n /\ (e = ERR_NONE <-> m = 0) /\ ahead b' ++ bu b' = skipn (Z.to_nat (n - m)) (ahead b ++ bu b).
Proof.
  intros B N. assert (S : skippable buf_ok bview badv buf_rd).
  { split; [reflexivity|]. split; [intros x y w X Y; unfold badv; rewrite skip_skip; f_equal; lia|]. intros u k I K. unfold buf_rd.
    destruct (C38_reads_like_the_file [k] u I) as (b1 & R & V); [repeat constructor; lia|].
    destruct (C38_reads_lose_nothing _ (fun x => x) plain_read [k] u) as (r2 & b2 & R2 & O2 & _); [|exact I|repeat constructor; lia|].
    { intros x z Z0. unfold plain_read. split; [unfold zlen; rewrite firstn_length; lia|]. rewrite firstn_skipn. reflexivity. }
    rewrite R2 in R. injection R as -> ->. cbn [buf_reads plain_reads] in R2, V. unfold plain_read in R2, V. cbn [snd] in V.
    fold plain_read in R2. destruct (buf_read plain_read u k) as [[[e bs] b']|]; [|discriminate]. injection R2 as E1 E2 E3. subst b'.
    split; [exact O2|]. set (l := ahead u ++ bu u) in *.
    assert (LL : zlen bs = Z.min k (zlen l)) by (rewrite E2; unfold zlen; rewrite firstn_length; lia).
    pose proof (zlen_nonneg l). split; [lia|]. split.
    - rewrite E1. destruct (Z.ltb_spec (zlen l) k); split; intros X; try discriminate; try lia; reflexivity.
    - unfold bview, badv. fold l. rewrite V, LL. destruct (Z.leb_spec k (zlen l)); [f_equal; lia|]. rewrite !skipn_all2; [reflexivity| |]; unfold zlen in *; lia. }
  destruct (C143_skip _ _ buf_ok bview badv buf_rd n b S B N) as (e & m & b' & R & _ & M & E & V). exists e, m, b'. repeat split; auto; try lia; tauto.
Qed.

(** A stream that tells success without giving a byte is skipped for ever. *)
Theorem C143_stuck_refuted fuel : forall n, 0 < n -> skip (fun (u : unit) _ => (ERR_NONE, 0, u)) fuel tt n = Fuel.
Proof.
  intros n N. unfold skip. induction fuel as [|fuel IH]; cbn [skip_loop]; rewrite (proj2 (Z.ltb_lt _ _)) by lia; cbn [andb]; change (ERR_NONE =? ERR_NONE) with true; cbv iota; [reflexivity|].
  rewrite Z.sub_0_r. exact IH.
Qed.
(** A skip backwards tells success and does nothing. *)
Theorem C143_back_refuted U (rd : U -> Z -> Z * Z * U) fuel u n : n < 0 -> skip rd fuel u n = Ok (ERR_NONE, n, u).
Proof. intros N. unfold skip. apply skip_done. left. lia. Qed.
(** The end of the file is told although bytes follow, when the system gives less than was asked for. *)
Theorem C143_end_refuted : ~ forall init h f size k f' n bs, fhappens init h f -> all_ok h -> 0 <= size < 2 ^ 63 -> 0 < k -> fstep f (FRead size (Some k)) = Ok (f', RRead ERR_END_OF_FILE n bs) -> f_pos f' = length_of init h.
Proof.
  intros H. specialize (H [1; 2; 3] [] (mkPf [1; 2; 3] 0) 3 1 (mkPf [1; 2; 3] 1) (Some 1) [1] (fh_start _) (Forall_nil _) ltac:(lia) ltac:(lia) eq_refl). discriminate H.
Qed.
(** A reading of 2^63 bytes and more does not tell how much it gave: the caller's variable is as it was. *)
Theorem C143_count_refuted init h f size a : fhappens init h f -> 2 ^ 63 <= size -> fstep f (FRead size a) = Ok (f, RRead E_READ None []).
Proof. intros _ S. cbn [fstep]. unfold f_read, SSIZE_MAX. rewrite (proj2 (Z.ltb_lt _ _)) by lia. reflexivity. Qed.

(** Written in two parts with a hole, cut, skipped and read. *)
Definition io_calls : list fcall :=
  [FSeek 2 SeekEnd; FWrite [7; 8; 9] (Some 2); FWrite [9] (Some 5); FSeek (-1) SeekSet; FSeek 1 SeekSet; FSkip 2 [Some 1; Some 1]; FSkip 2 []; FRead 9 (Some 9); FLength 2 true; FSeek 0 SeekSet; FRead 2 (Some 2); FSkip 5 []].
Fixpoint io_run (f : pfile) (h : fhistory) (l : list fcall) : option (pfile * fhistory) :=
  match l with [] => Some (f, h) | c :: l => match fstep f c with Ok (f, r) => io_run f ((c, r) :: h) l | _ => None end end.
Lemma io_happens init l : forall f h f' h', fhappens init h f -> io_run f h l = Some (f', h') -> fhappens init h' f'.
Proof.
  induction l as [|c l IH]; intros f h f' h' H; cbn [io_run]; [intros [= <- <-]; exact H|].
  destruct (fstep f c) as [| | |[f1 r]] eqn:E; try discriminate. apply IH. econstructor; eauto.
Qed.
Definition io_end : pfile * fhistory := match io_run (mkPf [1; 2] 0) [] io_calls with Some x => x | None => (mkPf [] 0, []) end.
Example C143_ex : fhappens [1; 2] (snd io_end) (fst io_end) /\ all_ok (snd io_end) /\
  map snd (rev (snd io_end)) = [RSeek 4; RWrite E_WRITE (Some 2); RWrite 0 (Some 1); RSeek (-1); RSeek 1; RSkip ERR_END_OF_FILE 1; RSkip 0 0; RRead ERR_END_OF_FILE (Some 3) [7; 8; 9]; RLength 0; RSeek 0; RRead 0 (Some 2) [1; 2]; RSkip ERR_END_OF_FILE 5].
Proof.
  split; [apply (io_happens _ io_calls (mkPf [1; 2] 0) []); [constructor|vm_compute; reflexivity]|]. split; [|vm_compute; reflexivity].
  vm_compute. repeat constructor; discriminate.
Qed.

(** Two bytes skipped through a buffer, then more than there are. *)
Example C143_skip_ex : let b := mkBuf [1; 2; 3; 4; 5] 0 0 0 (repeat 0 4096%nat) in buf_ok b /\
  match skip buf_rd 2 b 2 with
  | Ok (e, m, b1) => e = 0 /\ m = 0 /\ ahead b1 ++ bu b1 = [3; 4; 5] /\ match skip buf_rd 7 b1 7 with Ok (e, m, b2) => e = ERR_END_OF_FILE /\ m = 4 /\ ahead b2 ++ bu b2 = [] | _ => False end
  | _ => False
  end.
Proof. cbv zeta. split; [unfold buf_ok; vm_compute; repeat split; discriminate|]. vm_compute. repeat split. Qed.

Print Assumptions C143_ends.
Print Assumptions C143_read.
Print Assumptions C143_write.
Print Assumptions C143_holds.
Print Assumptions C143_seek.
Print Assumptions C143_skip.
Print Assumptions C143_skip_file.
Print Assumptions C143_skip_buffered.
Print Assumptions C143_stuck_refuted.
Print Assumptions C143_back_refuted.
Print Assumptions C143_end_refuted.
Print Assumptions C143_count_refuted.
