(** C132: the sampling frequency guessed from the headers of a Vorbis track. *)
From Verif Require Import Base BaseProofs Stream Tree Guess GuessSpec GuessProofs.

(** A decoder for the examples: it takes headers that begin with 1 and "v", and the rate is the third byte. *)
Definition toy_in (x : list Z) : bool := match x with 1 :: 118 :: _ => true | _ => false end.
Definition toy_rate (x : list Z) : Z := nth 2 x 0.

(** Two headers of less than 255 bytes and a third of any size: the decoder gets the three headers in order, and the frequency is the one in the
    first; when it refuses the first header it gets no other one. *)
Theorem C132_headers hin rate h1 h2 h3 : zlen h1 < 255 -> zlen h2 < 255 ->
  guess hin rate (private h1 h2 h3) = Ok (if hin h1 then (rate h1, [h1; h2; h3]) else (ERR_INVALID_DATA, [h1])).
Proof. apply guess_headers. Qed.
Print Assumptions C132_headers.
Example C132_headers_ex : private [1; 118; 44] [3; 5] (repeat 7 5) = [2; 3; 2; 1; 118; 44; 3; 5; 7; 7; 7; 7; 7] /\ guess toy_in toy_rate (private [1; 118; 44] [3; 5] (repeat 7 5)) = Ok (44, [[1; 118; 44]; [3; 5]; [7; 7; 7; 7; 7]]).
Proof. vm_compute. split; reflexivity. Qed.

(** With comments of 255 bytes or more the first header is looked for too early, the decoder refuses it, and the frequency of the track is the number of an error: -3. *)
Theorem C132_comments_refuted hin rate t h2 h3 : (forall x, hin x = true -> exists y, x = 1 :: 118 :: y) -> zlen (1 :: 118 :: t) < 255 -> 255 <= zlen h2 ->
  exists p, guess hin rate (private (1 :: 118 :: t) h2 h3) = Ok (-3, [p]).
Proof. intros P A B. exact (guess_long hin rate t h2 h3 A B P). Qed.
Print Assumptions C132_comments_refuted.
Example C132_comments_ex : (forall x, toy_in x = true -> exists y, x = 1 :: 118 :: y) /\ guess toy_in toy_rate (private [1; 118; 44] (repeat 5 300) [7]) = Ok (-3, [[45; 1; 118]]).
Proof.
  split; [|vm_compute; reflexivity]. intros x H. unfold toy_in in H. destruct x as [|a [|b y]]; [discriminate| |].
  - destruct a as [|[| |]|]; discriminate.
  - exists y. destruct a as [|[| |]|]; try discriminate. destruct b as [|b|b]; try discriminate. repeat (destruct b as [b|b|]; try discriminate). reflexivity.
Qed.

(** Nothing outside the data is read when the data has all the bytes its first byte counts; the decoder gets at most four headers. *)
Theorem C132_inside hin rate n d : bytes_ok (n :: d) -> n <= zlen d -> exists f ps, guess hin rate (n :: d) = Ok (f, ps) /\ (length ps <= 4)%nat.
Proof. apply guess_safe. Qed.
Print Assumptions C132_inside.
Example C132_inside_ex : bytes_ok [3; 0; 255; 255; 9] /\ 3 <= zlen [0; 255; 255; 9] /\ guess (fun _ => true) toy_rate [3; 0; 255; 255; 9] = Ok (-3, [[]]).
Proof. split; [unfold bytes_ok, is_byte; repeat constructor; lia|]. vm_compute. split; [discriminate|reflexivity]. Qed.

(** With fewer it reads on behind them: no data at all, or nothing but 255. *)
Lemma size_beyond n k : forall fuel j len, 1 <= j <= Z.of_nat k + 1 -> Z.of_nat k < n -> Z.of_nat k + 1 - j < Z.of_nat fuel -> size_loop fuel (n :: repeat 255 k) n j len = Bad.
Proof.
  induction fuel as [|fuel IH]; intros j len Hj Hn Hf; [lia|]. cbn [size_loop]. unfold at_byte. replace (j <? 0) with false by lia. destruct (Z.eq_dec j (Z.of_nat k + 1)) as [->|Ne].
  - replace (nth_error (n :: repeat 255 k) (Z.to_nat (Z.of_nat k + 1))) with (@None Z); [reflexivity|]. symmetry. apply nth_error_None. cbn [length]. rewrite repeat_length. lia.
  - destruct (Z.to_nat j) as [|m] eqn:Em; [lia|]. cbn [nth_error]. rewrite (nth_error_repeat 255) by lia. cbn [opt_res bind]. change (255 =? 255) with true. replace (j + 1 <=? n) with true by lia. cbn [andb]. apply IH; lia.
Qed.
Theorem C132_beyond_refuted hin rate n k : Z.of_nat k < n -> n <= 255 -> guess hin rate [] = Bad /\ guess hin rate (n :: repeat 255 k) = Bad.
Proof.
  intros Hk Hn. split; [reflexivity|]. unfold guess. change (at_byte (n :: repeat 255 k) 0) with (Ok n). cbn [bind]. change 6%nat with (S 5). cbn [head_loop]. cbv zeta. change (-1 <? 3) with true. replace (1 <=? n) with true by lia. cbn [andb].
  rewrite (size_beyond n k) by lia. reflexivity.
Qed.
Print Assumptions C132_beyond_refuted.
Example C132_beyond_ex : guess toy_in toy_rate [2; 255] = Bad.
Proof. vm_compute. reflexivity. Qed.
