(** The sampling frequency of a Vorbis track: GuessSamplingFreq, mkclean/mkclean.c 894-972, compiled with CONFIG_CODEC_HELPER.

    The Vorbis decoder is a parameter: [hin] whether vorbis_synthesis_headerin takes the first header, [rate] the rate in it (only the
    first header, with b_o_s, sets the rate). *)
From Verif Require Import Base Arr Stream Tree.

Section Guess.
Context (hin : list Z -> bool) (rate : list Z -> Z).

(** OggBuffer.data[j]: outside the data is [Bad]. *)
Definition at_byte (d : list Z) (j : Z) : res Z := opt_res (if j <? 0 then None else nth_error d (Z.to_nat j)).
(** 932-936: a size, in bytes up to the first that is not 255, and [j] behind it. *)
Fixpoint size_loop (fuel : nat) (d : list Z) (n j len : Z) : res (Z * Z) :=
  match fuel with
  | O => Fuel
  | S fuel =>
      do b <- at_byte d j;
      if (b =? 255) && (j + 1 <=? n) then size_loop fuel d n (j + 1) (len + b) else Ok (len + b, j + 1)
  end.
(** 928-962: [p] is packetno, [out] the packets handed over.  The frequency and the packets. *)
Fixpoint head_loop (fuel : nat) (d : list Z) (n i j p : Z) (out : list (list Z)) : res (Z * list (list Z)) :=
  match fuel with
  | O => Fuel
  | S fuel =>
      let give i len out := do x <- opt_res (mem_get d i len); Ok (out ++ [x], (p + 1 =? 0) && negb (hin x)) in
      if (p <? 3) && (j <=? n) then
        do r <- size_loop 256 d n j 0;
        let '(len, j) := r in
        if zlen d <? i + len then Ok (ERR_INVALID_DATA, out)
        else do r <- give i len out;
             let '(out, bad) := r in
             if (bad : bool) then Ok (ERR_INVALID_DATA, out) else head_loop fuel d n (i + len) j (p + 1) out
      else if p <? 3 then
        do r <- give i (zlen d - i) out;
        let '(out, bad) := r in
        Ok (if (bad : bool) then ERR_INVALID_DATA else rate (hd [] out), out)
      else Ok (rate (hd [] out), out)
  end.
(** 907-966, for CodecPrivate [d] of an A_VORBIS track. *)
Definition guess (d : list Z) : res (Z * list (list Z)) :=
  do n <- at_byte d 0; head_loop 6 d n (1 + n) 1 (-1) [].
End Guess.
