(** What is expected of the optimisation of a track by its common header. *)
From Verif Require Import Base FinderSpec TreeRead Block BlockSpec TreeProofs3 CleanSpec.

(** A block of a file that is not read yet: its frames, without the header [h0] of its track, lie at its place. *)
Definition stored (s : ist) (h0 : list Z) (b : block) (fs : list (list Z)) : Prop :=
  exists ps, fs = map (app h0) ps /\ b_set b = false /\ b_sizes b = map zlen fs /\ (b_lacing b = 0 -> exists p, ps = [p]) /\
    in_reach s (b_first b) /\ at_pos (in_data s) (b_first b) (concat ps).
(** A block with some bytes, all frames shorter than 4 GiB. *)
Definition has_bytes (fs : list (list Z)) : Prop := concat fs <> [] /\ Forall (fun f => zlen f < 2 ^ 32) fs.
(** The frames without a header. *)
Definition without (h : list Z) (fs : list (list Z)) : list (list Z) := map (skipn (length h)) fs.
