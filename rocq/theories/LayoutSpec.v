(** What a layout should be. *)
From Verif Require Import Base Vint EltHead Tree Layout.

(** Elements of these sizes one after the other from [p]. *)
Inductive consecutive : Z -> list Z -> list Z -> Prop :=
| con_nil p : consecutive p [] []
| con_cons p s sizes pos : consecutive (p + s) sizes pos -> consecutive p (s :: sizes) (p :: pos).
(** The least number of bytes, at least one, for [v]. *)
Definition int_bytes (v n : Z) : Prop := 1 <= n <= 8 /\ 0 <= v < 256 ^ n /\ (n = 1 \/ 256 ^ (n - 1) <= v).
(** The size of a cue point with short head: its checksum, head, and the heads and bytes of the three numbers. *)
Definition cue_size (c : lcue) (p n : Z) : Prop :=
  exists a b d, int_bytes (lc_time c) a /\ int_bytes (lc_track c) b /\ int_bytes p d /\ n = lc_chk c + 10 + a + b + d.
Inductive cues_size : list lcue -> list Z -> Z -> Prop :=
| qs_nil : cues_size [] [] 0
| qs_cons c q p ps n m : cue_size c p n -> cues_size q ps m -> cues_size (c :: q) (p :: ps) (n + m).
(** A cue point leads to its cluster: [p] from the data of the segment at [segd]. *)
Definition leads (segd : Z) (cp : list Z) (c : lcue) (p : Z) : Prop := exists i x, lc_clus c = Some i /\ nth_error cp i = Some x /\ p + segd = x.
(** Cue points that can be: times and tracks in range, the block in one of [n] clusters. *)
Definition cue_ok (n : nat) (c : lcue) : Prop :=
  0 <= lc_time c < 2 ^ 63 /\ 0 <= lc_track c < 2 ^ 16 /\ (lc_chk c = 0 \/ lc_chk c = 6) /\ exists i, lc_clus c = Some i /\ (i < n)%nat.
(** The sizes planned for the clusters. *)
Definition sizes_of (j : job) : list Z := cluster_sizes (j_safe j) None (j_bases j).
(** A job within bounds. *)
Definition job_ok (segd : Z) (j : job) : Prop :=
  0 <= segd /\ Forall (fun x => 0 <= snd x) (j_parts j) /\ (j_chk j = 0 \/ j_chk j = 6) /\ 0 <= j_void j /\ Forall (cue_ok (length (j_bases j))) (j_cues j) /\
  0 <= j_size j /\ Forall (fun b => 0 <= b) (j_bases j) /\
  segd + j_void j + sum (map snd (j_parts j)) + sum (sizes_of j) + j_size j + 50 * (zlen (j_parts j) + zlen (j_cues j) + 5) < 2 ^ 62.

(** The SeekHead of a file leads to its elements. *)
Definition seeks (segd : Z) (stored real : list (Z * Z)) : Prop := Forall2 (fun a b => fst a = fst b /\ snd a + segd = snd b) stored real.
(** The elements a SeekHead should list with their positions. *)
Definition real_list (j : job) (o : out) (first : Z) : list (Z * Z) := combine (map fst (j_parts j)) (o_parts o) ++ [(L_Cues, o_cues o); (L_Cluster, first)].
(** All that is said of a file, [pl] being the plan. *)
Definition file_ok (j : job) (spos d0 l0 : Z) (wsizes : list Z) (changed : bool) (pl : plan) (o : out) : Prop :=
  o_segd o = spos + coded_size_length d0 l0 true /\
  o_segd' o = spos + Z.max (coded_size_length d0 l0 true) (coded_size_length (o_size o) 0 true) /\
  consecutive (o_segd o + pl_seek3 pl + j_void j) (map snd (j_parts j) ++ full L_Cues (pl_size pl) :: wsizes) (o_parts o ++ o_cues o :: o_clus o) /\
  o_size o = pl_seek3 pl + j_void j + sum (map snd (j_parts j)) + full L_Cues (pl_size pl) + sum wsizes /\
  (exists first, hd_error (o_clus o) = Some first /\ seeks (o_segd' o) (o_seek o) (real_list j o first)) /\
  Forall2 (leads (o_segd o + (if changed then 0 else pl_seek3 pl - pl_seek2 pl)) (o_clus o)) (j_cues j) (o_held o).
