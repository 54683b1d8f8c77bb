(** Where mkclean puts everything (mkclean/mkclean.c 304-397, 691-697, 2095-3030, 3122-3187), at the level of
    sizes and positions.  --live and --alt-3d are not here.  All sizes are those EBML_ElementUpdateSize and
    EBML_ElementFullSize give (Tree.v) for elements with the natural size length. *)
From Verif Require Import Base Vint EbmlId IntElt EltHead Ebml Tree.

(** The data size of an unsigned integer element, ebmlnumber.c 286-309, DefaultSize 1. *)
Definition usize (v : Z) : Z := update_size_uint v 1.
(** EBML_ElementFullSize, ebmlelement.c 120-125, with a data size of [d]. *)
Definition full (id d : Z) : Z := full_size id d 0 true.
(** IDs, matroska_sem.c 986-1004, 1172-1186. *)
Definition L_CueTime : Z := 179.
Definition L_CueTrackPositions : Z := 183.
Definition L_CueTrack : Z := 247.
Definition L_CueClusterPosition : Z := 241.
Definition L_CuePoint : Z := 187.
Definition L_Cues : Z := 475249515.
Definition L_Cluster : Z := 524531317.
Definition L_PrevSize : Z := 171.
Definition L_SeekHead : Z := 290298740.
Definition L_Seek : Z := 19899.
Definition L_SeekID : Z := 21419.
Definition L_SeekPosition : Z := 21420.

(** A cue point: its CueTime and CueTrack values, the size of its checksum (6 or 0) and the place of the cluster
    its block is in; [None] when no block was found for it. *)
Record lcue := mkLC { lc_time : Z; lc_track : Z; lc_chk : Z; lc_clus : option nat }.
(** The size of a cue point that holds the position [p]. *)
Definition cue_full (q : lcue) (p : Z) : Z :=
  full L_CuePoint (lc_chk q + full L_CueTime (usize (lc_time q)) +
    full L_CueTrackPositions (full L_CueTrack (usize (lc_track q)) + full L_CueClusterPosition (usize p))).

(** The sizes of the clusters, mkclean.c 362-385: [bases] are the data sizes without PrevSize; with [safe] each but
    the first has a PrevSize. *)
Fixpoint cluster_sizes (safe : bool) (prev : option Z) (bases : list Z) : list Z :=
  match bases with
  | [] => []
  | b :: l =>
      let s := full L_Cluster (b + match prev with Some p => if safe then full L_PrevSize (usize p) else 0 | None => 0 end) in
      s :: cluster_sizes safe (Some s) l
  end.
(** ClusterPos, mkclean.c 357, 366, 386. *)
Fixpoint place (p : Z) (sizes : list Z) : list Z :=
  match sizes with [] => [] | s :: l => p :: place (p + s) l end.
(** UpdateCues, mkclean.c 337-350, and the size of Cues, 392: the positions put in the cue points (the cluster's
    less the position of the data of the segment) and the data size; MATROSKA_CuePointUpdate follows the null
    pointer of a cue point without a block.  [k] is the size of the checksum of Cues (6 or 0).  A place outside
    the array is not possible: [Bad]. *)
Fixpoint update_cues (segd : Z) (cp : list Z) (q : list lcue) : res (list Z * Z) :=
  match q with
  | [] => Ok ([], 0)
  | c :: q =>
      match lc_clus c with
      | None => Null
      | Some i =>
          do p <- opt_res (nth_error cp i);
          do r <- update_cues segd cp q;
          Ok (s64 (p - segd) :: fst r, cue_full c (s64 (p - segd)) + snd r)
      end
  end.
(** SettleClustersWithCues, mkclean.c 352-397: [s] is the data size of Cues at the start; gives the data size, the
    positions of the clusters and those in the cue points. *)
Fixpoint settle (fuel : nat) (start segd : Z) (sizes : list Z) (k : Z) (q : list lcue) (s : Z) : res (Z * list Z * list Z) :=
  match fuel with
  | O => Fuel
  | S fuel =>
      let cp := place (start + full L_Cues s) sizes in
      do r <- update_cues segd cp q;
      let s' := k + snd r in
      if s' =? s then Ok (s', cp, fst r) else settle fuel start segd sizes k q s'
  end.

(** The size of the SeekHead, mkclean.c 691-697, for elements (ID and position); [k] as above, for the SeekHead and
    each entry. *)
Fixpoint seek_data (segd k : Z) (l : list (Z * Z)) : Z :=
  match l with
  | [] => 0
  | (id, p) :: l => full L_Seek (k + full L_SeekID (get_id_length id) + full L_SeekPosition (usize (s64 (p - segd)))) + seek_data segd k l
  end.
Definition seek_full (segd k : Z) (l : list (Z * Z)) : Z := full L_SeekHead (k + seek_data segd k l).
(** MATROSKA_MetaSeekUpdate: what is stored. *)
Definition seek_stored (segd : Z) (l : list (Z * Z)) : list (Z * Z) := map (fun x => (fst x, s64 (snd x - segd))) l.

(** What there is to write: the elements before the Cues (Info, Tracks, Chapters, Attachments, Tags) with ID and
    size and the positions first supposed for them; the size of a checksum; the Cues with their first data size
    and position supposed; the data sizes of the clusters, the position supposed for the first. *)
Record job := mkJob {
  j_parts : list (Z * Z); j_est : list Z; j_chk : Z; j_safe : bool; j_void : Z;
  j_cues : list lcue; j_size : Z; j_cest : Z; j_bases : list Z; j_fest : Z }.
Definition sum (l : list Z) : Z := fold_right Z.add 0 l.
Definition first_pos (cp : list Z) (d : Z) : Z := match cp with p :: _ => p | [] => d end.
(** The elements in the SeekHead, mkclean.c 2106-2190, 2925-2950. *)
Definition seek_list (j : job) (pos : list Z) (cues first : Z) : list (Z * Z) :=
  combine (map fst (j_parts j)) pos ++ [(L_Cues, cues); (L_Cluster, first)].
(** The plan, mkclean.c 2952-3023, for a file with cues: the start of the Cues, their data size, the positions of
    the clusters and in the cue points, the size of the SeekHead when the Cues were placed and when it is written. *)
Record plan := mkPlan { pl_start : Z; pl_size : Z; pl_clus : list Z; pl_cues : list Z; pl_seek2 : Z; pl_seek3 : Z }.
Definition make_plan (fuel : nat) (segd : Z) (j : job) : res plan :=
  let psz := map snd (j_parts j) in
  let s1 := seek_full segd (j_chk j) (seek_list j (j_est j) (j_cest j) (j_fest j)) in
  let pos := place (segd + s1 + j_void j) psz in
  let s2 := seek_full segd (j_chk j) (seek_list j pos (j_cest j) (j_fest j)) in
  let start := segd + s1 + j_void j + sum psz + (s2 - s1) in
  do r <- settle fuel start segd (cluster_sizes (j_safe j) None (j_bases j)) (j_chk j) (j_cues j) (j_size j);
  let '(sz, cp, qp) := r in
  let s3 := seek_full segd (j_chk j) (seek_list j pos start (first_pos cp (j_fest j))) in
  Ok (mkPlan start sz cp qp s2 s3).

(** The file: the position of the data of the segment when it was begun and at the end, the SeekHead entries as
    stored, where the elements before the Cues, the Cues and the clusters are, what the cue points hold, the size
    given to the segment. *)
Record out := mkOut { o_segd : Z; o_segd' : Z; o_seek : list (Z * Z); o_parts : list Z; o_cues : Z; o_clus : list Z; o_held : list Z; o_size : Z; o_end : Z }.
Inductive written := Failed (code : Z) | File (o : out).
(** Writing, mkclean.c 3012-3187.  [spos] is the position of the size of the segment, [d0] and [l0] the data size
    and size length its head was first written with; [wsizes] the sizes the clusters have when written and
    [changed] tells whether WriteCluster changed one.  When the Cues are rewritten and have become smaller, a Void
    fills the gap. *)
Definition write_file (fuel : nat) (spos d0 l0 : Z) (j : job) (wsizes : list Z) (changed : bool) : res written :=
  let head0 := coded_size_length d0 l0 true in
  let segd := spos + head0 in
  do pl <- make_plan fuel segd j;
  let psz := map snd (j_parts j) in
  let pos := place (segd + pl_seek3 pl + j_void j) psz in
  let cues := segd + pl_seek3 pl + j_void j + sum psz in
  let csz := full L_Cues (pl_size pl) in
  let cp := place (cues + csz) wsizes in
  let size := pl_seek3 pl + j_void j + sum psz + csz + sum wsizes in
  do held <- (if changed then
                do r <- update_cues segd cp (j_cues j);
                let c := full L_Cues (j_chk j + snd r) in
                if (c + 2 <=? csz) || (c =? csz) then Ok (Some (fst r)) else Ok None
              else Ok (Some (pl_cues pl)));
  match held with
  | None => Ok (Failed (-18))
  | Some held =>
      let l := if coded_size_length size 0 true <? coded_size_length d0 0 true then coded_size_length d0 0 true else l0 in
      let segd' := spos + coded_size_length size l true in
      let seek := seek_list j pos cues (first_pos cp (j_fest j)) in
      if seek_full segd' (j_chk j) seek =? pl_seek3 pl then
        Ok (File (mkOut segd segd' (seek_stored segd' seek) pos cues cp held size (segd + size)))
      else Ok (Failed (-23))
  end.
