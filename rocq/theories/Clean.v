(** Pieces of mkclean (mkclean/mkclean.c): the common header of the frames of a track, the main track, new cue
    points, looking for the block of a cue point, the times of written clusters, the scale of timestamps. *)
From Verif Require Import Base Tree Stream Frame BlockTime.

(** The TimestampScale used when none is asked for, mkclean.c 1875-1881; int64_t shifts wrap. *)
Fixpoint scale_loop (fuel : nat) (s : Z) : option Z :=
  if s <? 100000 then match fuel with O => None | S f => scale_loop f (s64 (2 * s)) end else Some s.

(** A block as ShrinkCommonHeader sees it: whether MATROSKA_BlockReadData succeeds, BlockIsCompressed, the frames. *)
Record hblock := mkHB { hb_read : bool; hb_comp : bool; hb_frames : list (list Z) }.
(** TrackHeader: not used yet (TABLE_MARKER) or the bytes. *)
Inductive hdr := HNew | HVal (h : list Z).
(** The loop that counts EqualData, mkclean.c 1462-1469, and the shrinking, 1470-1471. *)
Fixpoint common (h f : list Z) : list Z :=
  match h, f with
  | x :: h, y :: f => if x =? y then x :: common h f else []
  | _, _ => []
  end.
(** The loop over the frames, mkclean.c 1458-1474: it stops when nothing is left. *)
Fixpoint shrink_frames (h : list Z) (l : list (list Z)) : list Z :=
  match l with
  | [] => h
  | f :: l => match common h f with [] => [] | h => shrink_frames h l end
  end.
(** ShrinkCommonHeader, mkclean.c 1436-1476. *)
Definition shrink (t : hdr) (b : hblock) : hdr :=
  match t with
  | HVal [] => t
  | _ =>
      if negb (hb_read b) then t
      else if hb_comp b then t
      else match t, hb_frames b with
           | HNew, [] => HNew
           | HNew, f :: l => HVal (shrink_frames f l)
           | HVal h, l => HVal (shrink_frames h l)
           end
  end.
(** The header of a track after all its blocks, with InitCommonHeader and ClearCommonHeader (mkclean.c 1402-1406,
    1478-1484, 2237-2284). *)
Definition header_of (l : list hblock) : list Z := match fold_left shrink l HNew with HNew => [] | HVal h => h end.

(** GetMainTrack, mkclean.c 699-749: the tracks as number and type ([None] without a TrackType element); gives
    the main track and TrackOrder.  A track without a type dereferences NULL; the audio search looks at all the
    tracks again. *)
Fixpoint first_type (ty : Z) (l : list (Z * option Z)) : res (option Z) :=
  match l with
  | [] => Ok None
  | (n, None) :: _ => Null
  | (n, Some t) :: l => if t =? ty then Ok (Some n) else first_type ty l
  end.
Definition TYPE_VIDEO : Z := 1.
Definition TYPE_AUDIO : Z := 2.
Fixpoint order_but (k : nat) (l : list (Z * option Z)) : list Z :=
  match l with
  | [] => []
  | (n, _) :: l => match k with O => map fst l | S k => n :: order_but k l end
  end.
(** The place of the first track of a type. *)
Fixpoint place_type (ty : Z) (l : list (Z * option Z)) : nat :=
  match l with
  | (_, Some t) :: l => if t =? ty then O else S (place_type ty l)
  | _ :: l => S (place_type ty l)
  | [] => O
  end.
Definition get_main_track (l : list (Z * option Z)) : res (option Z * list Z) :=
  do v <- first_type TYPE_VIDEO l;
  match v with
  | Some n => Ok (Some n, order_but (place_type TYPE_VIDEO l) l ++ [n])
  | None =>
      do a <- first_type TYPE_AUDIO l;
      Ok (match a with Some n => (Some n, order_but (place_type TYPE_AUDIO l) l ++ [n]) | None => (None, map fst l) end)
  end.

(** The children of a cluster as GenerateCueEntries sees them: a SimpleBlock with its track number, keyframe flag
    and time; a BlockGroup with its Block and ReferenceBlock elements in order; others. *)
Inductive gin := GBlock (n t : Z) | GRef | GElse.
Inductive gchild := GSimple (n : Z) (key : bool) (t : Z) | GGroup (l : list gin) | GOther.
(** The loop over a BlockGroup, mkclean.c 795-803: the last Block, unless there is a ReferenceBlock. *)
Fixpoint last_block (l : list gin) (b : option (Z * Z)) : option (Z * Z) :=
  match l with
  | [] => b
  | GBlock n t :: l => last_block l (Some (n, t))
  | _ :: l => last_block l b
  end.
Fixpoint has_ref (l : list gin) : bool := match l with [] => false | GRef :: _ => true | _ :: l => has_ref l end.
Definition key_block (c : gchild) : option (Z * Z) :=
  match c with
  | GSimple n k t => if k then Some (n, t) else None
  | GGroup l => if has_ref l then None else last_block l None
  | GOther => None
  end.
(** The loop over a cluster, mkclean.c 786-821: the time of the first keyframe of the track; MATROSKA_BlockTrackNum
    is an int16_t. *)
Fixpoint first_key (main : Z) (l : list gchild) : option Z :=
  match l with
  | [] => None
  | c :: l =>
      match key_block c with
      | Some (n, t) => if s16 n =? main then Some t else first_key main l
      | None => first_key main l
      end
  end.
(** The loop over the clusters, mkclean.c 782-823: the new cue points as place of the cluster and time. *)
Fixpoint gen_cues (main : Z) (i : nat) (prev : Z) (cl : list (list gchild)) : list (nat * Z) :=
  match cl with
  | [] => []
  | c :: cl =>
      match first_key main c with
      | None => gen_cues main (S i) prev cl
      | Some t =>
          if (s64 (t - prev) <? 800000000) && negb (prev =? INVALID_TIMESTAMP) then gen_cues main (S i) prev cl
          else (i, t) :: gen_cues main (S i) t cl
      end
  end.
(** GenerateCueEntries, mkclean.c 751-833: false when there is none. *)
Definition generate_cues (main : Z) (cl : list (list gchild)) : bool * list (nat * Z) :=
  let q := gen_cues main O INVALID_TIMESTAMP cl in (match q with [] => false | _ => true end, q).

(** LinkCueCluster, mkclean.c 411-449: [has] tells whether MATROSKA_GetBlockForTimestamp finds the block in the
    cluster; seven clusters from the last one found, then all of them; the place of the cluster found. *)
Fixpoint find_from {C} (has : C -> bool) (n : nat) (i : nat) (l : list C) : option nat :=
  match l, n with
  | c :: l, S n => if has c then Some i else find_from has n (S i) l
  | _, _ => None
  end.
Definition link_cue {C} (has : C -> bool) (cl : list C) (start : option nat) : option nat :=
  match (match start with Some k => find_from has 7 k (skipn k cl) | None => None end) with
  | Some i => Some i
  | None => find_from has (length cl) O cl
  end.
(** The loop of OptimizeCues over the cue points, mkclean.c 548-550. *)
Fixpoint link_cues {C Q} (has : Q -> C -> bool) (cl : list C) (start : option nat) (q : list Q) : list (option nat) :=
  match q with
  | [] => []
  | x :: q => let r := link_cue (has x) cl start in r :: link_cues has cl r q
  end.

(** WriteCluster, mkclean.c 657-689, for the times of a cluster and its blocks: [prev] is PrevTimestamp. *)
Definition write_cluster (prev : Z) (c : clus) (l : list tblock) : res (Z * clus * list tblock) :=
  do r <- (if negb (prev =? INVALID_TIMESTAMP) then
             let '(t, c) := cluster_time c in
             if t <=? prev then cluster_set c l (s64 (prev + seg_scale (cl_wseg c))) else Ok (c, l)
           else Ok (c, l));
  let '(c, l) := r in
  let '(t, c) := cluster_time c in
  Ok (t, c, l).
Fixpoint write_clusters (prev : Z) (cl : list (clus * list tblock)) : res (list (clus * list tblock)) :=
  match cl with
  | [] => Ok []
  | (c, l) :: cl =>
      do r <- write_cluster prev c l;
      let '(t, c, l) := r in
      do cl <- write_clusters t cl;
      Ok ((c, l) :: cl)
  end.
