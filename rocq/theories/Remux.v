(** How mkclean --remux distributes the blocks of the source over new clusters (mkclean/mkclean.c 2300-2705).
    The blocks of a track are in the order of the source; their data, keyframe flag and timestamps are those
    the library gives (MATROSKA_BlockTimestamp and others, modelled elsewhere).  Times are exact integers:
    sums that overflow int64_t are undefined in C and are not modelled.  Not modelled: --alt-3d, allocation
    failures, the messages, the elements of a BlockGroup other than its Block. *)
From Verif Require Import Base Tree Stream Frame BlockTime Arr.

(** A Block or SimpleBlock of the source: its timestamp, MATROSKA_BlockKeyframe, MATROSKA_BlockLaced, whether
    MATROSKA_BlockReadData succeeds, whether MATROSKA_BlockProcessFrameDurations succeeds, the Durations array
    after that call and the data of its frames. *)
Record blk := mkBlk { k_time : Z; k_key : bool; k_laced : bool; k_read : bool; k_durok : bool; k_durs : list Z; k_frames : list (list Z) }.
(** block_info, mkclean.c 114-120: the block and DecodeTime; FrameStartIndex is kept with the track. *)
Record binfo := mkBi { bi_blk : blk; bi_dec : Z }.

(** The loop that gives each block of a track its DecodeTime, mkclean.c 2396-2414; [prev] is BlockEnd. *)
Fixpoint decode_times (prev : Z) (l : list blk) : list binfo :=
  match l with
  | [] => []
  | b :: l' =>
      let d := match l' with
               | n :: _ => if negb (prev =? INVALID_TIMESTAMP) && (k_time n <? k_time b) then prev + Z.shiftr (k_time b - k_time n) 2 else k_time b
               | [] => k_time b
               end in
      mkBi b d :: decode_times d l'
  end.

(** The keyframes of the main track, mkclean.c 2416-2431. *)
Definition key_times (l : list binfo) : list Z := map bi_dec (filter (fun b => k_key (bi_blk b)) l).
(** TimcodeCmp, mkclean.c 835-844. *)
Definition timcode_cmp (a b : Z) : Z := if a =? b then 0 else if b <? a then 1 else -1.
(** Choosing the cluster boundaries, mkclean.c 2441-2458: [a] is KeyFrameTimestamps, [i] the place of Tst.
    ArrayRemove looks for the value with a binary search; when it does not find it the loop runs again unchanged. *)
Fixpoint thin (fuel : nat) (a : list Z) (i : nat) (prev : Z) : res (list Z) :=
  match nth_error a i with
  | None => Ok a
  | Some t =>
      match fuel with
      | O => Fuel
      | S f =>
          if negb (prev =? INVALID_TIMESTAMP) && (t <? prev + 1000000000) &&
             match nth_error a (S i) with Some n => n <? prev + 2000000000 | None => false end
          then do r <- opt_res (array_remove timcode_cmp a t); thin f (fst r) i prev
          else thin f a (S i) t
      end
  end.

(** MATROSKA_BlockGetFrameStart and MATROSKA_BlockGetFrameEnd, matroskablock.c 324-354; also the Timestamp
    that MATROSKA_BlockGetFrame gives (matroskamain.c 1571-1583) when the durations are there. *)
Fixpoint sum_durs (n : nat) (d : list Z) (acc : Z) : Z :=
  match n, d with
  | O, _ => acc
  | S n, x :: d => if x =? INVALID_TIMESTAMP then INVALID_TIMESTAMP else sum_durs n d (acc + x)
  | S _, [] => acc
  end.
Definition frame_start (b : blk) (i : nat) : Z :=
  if zlen (k_durs b) <=? Z.of_nat i then INVALID_TIMESTAMP
  else if k_time b =? INVALID_TIMESTAMP then INVALID_TIMESTAMP else sum_durs i (k_durs b) (k_time b).
Definition frame_dur (b : blk) (i : nat) : Z := nth i (k_durs b) INVALID_TIMESTAMP.
Definition frame_end (b : blk) (i : nat) : Z :=
  if frame_start b i =? INVALID_TIMESTAMP then INVALID_TIMESTAMP
  else if frame_dur b i =? INVALID_TIMESTAMP then INVALID_TIMESTAMP else frame_start b i + frame_dur b i.

(** What goes into a cluster: a block moved whole or a copy with some of its frames, with LocalTimestamp
    ([None] when the copy got none). *)
Record item := mkItem { i_blk : binfo; i_whole : bool; i_from : nat; i_frames : list (list Z); i_local : option Z }.

Section Remux.
(** [w] is the TimestampScale of the written segment info. *)
Context (w : option Z).

(** MATROSKA_BlockSetTimestamp for a block linked to a track and to the written segment info; [None] is ERR_INVALID_DATA. *)
Definition local_of (ts cts : Z) : res (option Z) :=
  do r <- block_set (mkT 0 false INVALID_TIMESTAMP None w true true) ts cts;
  Ok (if fst r =? ERR_NONE then Some (t_local (snd r)) else None).

(** The loops over the frames from FrameStartIndex, mkclean.c 2533-2540, 2560-2567, 2590-2597, 2622-2629: the new FrameStartIndex. *)
Fixpoint frames_until (dur : bool) (limit : Z) (b : blk) (i : nat) (l : list (list Z)) : nat :=
  match l with
  | [] => i
  | _ :: l => if dur && (limit <=? frame_end b i) then i else frames_until dur limit b (S i) l
  end.
(** The copy of the block with the frames of that loop: the new FrameStartIndex and what is appended to the
    cluster, if anything.  MATROSKA_BlockGetFrame fails when the block has no data (matroskamain.c 1566), its
    result is ignored and FrameData is not set: [Bad].  EBML_MasterAppend does not fail: the copy has no parent
    (matroskamain.c 1366, 1383). *)
Definition take_frames (dur : bool) (limit tst : Z) (bi : binfo) (start : nat) : res (nat * list item) :=
  let b := bi_blk bi in
  let i := frames_until dur limit b start (skipn start (k_frames b)) in
  let fs := firstn (i - start) (skipn start (k_frames b)) in
  match fs with
  | [] => Ok (i, [])
  | _ =>
      if zlen (concat (k_frames b)) =? 0 then Bad
      else
        do l <- (if frame_start b start =? INVALID_TIMESTAMP then Ok None else local_of (frame_start b start) tst);
        Ok (i, [mkItem bi false start fs l])
  end.

(** The blocks of a track other than the main one during one round, mkclean.c 2501-2696: the blocks from
    TrackBlockCurrIdx on, FrameStartIndex of the first of them, and what was appended; [None] is Result = -46.
    A block without frames is looked at for ever: [Fuel]. *)
Fixpoint other_loop (mainend masterend tst : Z) (start : nat) (l : list binfo) : res (option (list binfo * nat * list item)) :=
  match l with
  | [] => Ok (Some ([], O, []))
  | b :: l' =>
      let k := bi_blk b in
      let bend := match l' with [] => INVALID_TIMESTAMP | n :: _ => bi_dec n end in
      let go (pre : list item) :=
        do r <- other_loop mainend masterend tst O l';
        Ok (match r with None => None | Some (l, s, o) => Some (l, s, pre ++ o) end) in
      let whole :=
        match k_frames k with
        | [] => Fuel
        | _ => do p <- local_of (k_time k) tst;
               match p with
               | None => Ok None
               | Some p => go [mkItem b true O (k_frames k) (Some p)]
               end
        end in
      if mainend <? bi_dec b then Ok (Some (l, start, []))
      else match start with
      | S _ =>
          do r <- take_frames true masterend tst b start;
          if Nat.eqb (fst r) (length (k_frames k)) then go (snd r) else Ok (Some (l, fst r, snd r))
      | O =>
          if negb (mainend =? INVALID_TIMESTAMP) && (masterend <? bend) && k_laced k && k_read k then
            do r <- take_frames (k_durok k) masterend tst b O;
            if Nat.eqb (fst r) (length (k_frames k)) then Ok (Some (l, O, [])) else Ok (Some (l, fst r, snd r))
          else whole
      end
  end.

(** TrackBlocks, TrackBlockCurrIdx and FrameStartIndex by track number. *)
Definition tracks := Z -> list binfo * nat.
Definition tset (s : tracks) (t : Z) (v : list binfo * nat) : tracks := fun x => if x =? t then v else s x.

(** The loop over the tracks in their order up to the main one, mkclean.c 2501-2503. *)
Fixpoint others_loop (mainend masterend tst : Z) (order : list Z) (s : tracks) : res (option (tracks * list (Z * item))) :=
  match order with
  | [] => Ok (Some (s, []))
  | t :: order =>
      do r <- other_loop mainend masterend tst (snd (s t)) (fst (s t));
      match r with
      | None => Ok None
      | Some (l, st, o) =>
          do r <- others_loop mainend masterend tst order (tset s t (l, st));
          Ok (match r with None => None | Some (s, o') => Some (s, map (pair t) o ++ o') end)
      end
  end.

(** One round of the loop of a cluster, mkclean.c 2484-2702: up to the next block of the main track.  Gives
    ReachedClusterEnd, the tracks and what was appended. *)
Definition round (masterend tst : Z) (order : list Z) (main : Z) (s : tracks) : res (option (bool * tracks * list (Z * item))) :=
  match fst (s main) with
  | [] => Bad
  | b :: l =>
      let mainend := match l with [] => INVALID_TIMESTAMP | n :: _ => bi_dec n end in
      let reached := (mainend =? INVALID_TIMESTAMP) || (mainend =? masterend) in
      do r <- others_loop mainend masterend tst order s;
      match r with
      | None => Ok None
      | Some (s, o) =>
          match k_frames (bi_blk b) with
          | [] => Ok (Some (reached, s, o))
          | _ =>
              do p <- local_of (k_time (bi_blk b)) tst;
              Ok (match p with
                  | None => None
                  | Some p => Some (reached, tset s main (l, O), o ++ [(main, mkItem b true O (k_frames (bi_blk b)) (Some p))])
                  end)
          end
      end
  end.
(** The loop of a cluster, mkclean.c 2482. *)
Fixpoint cluster_loop (fuel : nat) (masterend tst : Z) (order : list Z) (main : Z) (s : tracks) : res (option (tracks * list (Z * item))) :=
  match fst (s main) with
  | [] => Ok (Some (s, []))
  | _ =>
      match fuel with
      | O => Fuel
      | S f =>
          do r <- round masterend tst order main s;
          match r with
          | None => Ok None
          | Some (true, s, o) => Ok (Some (s, o))
          | Some (false, s, o) =>
              do r <- cluster_loop f masterend tst order main s;
              Ok (match r with None => None | Some (s, o') => Some (s, o ++ o') end)
          end
      end
  end.
(** The loop over the clusters, mkclean.c 2464-2705. *)
Fixpoint clusters_loop (fuel : nat) (times : list Z) (order : list Z) (main : Z) (s : tracks) : res (option (tracks * list (Z * list (Z * item)))) :=
  match times with
  | [] => Ok (Some (s, []))
  | t :: times =>
      do r <- cluster_loop fuel (match times with [] => INVALID_TIMESTAMP | n :: _ => n end) t order main s;
      match r with
      | None => Ok None
      | Some (s, o) =>
          do r <- clusters_loop fuel times order main s;
          Ok (match r with None => None | Some (s, c) => Some (s, (t, o) :: c) end)
      end
  end.

(** The whole: [src] gives the blocks of each track, [order] the tracks other than [main] as GetMainTrack lists
    them (mkclean.c 730-742).  [NoKey] is "no keyframe found for track" (2427-2431; the exit code stays 0).
    With a single block in the main track mkclean.c 2495-2496 uses pBlockInfo, left at the end of the array by
    the loop of 2419: [Bad]. *)
Inductive outcome := NoKey | TooFar | Clusters (c : list (Z * list (Z * item))).
Definition remux (src : Z -> list blk) (order : list Z) (main : Z) : res outcome :=
  let s : tracks := fun t => (decode_times INVALID_TIMESTAMP (src t), O) in
  let keys := key_times (fst (s main)) in
  match keys with
  | [] => Ok NoKey
  | _ =>
      do times <- thin (length keys) keys O INVALID_TIMESTAMP;
      if Nat.eqb (length (src main)) 1 then Bad
      else
        do r <- clusters_loop (length (src main)) times order main s;
        Ok (match r with None => TooFar | Some (_, c) => Clusters c end)
  end.
End Remux.
