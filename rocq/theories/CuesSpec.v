(** What cue points, seek entries and clusters mean. *)
From Verif Require Import Base Ebml Tree Create Frame BlockTime BlockTimeProofs Cues.

Section Spec.
Context (E : schema).
Definition has_id (id : Z) (e : elt) : Prop := kind_id E (e_kind (einfo e)) = id.
(** [d] is the first of [l] with that ID. *)
Definition first_elt (id : Z) (l : list elt) (d : elt) : Prop :=
  exists l1 l2, l = l1 ++ d :: l2 /\ has_id id d /\ Forall (fun x => ~ has_id id x) l1.
(** A cue point for time [t] (in nanoseconds, with the scale of the linked segment info), track [n] and
    a cluster [p] bytes into the segment; IDs 0xBB, 0xB3, 0xB7, 0xF7 and 0xF1. *)
Definition is_cue (q : cue) (t n p : Z) : Prop :=
  exists i k ch, q_elt q = Master i k ch /\ has_id 187 (q_elt q) /\
    (exists j v, first_elt 179 ch (Leaf j (VInt v)) /\ t = v * seg_scale (q_seg q) /\ - 2 ^ 63 <= t < 2 ^ 63) /\
    exists j kk cp, first_elt 183 ch (Master j kk cp) /\
      (exists j v, first_elt 247 cp (Leaf j (VInt v)) /\ n = v /\ 0 <= n < 2 ^ 16) /\
      (exists j, first_elt 241 cp (Leaf j (VInt p))).
(** Order of cue points: time, then track. *)
Definition cue_le (a b : cue) : Prop := forall ta na pa tb nb pb, is_cue a ta na pa -> is_cue b tb nb pb -> ta < tb \/ (ta = tb /\ na <= nb).
(** Some cue point. *)
Definition a_cue (q : cue) : Prop := exists t n p, is_cue q t n p.
(** Its time compared with [ts]. *)
Definition not_after (ts : Z) (q : cue) : Prop := exists t n p, is_cue q t n p /\ t <= ts.
Definition after (ts : Z) (q : cue) : Prop := exists t n p, is_cue q t n p /\ ts < t.
End Spec.

(** The blocks of a cluster with where they are, in file order. *)
Fixpoint group_places (n m : nat) (l : list (option (Z * tblock))) : list (nat * nat * (Z * tblock)) :=
  match l with
  | [] => []
  | Some kb :: l => (n, m, kb) :: group_places n (S m) l
  | None :: l => group_places n (S m) l
  end.
Fixpoint places (n : nat) (l : list cchild) : list (nat * nat * (Z * tblock)) :=
  match l with
  | [] => []
  | CGroup g :: l => group_places n 0 g ++ places (S n) l
  | CSimple k b :: l => (n, 0%nat, (k, b)) :: places (S n) l
  | COther :: l => places (S n) l
  end.
(** A block of a cluster at time [ct], linked to a track and a segment info of scale [s] for reading and
    writing, is at time [t]. *)
Definition block_at (ct s : Z) (b : tblock) (t : Z) : Prop :=
  t_rtrack b = true /\ t_wtrack b = true /\ seg_scale (t_rseg b) = s /\ seg_scale (t_wseg b) = s /\ t_global b = INVALID_TIMESTAMP /\
  -32768 <= t_local b <= 32767 /\ t = ct + t_local b * s.
(** The timestamp of a cluster. *)
Definition at_time (ct : Z) (c : clus) : Prop := exists c', cluster_time c = (ct, c').
(** A place with a block of that track and time. *)
Definition matches (ct s track ts : Z) (p : nat * nat * (Z * tblock)) : Prop := fst (snd p) = track /\ block_at ct s (snd (snd p)) ts.
Definition timed (ct s : Z) (p : nat * nat * (Z * tblock)) : Prop := 0 <= fst (snd p) < 2 ^ 16 /\ exists t, block_at ct s (snd (snd p)) t /\ big t.
(** The children a Seek entry may already have. *)
Definition seek_ready (e : elt) : Prop :=
  exists i k ch, e = Master i k ch /\ e_kind i = Known 10 /\
    (forall d, find_child mk_E ID_SeekID ch = Some d -> exists j v, d = Leaf j (VBin v)) /\
    (forall d, find_child mk_E ID_SeekPosition ch = Some d -> exists j v, d = Leaf j (VInt v)).
