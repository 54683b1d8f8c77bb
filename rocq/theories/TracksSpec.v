(** What a track declares, independently of the functions that set and read it. *)
From Verif Require Import Base Ebml Tree Create Block Cues CuesSpec Tracks.

Section Spec.
Context (E : schema).
(** [d] is the only one of [l] with that ID; none has it. *)
Definition only (id : Z) (l : list elt) (d : elt) : Prop :=
  exists l1 l2, l = l1 ++ d :: l2 /\ has_id E id d /\ Forall (fun x => ~ has_id E id x) (l1 ++ l2).
Definition none (id : Z) (l : list elt) : Prop := Forall (fun x => ~ has_id E id x) l.
Definition kids (e : elt) : list elt := match e with Master _ _ ch => ch | Leaf _ _ => [] end.
(** The other children. *)
Definition others (id : Z) (l l' : list elt) : Prop :=
  filter (fun x => negb (kind_id E (e_kind (einfo x)) =? id)) l' = filter (fun x => negb (kind_id E (e_kind (einfo x)) =? id)) l.
(** One ContentEncodings (0x6D80) with one ContentEncoding (0x6240), whose scope (0x5032) is [scope], with
    one ContentCompression (0x5034) of algorithm (0x4254) [algo] and settings (0x4255) [st]. *)
Definition declares (t : elt) (scope algo : Z) (st : option (list Z)) : Prop :=
  exists i k ch enc cp j, only 28032 (kids t) (Master i k ch) /\ ch = [enc] /\ has_id E 25152 enc /\
    only 20530 (kids enc) (Leaf j (VInt scope)) /\ only 20532 (kids enc) cp /\
    (exists j, only 16980 (kids cp) (Leaf j (VInt algo))) /\
    match st with None => none 16981 (kids cp) | Some s => exists j, only 16981 (kids cp) (Leaf j (VBin s)) end.
(** A track with at most one ContentEncodings. *)
Definition plain_track (t : elt) : Prop :=
  exists i k ch, t = Master i k ch /\ (none 28032 ch \/ exists d, only 28032 ch d).
(** Its number, 0xD7. *)
Definition track_no (t : elt) (n : Z) : Prop := exists j, first_elt E 215 (kids t) (Leaf j (VInt n)) /\ e_set j = true.
(** Its number is missing or has no value. *)
Definition no_number (t : elt) : Prop :=
  none 215 (kids t) \/ exists d, first_elt E 215 (kids t) d /\ e_set (einfo d) = false.
(** [a] is the address of the first track of the list with number [n]; none has it. *)
Definition other_no (n : Z) (t : elt) : Prop := no_number t \/ exists m, track_no t m /\ m <> n.
Definition first_track (h : Z -> option elt) (tracks : list Z) (n a : Z) (t : elt) : Prop :=
  exists r1 r2, tracks = r1 ++ a :: r2 /\ h a = Some t /\ track_no t n /\ Forall (fun b => exists u, h b = Some u /\ other_no n u) r1.
Definition no_track (h : Z -> option elt) (tracks : list Z) (n : Z) : Prop := Forall (fun b => exists u, h b = Some u /\ other_no n u) tracks.
(** A track without compression. *)
Definition uncompressed (t : elt) : Prop := none 28032 (kids t).
End Spec.

(** The same block with other links, another flag for its size and frames longer by [n] bytes. *)
Definition same_block (n : Z) (b b' : block) : Prop :=
  b_simple b' = b_simple b /\ b_set b' = b_set b /\ b_dsize b' = b_dsize b /\ b_dpos b' = b_dpos b /\ b_track b' = b_track b /\ b_time b' = b_time b /\
  b_tused b' = b_tused b /\ b_key b' = b_key b /\ b_disc b' = b_disc b /\ b_invis b' = b_invis b /\ b_lacing b' = b_lacing b /\ b_first b' = b_first b /\
  b_sizes b' = map (fun s => s32 (s + n)) (b_sizes b) /\ b_sizes_in b' = b_sizes_in b /\ b_data b' = b_data b /\ b_durs b' = b_durs b.
Definition same_block0 (b b' : block) : Prop :=
  b_simple b' = b_simple b /\ b_set b' = b_set b /\ b_dsize b' = b_dsize b /\ b_dpos b' = b_dpos b /\ b_track b' = b_track b /\ b_time b' = b_time b /\
  b_tused b' = b_tused b /\ b_key b' = b_key b /\ b_disc b' = b_disc b /\ b_invis b' = b_invis b /\ b_lacing b' = b_lacing b /\ b_first b' = b_first b /\
  b_sizes b' = b_sizes b /\ b_sizes_in b' = b_sizes_in b /\ b_data b' = b_data b /\ b_durs b' = b_durs b.

(** ** What is left of a cluster *)
(** [l'] is [l] linked to the first track with its number, and to the segment info, for reading and
    writing. *)
Definition linked (E : schema) (h : Z -> option elt) (tracks : list Z) (inf : Z) (l l' : lblock) : Prop :=
  exists a t, first_track E h tracks (b_track (l_b l)) a t /\ l_rt l' = a /\ l_wt l' = a /\ l_ri l' = inf /\ l_wi l' = inf /\ same_block0 (l_b l) (l_b l').
(** [l'] is [l] linked to the segment info only. *)
Definition unlinked (E : schema) (h : Z -> option elt) (tracks : list Z) (inf : Z) (l l' : lblock) : Prop :=
  no_track E h tracks (b_track (l_b l)) /\ l_rt l' = l_rt l /\ l_wt l' = l_wt l /\ l_ri l' = inf /\ l_wi l' = inf /\ same_block0 (l_b l) (l_b l').
Definition stays (E : schema) (h : Z -> option elt) (tracks : list Z) (inf : Z) (keep : bool) (l l' : lblock) : Prop :=
  linked E h tracks inf l l' \/ (keep = true /\ unlinked E h tracks inf l l').
(** The first block of a group. *)
Inductive first_block : list gitem -> list gitem -> lblock -> list gitem -> Prop :=
| first_block_intro pre l g : Forall (fun x => match x with GBlock _ => False | GOther _ => True end) pre -> first_block (pre ++ GBlock l :: g) pre l g.
Inductive left_of (E : schema) (h : Z -> option elt) (tracks : list Z) (inf : Z) (keep : bool) : list citem -> list citem -> Prop :=
| left_nil : left_of E h tracks inf keep [] []
| left_other e c c' : left_of E h tracks inf keep c c' -> left_of E h tracks inf keep (IOther e :: c) (IOther e :: c')
| left_simple l l' c c' : stays E h tracks inf keep l l' -> left_of E h tracks inf keep c c' -> left_of E h tracks inf keep (ISimple l :: c) (ISimple l' :: c')
| left_simple_gone l c c' : keep = false -> no_track E h tracks (b_track (l_b l)) -> left_of E h tracks inf keep c c' ->
    left_of E h tracks inf keep (ISimple l :: c) c'
| left_group g pre l r l' c c' : first_block g pre l r -> stays E h tracks inf keep l l' -> left_of E h tracks inf keep c c' ->
    left_of E h tracks inf keep (IGroup g :: c) (IGroup (pre ++ GBlock l' :: r) :: c')
| left_group_gone g pre l r c c' : first_block g pre l r -> keep = false -> no_track E h tracks (b_track (l_b l)) -> left_of E h tracks inf keep c c' ->
    left_of E h tracks inf keep (IGroup g :: c) c'
| left_group_none g c c' : Forall (fun x => match x with GBlock _ => False | GOther _ => True end) g -> left_of E h tracks inf keep c c' ->
    left_of E h tracks inf keep (IGroup g :: c) (IGroup g :: c').
(** The blocks that count: SimpleBlocks and the first Block of each group. *)
Definition group_head (g : list gitem) : list lblock :=
  match filter (fun x => match x with GBlock _ => true | GOther _ => false end) g with GBlock l :: _ => [l] | _ => [] end.
Definition heads (c : citem) : list lblock := match c with IGroup g => group_head g | ISimple l => [l] | IOther _ => [] end.
