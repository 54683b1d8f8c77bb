(** Specification of marks, lacing flags and the compression of tracks. *)
From Verif Require Import Base Ebml Tree Create Str StrSpec Cues CuesSpec Tracks TracksSpec Encode.

(** The blocks of the clusters. *)
Definition blocks_of (l : list mitem) : list mblock :=
  flat_map (fun i => match i with MGroup (Some b) => [b] | MSimple b => [b] | _ => [] end) l.
Definition laced (n : Z) (l : list mitem) : Prop := exists b, In b (blocks_of l) /\ m_num b = n /\ 1 < m_frames b.
(** [b'] is [b]; when its track is audio (2) or subtitles (17), a key frame that must not be dropped. *)
Definition marked (b b' : mblock) : Prop :=
  m_num b' = m_num b /\ m_type b' = m_type b /\ m_frames b' = m_frames b /\
  (m_type b = Some 2 \/ m_type b = Some 17 -> m_key b' = true /\ m_disc b' = false) /\
  (m_type b <> Some 2 -> m_type b <> Some 17 -> m_key b' = m_key b /\ m_disc b' = m_disc b).
Inductive marked_item : mitem -> mitem -> Prop :=
| mi_group b b' : marked b b' -> marked_item (MGroup (Some b)) (MGroup (Some b'))
| mi_empty : marked_item (MGroup None) (MGroup None)
| mi_simple b b' : marked b b' -> marked_item (MSimple b) (MSimple b')
| mi_other : marked_item MOther MOther.

Section Spec.
Context (E : schema).
(** The codec private data (0x63A2) of a track. *)
Definition private (t : elt) (p : option (list Z)) : Prop :=
  match p with None => none E 25506 (kids t) | Some d => exists j, only E 25506 (kids t) (Leaf j (VBin d)) end.
End Spec.
(** Compressing them saves more than [extra] bytes. *)
Definition gain (zl : list Z -> option Z) (extra : Z) (p : option (list Z)) : Prop :=
  exists d n, p = Some d /\ zl d = Some n /\ n + extra < zlen d.

(** Codecs that store plain data: S_USF, S_VOBSUB, S_HDMV/PGS, B_VOBBTN, V_UNCOMPRESSED in any case, and all
    that begin with A_PCM. *)
Definition plain_names : list (list Z) :=
  [[83; 95; 85; 83; 70]; [83; 95; 86; 79; 66; 83; 85; 66]; [83; 95; 72; 68; 77; 86; 47; 80; 71; 83]; [66; 95; 86; 79; 66; 66; 84; 78];
   [86; 95; 85; 78; 67; 79; 77; 80; 82; 69; 83; 83; 69; 68]].
Definition stores_plain (id : list Z) : Prop := (exists c, In c plain_names /\ same_text id c) \/ exists r, id = [65; 95; 80; 67; 77] ++ r.
