(** What a user of nodes expects of properties: the nearest declaration counts, and handlers add up. *)
From Verif Require Import Base Props.

(** A declaration takes part in reading, in setting or in unsetting. *)
Definition takes_part (w : want) (m : meta) : Prop :=
  match m with
  | MGet _ => w = WGet
  | MSet _ => w = WSet
  | MUnSet _ => w = WUnSet
  | MEvent _ => w <> WGet
  | MBit _ => False
  | MData _ _ flags _ => w = WGet \/ Z.testbit flags 0 = false
  end.
(** The first declaration with a property, in the class, then in its parent, and so on. *)
Definition nearest (P : entry -> Prop) (c : chain) (e : entry) : Prop :=
  exists before after, concat c = before ++ e :: after /\ P e /\ Forall (fun x => ~ P x) before.
Definition about (w : want) (id : Z) (e : entry) : Prop := e_id e = id /\ takes_part w (e_meta e).
Definition bit_of (id : Z) (e : entry) : Prop := e_id e = id /\ exists m, e_meta e = MBit m.
(** All handlers of an ID, the nearest class first. *)
Fixpoint handlers (id : Z) (l : list entry) : list Z :=
  match l with
  | mkE i (MEvent f) :: l => if Z.eq_dec i id then f :: handlers id l else handlers id l
  | _ :: l => handlers id l
  | [] => []
  end.
Inductive resolved (w : want) (c : chain) (id : Z) : action -> Prop :=
| R_none : Forall (fun e => ~ about w id e) (concat c) -> resolved w c id ANone
| R_call e f : nearest (about w id) c e -> In (e_meta e) [MGet f; MSet f; MUnSet f] -> resolved w c id (ACall f)
| R_events e f : nearest (about w id) c e -> e_meta e = MEvent f -> resolved w c id (AEvents (handlers id (concat c)))
| R_data e ty ofs fl u : nearest (about w id) c e -> e_meta e = MData ty ofs fl u -> ty <> 24 -> resolved w c id (AData ty ofs fl u None)
| R_bit e ofs fl u b m : nearest (about w id) c e -> e_meta e = MData 24 ofs fl u -> nearest (bit_of id) c b -> e_meta b = MBit m ->
    resolved w c id (AData 24 ofs fl u (Some m)).

(** Tables in order: an ID has only handlers or none; data in a bit has the bit in its class or in a parent of it;
    a class that declares a bit declares something else too. *)
Definition handlers_apart (w : want) (c : chain) : Prop :=
  forall a b f, In a (concat c) -> In b (concat c) -> e_id a = e_id b -> takes_part w (e_meta a) -> takes_part w (e_meta b) ->
    e_meta a = MEvent f -> exists g, e_meta b = MEvent g.
Definition bits_there (c : chain) : Prop :=
  forall p l s e ofs fl u, c = p ++ l :: s -> In e l -> e_meta e = MData 24 ofs fl u -> exists b, In b (concat (l :: s)) /\ bit_of (e_id e) b.
Definition bits_paired (w : want) (c : chain) : Prop :=
  forall l b m, In l c -> In b l -> e_meta b = MBit m -> exists e, In e l /\ takes_part w (e_meta e).
Definition tidy (w : want) (c : chain) : Prop := handlers_apart w c /\ bits_there c /\ bits_paired w c.

(** Data of a property in the object: the declaration that counts for reading and for setting is the same. *)
Definition keeps (c : chain) (id : Z) (e : entry) : Prop := nearest (fun x => about WGet id x \/ about WSet id x) c e.
Definition byte_list (l : list Z) : Prop := Forall (fun b => 0 <= b < 256) l.
(** Two places in the object have nothing in common: not the same bytes, or other bits of the same word. *)
Inductive apart : Z -> Z -> option Z -> Z -> Z -> option Z -> Prop :=
| ap_bytes ofs n m ofs' n' m' : ofs + n <= ofs' \/ ofs' + n' <= ofs -> apart ofs n m ofs' n' m'
| ap_bits ofs n m n' m' : Z.land m m' = 0 -> apart ofs n (Some m) ofs n' (Some m').
