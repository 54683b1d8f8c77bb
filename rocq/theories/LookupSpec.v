(** What is to be found for a property. *)
From Verif Require Import Base Lookup.

(** The first entry of a kind for a property, from the class itself to the last it derives from. *)
Definition first_of (f : meta -> bool) (id : Z) (ms : list meta) (m : meta) : Prop :=
  exists a b, ms = a ++ m :: b /\ f m = true /\ m_id m = id /\ Forall (fun x => ~ (f x = true /\ m_id x = id)) a.
Definition none_of (f : meta -> bool) (id : Z) (ms : list meta) : Prop := Forall (fun x => ~ (f x = true /\ m_id x = id)) ms.
(** Descriptions as they are written: what is an event for a property is one for all that describe it, and data of one bit have their
    bit, in the same description. *)
Definition sound (f : meta -> bool) (c : chain) : Prop :=
  (forall x y, In x (concat c) -> In y (concat c) -> f x = true -> f y = true -> m_id x = m_id y -> m_kind x = KEvent -> m_kind y = KEvent) /\
  (forall ms x r, In ms c -> In x ms -> m_kind x = KData true r -> exists b, In b ms /\ m_kind b = KBit /\ m_id b = m_id x).
(** The filters take no bits. *)
Definition no_bits (f : meta -> bool) : Prop := forall m, m_kind m = KBit -> f m = false.
