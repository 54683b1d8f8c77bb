(** What classes tell about their properties: corec/corec/node/node.c, NodeParamMeta 1553-1597, NodeClass_Str 1614-1618, MetaEnumClass and
    MetaEnum 2010-2034, MetaFindParam 2545-2561.

    Simplified: a description is the list of its entries, without the one that ends it; texts are told by their addresses; there is always
    memory for the list; the node that is asked about is one and does not change. *)
From Verif Require Import Base Tree Str.

(** nodemeta, nodebase.h; META_PARAM_NAME, _TYPE, _STRING, _META, nodebase.h 128-145. *)
Record entry := mkEntry { e_meta : Z; e_id : Z; e_data : Z }.
Definition NAME := 30. Definition TYPE := 31. Definition STRING := 44. Definition META := 50.
(** A class and what it derives from: their ids and descriptions ([None]: not registered). *)
Record cls := mkCls { k_id : Z; k_meta : option (list entry) }.
Definition entries (k : cls) : list entry := match k_meta k with Some l => l | None => [] end.

Section Told.
(** What the function at an address answers for the node, about a property; the texts the context has for a class (ExternalStr; [None]: NULL);
    the first character at an address; the empty text. *)
Context (ask : Z -> Z -> Z -> option Z) (ext : option (Z -> Z -> Z)) (first : Z -> Z) (EMPTY : Z).

(** The loop of 1561-1568. *)
Fixpoint scan (meta id : Z) (l : list entry) : option Z :=
  match l with
  | [] => None
  | m :: l =>
      if e_id m =? id then
        if e_meta m =? meta then Some (e_data m)
        else match (if e_meta m =? META then ask (e_data m) id meta else None) with Some d => Some d | None => scan meta id l end
      else scan meta id l
  end.
(** 1576-1582. *)
Fixpoint scan_asked (meta id : Z) (l : list entry) : option Z :=
  match l with
  | [] => None
  | m :: l => match (if (e_id m =? id) && (e_meta m =? META) then ask (e_data m) id meta else None) with Some d => Some d | None => scan_asked meta id l end
  end.
Fixpoint asked (meta id : Z) (ps : list cls) : option Z :=
  match ps with [] => None | k :: ps => match scan_asked meta id (entries k) with Some d => Some d | None => asked meta id ps end end.
(** 1587-1592. *)
Fixpoint external (e : Z -> Z -> Z) (id : Z) (c : list cls) : Z :=
  match c with
  | [] => EMPTY
  | k :: c => let d := e (k_id k) id in if negb (d =? 0) && negb (first d =? 0) then d else external e id c
  end.
(** NodeParamMeta. *)
Fixpoint param_meta (meta id : Z) (c : list cls) : Z :=
  match c with
  | [] => 0
  | k :: ps =>
      match scan meta id (entries k) with
      | Some d => d
      | None =>
          if meta =? STRING then
            match asked meta id ps with
            | Some d => d
            | None => match ext with Some e => external e id (k :: ps) | None => param_meta meta id ps end
            end
          else param_meta meta id ps
      end
  end.
(** NodeClass_Str. *)
Definition class_str (id : Z) (c : list cls) : Z := let s := param_meta STRING id c in if s =? 0 then EMPTY else s.

(** MetaEnum. *)
Fixpoint enum (c : list cls) : list Z :=
  match c with [] => [] | k :: ps => enum ps ++ map e_id (filter (fun m => e_meta m =? TYPE) (entries k)) end.

(** MetaFindParam; the text at an address, with its end. *)
Context (text_at : Z -> list Z).
Fixpoint find_in (token : list Z) (l : list entry) : res (option Z) :=
  match l with
  | [] => Ok None
  | m :: l => if e_meta m =? NAME then do b <- tcsisame_ascii token (text_at (e_data m)); if b then Ok (Some (e_id m)) else find_in token l else find_in token l
  end.
Fixpoint find_classes (token : list Z) (c : list cls) : res Z :=
  match c with [] => Ok 0 | k :: c => do r <- find_in token (entries k); match r with Some id => Ok id | None => find_classes token c end end.
Definition find_param (token : option (list Z)) (c : list cls) : res Z := match token with None => Ok 0 | Some t => find_classes t c end.
End Told.
