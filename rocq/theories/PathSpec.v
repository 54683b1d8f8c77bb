(** Specification of paths and URLs. *)
From Verif Require Import Base StrSpec.

Definition sep (c : Z) : Prop := c = 47 \/ c = 92.
Definition no_seps (s : list Z) : Prop := Forall (fun c => ~ sep c) s.
Definition blank (c : Z) : Prop := c = 32 \/ c = 9 \/ c = 13 \/ c = 10.

(** Schemes that name no host, by how they begin: file con res root mem pose vol slot simu local sdcard. *)
Definition local_names : list (list Z) :=
  [[102; 105; 108; 101]; [99; 111; 110]; [114; 101; 115]; [114; 111; 111; 116]; [109; 101; 109]; [112; 111; 115; 101]; [118; 111; 108]; [115; 108; 111; 116]; [115; 105; 109; 117];
   [108; 111; 99; 97; 108]; [115; 100; 99; 97; 114; 100]].
Definition local_scheme (sch : list Z) : Prop := exists a b n, sch = a ++ b /\ In n local_names /\ same_text a n.
(** [url] is [scheme]://[rest], after blanks. *)
Definition is_url (url blanks scheme rest : list Z) : Prop :=
  url = blanks ++ scheme ++ [58; 47; 47] ++ rest /\ Forall blank blanks /\ ~ In 58 scheme /\ match scheme with x :: _ => ~ blank x | [] => True end.
Definition no_url (s : list Z) : Prop := ~ exists b sch rest, is_url s b sch rest.

(** Directory, separator and file of a path. *)
Inductive dir_file : list Z -> list Z -> list Z -> Prop :=
| df_path dir c file : no_url (dir ++ c :: file) -> sep c -> no_seps file -> dir_file (dir ++ c :: file) dir file
| df_url b sch dir c file url : is_url url b sch (dir ++ c :: file) -> sep c -> no_seps file -> dir_file url (b ++ sch ++ [58; 47; 47] ++ dir) file
| df_host b sch host url : is_url url b sch host -> ~ local_scheme sch -> no_seps host -> dir_file url url []
| df_scheme b sch file url : is_url url b sch file -> local_scheme sch -> no_seps file -> dir_file url (b ++ sch ++ [58; 47; 47]) file
| df_name file : no_url file -> no_seps file -> dir_file file [] file.
(** The file without the fragment an http URL may have. *)
Definition http_url (url : list Z) : Prop := exists b sch rest, is_url url b sch rest /\ same_text sch [104; 116; 116; 112].
Definition no_fragment (url file res : list Z) : Prop :=
  (http_url url /\ exists frag, file = res ++ 35 :: frag /\ ~ In 35 frag) \/ ((~ http_url url \/ ~ In 35 file) /\ res = file).
(** Name and extension: what is before and after the last dot; a dot at the end counts as the extension. *)
Inductive name_ext : list Z -> list Z -> list Z -> Prop :=
| ne_ext name ext : ~ In 46 ext -> ext <> [] -> name_ext (name ++ 46 :: ext) name ext
| ne_dot name : name_ext (name ++ [46]) name [46]
| ne_none name : ~ In 46 name -> name_ext name name [].

(** A path relative to a directory: no separator, scheme or drive in front. *)
Definition relative (s : list Z) : Prop :=
  no_url s /\ match s with x :: _ => ~ sep x | [] => True end /\ (forall x r, s = x :: 58 :: r -> exists y r', r = y :: r' /\ y <> 92).

(** Components of a path after the first, each behind '/'. *)
Definition joined (c0 : list Z) (cs : list (list Z)) : list Z := c0 ++ concat (map (cons 47) cs).
Definition DOTDOT : list Z := [46; 46].
(** Going through the components, ".." takes the last one away; [None] if there is none. *)
Fixpoint walk (stack cs : list (list Z)) : option (list (list Z)) :=
  match cs with
  | [] => Some (rev stack)
  | c :: cs => if list_eq_dec Z.eq_dec c DOTDOT then match stack with [] => None | _ :: st => walk st cs end else walk (c :: stack) cs
  end.
(** A component: no '/', and not one that merely begins with "..". *)
Definition component (c : list Z) : Prop := ~ In 47 c /\ (c = DOTDOT \/ firstn 2 c <> DOTDOT).
(** The same components with any number of separators in front of each. *)
Definition spread (c0 : list Z) (cs : list (nat * list Z)) : list Z := c0 ++ concat (map (fun p => repeat 47 (S (fst p)) ++ snd p) cs).

(** Components are not empty, except perhaps the last one. *)
Definition solid (cs : list (nat * list Z)) : Prop := forall a c b, cs = a ++ c :: b -> b <> [] -> snd c <> [].
(** The text [pre] up to the first "://", if any, and the rest. *)
Definition body_of (s pre body : list Z) : Prop := (pre = [] /\ s = body /\ ~ exists a b, s = a ++ [58; 47; 47] ++ b) \/ exists x, pre = x ++ [58; 47; 47] /\ s = pre ++ body /\ ~ In 58 x.

(** A list of extensions with a type letter each: e1:T1;e2:T2;... *)
Fixpoint ext_list (l : list (list Z * Z)) : list Z :=
  match l with [] => [] | [(e, t)] => e ++ [58; t] | (e, t) :: l => e ++ 58 :: t :: 59 :: ext_list l end.
