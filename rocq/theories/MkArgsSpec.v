(** Specification of the command line of mkclean. *)
From Coq Require Import String Ascii.
From Verif Require Import Base Tree StrSpec Scan MkArgs.

(** The characters of a text. *)
Fixpoint txt (s : string) : list Z :=
  match s with EmptyString => [] | String c s => Z.of_nat (nat_of_ascii c) :: txt s end.

(** What is on the command line before the files: an option, or an option and its value. *)
Inductive item := Alone (name : list Z) | With (name val : list Z).
Definition name_of (i : item) : list Z := match i with Alone n => n | With n _ => n end.
Definition named (n : string) (i : item) : Prop := same_text (name_of i) (txt n).
Definition words (l : list item) : list (list Z) := concat (map (fun i => match i with Alone n => [n] | With n v => [n; v] end) l).

(** The names of the options, those with no value first. *)
Definition alone_names : list string :=
  ["--keep-cues"; "--remux"; "--live"; "--unsafe"; "--optimize"; "--optimize_nv"; "--regression"; "--no-optimize"; "--quiet"; "--version"; "--help"]%string.
Definition value_names : list string := ["--doctype"; "--timecodescale"; "--alt-3d"; "--compalgo"]%string.

Definition given (n : string) (l : list item) : Prop := exists i, In i l /\ named n i.
(** [v] is the value given last for an option. *)
Definition last_given (n : string) (l : list item) (v : list Z) : Prop :=
  exists a m b, l = a ++ With m v :: b /\ same_text m (txt n) /\ ~ given n b.

(** The document types by their numbers, and the profiles of the library: "matroska" 1 to 3, "webm", DivX, "matroska" 4 and 5. *)
Definition doctype (v : list Z) (profile : Z) : Prop :=
  In (v, profile) [(txt "1", 1); (txt "2", 2); (txt "3", 4); (txt "4", 8); (txt "5", 16); (txt "6", 32); (txt "7", 64)].

(** An argument the program gets: bytes other than zero that fit the buffer. *)
Definition arg_ok (full : Z) (a : list Z) : Prop := Forall (fun c => 0 < c < 256) a /\ zlen a < full.
(** Not the name of an option that stands alone, or of any option. *)
Definition no_flag (a : list Z) : Prop := forall n, In n alone_names -> ~ same_text a (txt n).
Definition no_option (a : list Z) : Prop := forall n, In n (alone_names ++ value_names) -> ~ same_text a (txt n).

(** The options can be used: their values are known ones, tracks are not negative. *)
Inductive item_ok (full : Z) : item -> Prop :=
| ok_alone n m : In m alone_names -> same_text n (txt m) -> arg_ok full n -> item_ok full (Alone n)
| ok_doctype n v d : same_text n (txt "--doctype") -> doctype v d -> arg_ok full n -> item_ok full (With n v)
| ok_scale n v k : same_text n (txt "--timecodescale") -> arg_ok full n -> arg_ok full v -> string_to_int64 (v ++ [0]) = Ok k -> item_ok full (With n v)
| ok_alt n v k : same_text n (txt "--alt-3d") -> arg_ok full n -> arg_ok full v -> string_to_int (v ++ [0]) 0 = Ok k -> 0 <= k -> item_ok full (With n v)
| ok_comp n : same_text n (txt "--compalgo") -> arg_ok full n -> item_ok full (With n (txt "0")).

(** What the options given ask for. *)
Record asked (l : list item) (s : settings) : Prop := {
  a_keep : o_keep s = true <-> given "--keep-cues" l;
  a_remux : o_remux s = true <-> given "--remux" l;
  a_live : o_live s = true <-> given "--live" l;
  a_unsafe : o_unsafe s = true <-> given "--unsafe" l;
  a_opt : o_opt s = true <-> given "--optimize" l \/ given "--optimize_nv" l;
  (* video is left alone if --optimize_nv is the last of the two *)
  a_optv : o_optv s = false <-> exists a i b, l = a ++ i :: b /\ named "--optimize_nv" i /\ ~ given "--optimize" b;
  a_noopt : o_noopt s = true <-> given "--no-optimize" l;
  a_regr : o_regr s = true <-> given "--regression" l;
  a_quiet : o_quiet s = true <-> given "--quiet" l;
  a_version : o_version s = true <-> given "--version" l \/ given "--help" l;
  a_usage : o_usage s = true <-> given "--help" l;
  a_dst0 : ~ given "--doctype" l -> o_dst s = 0;
  a_dst : forall v, last_given "--doctype" l v -> doctype v (o_dst s);
  a_scale0 : ~ given "--timecodescale" l -> o_scale s = 0;
  a_scale : forall v, last_given "--timecodescale" l v -> string_to_int64 (v ++ [0]) = Ok (o_scale s);
  a_zlib : o_zlib s = true <-> given "--compalgo" l;
  (* the tracks with alternate fields *)
  a_alt0 : o_alt s = [] <-> ~ given "--alt-3d" l;
  a_alt : forall id, 0 <= id -> (nth (Z.to_nat id) (o_alt s) false = true <-> exists n v, In (With n v) l /\ same_text n (txt "--alt-3d") /\ string_to_int (v ++ [0]) 0 = Ok id) }.
