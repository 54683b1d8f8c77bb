(** Model of the command line of mkclean, mkclean/mkclean.c main 1556-1651, 1653-1679 and 1704-1726.

    An argument is its characters before the terminator, as nonzero bytes; Node_FromStr and Node_FromUTF8 leave the
    characters as they are and cut the text to Path.  [i+1<argc-1] says that two arguments or more follow the present one,
    InputPathIndex is the list of the arguments from it on.  The texts printed and the usage are left out. *)
From Verif Require Import Base Tree Str Scan Path.

(** matroska.h 22-28. *)
Definition P_V1 := 1. Definition P_V2 := 2. Definition P_V3 := 4. Definition P_WEBM := 8. Definition P_DIVX := 16. Definition P_V4 := 32. Definition P_V5 := 64.

(** The settings, 161-169 and 1517-1533; [o_alt] is Alternate3DTracks, true for MARKER3D. *)
Record settings := Set_ {
  o_keep : bool; o_remux : bool; o_live : bool; o_unsafe : bool; o_opt : bool; o_optv : bool; o_noopt : bool; o_regr : bool; o_quiet : bool;
  o_version : bool; o_usage : bool; o_dst : Z; o_scale : Z; o_zlib : bool; o_alt : list bool }.
Definition settings0 : settings := Set_ false false false false false true false false false false false 0 0 false [].

(** --keep-cues, --remux, --live, --doctype, --timecodescale, --alt-3d, --unsafe, --optimize, --optimize_nv, --compalgo, --regression, --no-optimize, --quiet, --version, --help. *)
Definition N_KEEP := [45; 45; 107; 101; 101; 112; 45; 99; 117; 101; 115].
Definition N_REMUX := [45; 45; 114; 101; 109; 117; 120].
Definition N_LIVE := [45; 45; 108; 105; 118; 101].
Definition N_DOCTYPE := [45; 45; 100; 111; 99; 116; 121; 112; 101].
Definition N_SCALE := [45; 45; 116; 105; 109; 101; 99; 111; 100; 101; 115; 99; 97; 108; 101].
Definition N_ALT := [45; 45; 97; 108; 116; 45; 51; 100].
Definition N_UNSAFE := [45; 45; 117; 110; 115; 97; 102; 101].
Definition N_OPT := [45; 45; 111; 112; 116; 105; 109; 105; 122; 101].
Definition N_OPTNV := [45; 45; 111; 112; 116; 105; 109; 105; 122; 101; 95; 110; 118].
Definition N_COMP := [45; 45; 99; 111; 109; 112; 97; 108; 103; 111].
Definition N_REGR := [45; 45; 114; 101; 103; 114; 101; 115; 115; 105; 111; 110].
Definition N_NOOPT := [45; 45; 110; 111; 45; 111; 112; 116; 105; 109; 105; 122; 101].
Definition N_QUIET := [45; 45; 113; 117; 105; 101; 116].
Definition N_VERSION := [45; 45; 118; 101; 114; 115; 105; 111; 110].
Definition N_HELP := [45; 45; 104; 101; 108; 112].

Definition set_keep s := Set_ true (o_remux s) (o_live s) (o_unsafe s) (o_opt s) (o_optv s) (o_noopt s) (o_regr s) (o_quiet s) (o_version s) (o_usage s) (o_dst s) (o_scale s) (o_zlib s) (o_alt s).
Definition set_remux s := Set_ (o_keep s) true (o_live s) (o_unsafe s) (o_opt s) (o_optv s) (o_noopt s) (o_regr s) (o_quiet s) (o_version s) (o_usage s) (o_dst s) (o_scale s) (o_zlib s) (o_alt s).
Definition set_live s := Set_ (o_keep s) (o_remux s) true (o_unsafe s) (o_opt s) (o_optv s) (o_noopt s) (o_regr s) (o_quiet s) (o_version s) (o_usage s) (o_dst s) (o_scale s) (o_zlib s) (o_alt s).
Definition set_unsafe s := Set_ (o_keep s) (o_remux s) (o_live s) true (o_opt s) (o_optv s) (o_noopt s) (o_regr s) (o_quiet s) (o_version s) (o_usage s) (o_dst s) (o_scale s) (o_zlib s) (o_alt s).
Definition set_opt v s := Set_ (o_keep s) (o_remux s) (o_live s) (o_unsafe s) true v (o_noopt s) (o_regr s) (o_quiet s) (o_version s) (o_usage s) (o_dst s) (o_scale s) (o_zlib s) (o_alt s).
Definition set_noopt s := Set_ (o_keep s) (o_remux s) (o_live s) (o_unsafe s) (o_opt s) (o_optv s) true (o_regr s) (o_quiet s) (o_version s) (o_usage s) (o_dst s) (o_scale s) (o_zlib s) (o_alt s).
Definition set_regr s := Set_ (o_keep s) (o_remux s) (o_live s) (o_unsafe s) (o_opt s) (o_optv s) (o_noopt s) true (o_quiet s) (o_version s) (o_usage s) (o_dst s) (o_scale s) (o_zlib s) (o_alt s).
Definition set_quiet s := Set_ (o_keep s) (o_remux s) (o_live s) (o_unsafe s) (o_opt s) (o_optv s) (o_noopt s) (o_regr s) true (o_version s) (o_usage s) (o_dst s) (o_scale s) (o_zlib s) (o_alt s).
Definition set_version u s := Set_ (o_keep s) (o_remux s) (o_live s) (o_unsafe s) (o_opt s) (o_optv s) (o_noopt s) (o_regr s) (o_quiet s) true (u || o_usage s) (o_dst s) (o_scale s) (o_zlib s) (o_alt s).
Definition set_dst d s := Set_ (o_keep s) (o_remux s) (o_live s) (o_unsafe s) (o_opt s) (o_optv s) (o_noopt s) (o_regr s) (o_quiet s) (o_version s) (o_usage s) d (o_scale s) (o_zlib s) (o_alt s).
Definition set_scale d s := Set_ (o_keep s) (o_remux s) (o_live s) (o_unsafe s) (o_opt s) (o_optv s) (o_noopt s) (o_regr s) (o_quiet s) (o_version s) (o_usage s) (o_dst s) d (o_zlib s) (o_alt s).
Definition set_zlib s := Set_ (o_keep s) (o_remux s) (o_live s) (o_unsafe s) (o_opt s) (o_optv s) (o_noopt s) (o_regr s) (o_quiet s) (o_version s) (o_usage s) (o_dst s) (o_scale s) true (o_alt s).
Definition set_alt l s := Set_ (o_keep s) (o_remux s) (o_live s) (o_unsafe s) (o_opt s) (o_optv s) (o_noopt s) (o_regr s) (o_quiet s) (o_version s) (o_usage s) (o_dst s) (o_scale s) (o_zlib s) l.

(** tcsisame_ascii(Path,T("..")). *)
Definition same (p n : list Z) : bool := match tcsisame_ascii (p ++ [0]) (n ++ [0]) with Ok b => b | _ => false end.

(** The options with no value, 1563-1649; all names differ, the order of the tests does not matter. *)
Definition flag (p : list Z) : option (settings -> settings) :=
  if same p N_KEEP then Some set_keep
  else if same p N_REMUX then Some set_remux
  else if same p N_LIVE then Some set_live
  else if same p N_UNSAFE then Some set_unsafe
  else if same p N_OPT then Some (set_opt true)
  else if same p N_OPTNV then Some (set_opt false)
  else if same p N_REGR then Some set_regr
  else if same p N_NOOPT then Some set_noopt
  else if same p N_QUIET then Some set_quiet
  else if same p N_VERSION then Some (set_version false)
  else if same p N_HELP then Some (set_version true)
  else None.
(** --doctype, 1573-1586 (then Result is -8). *)
Definition doctype_of (v : list Z) : option Z :=
  if same v [49] then Some P_V1 else if same v [50] then Some P_V2 else if same v [51] then Some P_V3 else if same v [52] then Some P_WEBM
  else if same v [53] then Some P_DIVX else if same v [54] then Some P_V4 else if same v [55] then Some P_V5 else None.
(** --alt-3d, 1614-1621: the array gets longer, its new places are zero.  A negative number is a huge TrackId: it writes outside. *)
Definition mark_alt (l : list bool) (id : Z) : res (list bool) :=
  if id <? 0 then Bad
  else
    let n := Z.to_nat id in
    let l := if (length l <? n + 1)%nat then l ++ repeat false (n + 1 - length l) else l in
    Ok (firstn n l ++ true :: skipn (n + 1) l).
(** What happens to an option with a value: its new settings, or Result = -8 ([None]). *)
Definition value (p v : list Z) (s : settings) : option (res (option settings)) :=
  if same p N_DOCTYPE then Some (Ok (option_map (fun d => set_dst d s) (doctype_of v)))
  else if same p N_SCALE then Some (do n <- string_to_int64 (v ++ [0]); Ok (Some (set_scale n s)))
  else if same p N_ALT then Some (do n <- string_to_int (v ++ [0]) 0; do l <- mark_alt (o_alt s) n; Ok (Some (set_alt l s)))
  else if same p N_COMP then Some (Ok (if same v [48] then Some (set_zlib s) else None))
  else None.

Section Args.
(** MAXPATHFULL and MAXPATH, portab.h 249-262. *)
Context (full maxpath : Z).
(** The loop, 1556-1651; [inp] are the arguments from InputPathIndex on. *)
Inductive parsed := Exit (code : Z) | Parsed (s : settings) (inp : list (list Z)).
Fixpoint parse (s : settings) (inp args : list (list Z)) : res parsed :=
  match args with
  | [] => Ok (Parsed s inp)
  | a :: rest =>
      let p := cut full a in
      match flag p with
      | Some f => parse (f s) rest rest
      | None =>
          match rest with
          | v :: (_ :: _) as rest' =>
              match value p (cut full v) s with
              | Some r => do o <- r; match o with Some s => parse s rest' rest' | None => Ok (Exit (-8)) end
              | None => parse s inp rest
              end
          | _ => parse s inp rest
          end
      end
  end.

(** Path after 1704-1719: "clean.%s.%s" or "clean.%s" behind the directory.  [Original] and [String] have MAXLINE (1024)
    characters, [Ext] has MAXDATA (4096). *)
Definition CLEAN : list Z := [99; 108; 101; 97; 110; 46].
Definition default_output (p : list Z) : res (list Z) :=
  do d <- split_path maxpath false p;
  let '(dir, name, ext) := d in
  let dir := cut 1024 dir in let name := cut 1024 name in let ext := cut 4096 ext in
  let d := match dir with [] => [] | _ => add_delim full (cut full dir) end in
  Ok (match ext with [] => cat full d (CLEAN ++ name) | _ => cat full d (CLEAN ++ name ++ [46] ++ ext) end).

(** 1653-1726: the result of the program when it ends here, or the settings, the file read and the file written. *)
Inductive started := Stop (code : Z) | Run (s : settings) (input output : list Z).
Definition command (args : list (list Z)) : res started :=
  do r <- parse settings0 args args;
  match r with
  | Exit c => Ok (Stop c)
  | Parsed s inp =>
      match inp with
      | [] => Ok (Stop (-1))
      | i :: outs =>
          if o_version s then Ok (Stop (-1))
          else
            let p := cut full i in
            match outs with
            | [] => do o <- default_output p; Ok (Run s p o)
            | _ => Ok (Run s p (cut full (last outs [])))
            end
      end
  end.
End Args.
