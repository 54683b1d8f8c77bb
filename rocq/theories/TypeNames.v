(** The names of types and units: corec/corec/node/node.c, ParamName and ParamFormat 64-131, NodeContext_FindDataType 1876-1895,
    NodeContext_TypeName 1897-1901, NodeContext_UnitName 1903-1907. *)
From Verif Require Import Base Tree Str.

(** ParamName and ParamFormat, 64-131, without the ends of texts ([None]: NULL); nodebase.h 19-61, 82-101. *)
Definition param_name : list (option (list Z)) :=
  [Some [110; 111; 110; 101];
   Some [98; 111; 111; 108; 101; 97; 110];
   Some [105; 110; 116; 101; 103; 101; 114];
   Some [102; 114; 97; 99; 116; 105; 111; 110];
   Some [115; 116; 114; 105; 110; 103];
   Some [114; 101; 99; 116; 97; 110; 103; 108; 101];
   Some [112; 111; 105; 110; 116];
   Some [114; 103; 98];
   Some [102; 111; 117; 114; 99; 99];
   Some [102; 105; 108; 101; 112; 111; 115];
   Some [110; 111; 100; 101];
   None;
   Some [112; 97; 99; 107; 101; 116];
   None;
   None;
   Some [112; 111; 105; 110; 116; 101; 114];
   None;
   None;
   Some [105; 110; 116; 101; 103; 101; 114; 95; 56];
   Some [105; 110; 116; 101; 103; 101; 114; 95; 49; 54];
   Some [105; 110; 116; 101; 103; 101; 114; 95; 51; 50];
   Some [105; 110; 116; 101; 103; 101; 114; 95; 54; 52];
   None;
   Some [110; 111; 100; 101; 95; 114; 101; 102];
   None;
   Some [112; 105; 110];
   Some [101; 118; 101; 110; 116];
   None;
   Some [112; 111; 105; 110; 116; 95; 49; 54];
   Some [114; 101; 99; 116; 95; 49; 54];
   None;
   None;
   None;
   Some [100; 97; 116; 101; 116; 105; 109; 101];
   Some [100; 98; 95; 110; 111];
   Some [103; 117; 105; 100];
   Some [102; 105; 120; 95; 49; 54];
   None;
   None;
   None;
   None;
   Some [115; 105; 122; 101]].
Definition param_format : list (option (list Z)) :=
  [None;
   Some [107; 98; 121; 116; 101];
   Some [115; 101; 99; 111; 110; 100];
   Some [109; 104; 122];
   Some [120; 99; 111; 111; 114; 100];
   Some [121; 99; 111; 111; 114; 100];
   Some [98; 121; 116; 101; 114; 97; 116; 101];
   Some [102; 111; 108; 100; 101; 114];
   Some [110; 117; 109; 98; 101; 114];
   Some [102; 105; 120; 49; 54];
   Some [105; 112];
   Some [99; 111; 111; 114; 100];
   Some [112; 97; 115; 115; 119; 111; 114; 100];
   Some [117; 112; 112; 101; 114];
   Some [99; 104; 101; 99; 107; 108; 105; 115; 116];
   Some [112; 101; 114; 99; 101; 110; 116];
   Some [104; 101; 120];
   Some [116; 97; 115; 107];
   None;
   None;
   None;
   None;
   None;
   None;
   None;
   None;
   None;
   None;
   None;
   None;
   None;
   None].
Definition MAX_PARAMTYPE := 42.
Definition TYPE_MASK := 63.
Definition TUNIT_SHIFT := 24.
Definition TUNIT_MASK := 520093696.

(** An element of a table; [Bad]: there is none. *)
Definition at_table (t : list (option (list Z))) (i : Z) : res (option (list Z)) := if i <? 0 then Bad else match nth_error t (Z.to_nat i) with Some e => Ok e | None => Bad end.
(** The condition of 1880 and 1886. *)
Definition is_named (t : list (option (list Z))) (i : Z) (s : list Z) : res bool :=
  do e <- at_table t i; match e with Some n => tcsisame_ascii s (n ++ [0]) | None => Ok false end.
(** The loop of 1885-1890; the unit that [i] gets. *)
Fixpoint find_unit (fuel : nat) (j : Z) (s : list Z) : res Z :=
  match fuel with
  | O => Fuel
  | S fuel =>
      if Z.land (Z.shiftl j TUNIT_SHIFT) TUNIT_MASK =? 0 then Ok 0
      else do b <- is_named param_format j s; if b then Ok (Z.shiftl j TUNIT_SHIFT) else find_unit fuel (j + 1) s
  end.
(** NodeContext_FindDataType; the format may be NULL. *)
Fixpoint find_type (fuel : nat) (i : Z) (s : list Z) (format : option (list Z)) : res Z :=
  match fuel with
  | O => Fuel
  | S fuel =>
      if i <? MAX_PARAMTYPE then
        do b <- is_named param_name i s;
        if b then
          match format with
          | None => Ok i
          | Some f => match f with [] => Bad | c :: _ => if c =? 0 then Ok i else do u <- find_unit 33 1 f; Ok (Z.lor i u) end
          end
        else find_type fuel (i + 1) s format
      else Ok 0
  end.
Definition find_data_type (s : list Z) (format : option (list Z)) : res Z := find_type 43 0 s format.
(** NodeContext_TypeName, NodeContext_UnitName. *)
Definition type_name (t : Z) : res (option (list Z)) := at_table param_name (Z.land t TYPE_MASK).
Definition unit_name (t : Z) : res (option (list Z)) := at_table param_format (Z.shiftr (Z.land t TUNIT_MASK) TUNIT_SHIFT).
