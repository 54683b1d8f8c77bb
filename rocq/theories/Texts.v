(** Texts of element IDs, times and colours (libebml2/ebmlelement.c, corec/corec/helpers/parser/strtypes.c), on
    the printing functions of Printf.v, and a size given to an element of unknown size. *)
From Verif Require Import Base Vint EbmlId Ebml Tree Str Printf.

(** stcatprintf_s, corec/corec/str/str.c 150-160.  Texts are without their end here. *)
Definition cat_printf (len : Z) (out m : list Z) (args : list arg) : res (list Z) :=
  let n := zlen out in
  if n <? len then do s <- vstprintf false (len - n) m args; do k <- tcslen s; Ok (out ++ firstn (Z.to_nat k) s) else Ok out.
(** stprintf_s, str.c 140-148. *)
Definition printf (len : Z) (m : list Z) (args : list arg) : res (list Z) := cat_printf len [] m args.

(** EBML_IdToString, libebml2/ebmlelement.c 228-240: "[%02X]" for every byte from the first that is not 0.
    The result and the text; [None] when the buffer is not written to. *)
Fixpoint id_loop (len id : Z) (shifts : list Z) (out : list Z) : res (list Z) :=
  match shifts with
  | [] => Ok out
  | k :: l =>
      let x := Z.land (Z.shiftr id k) 255 in
      do out <- (if (0 <? zlen out) || negb (x =? 0) then cat_printf len out [91; 37; 48; 50; 88; 93; 0] [AInt x] else Ok out);
      id_loop len id l out
  end.
Definition id_to_string (len id : Z) : res (Z * option (list Z)) :=
  let n := get_id_length id in
  if len <? n * 4 + 1 then Ok (0, None) else do t <- id_loop len id [24; 16; 8; 0] []; Ok (n * 4, Some t).

(** RGBToString, strtypes.c 125-130, on a little-endian machine: SWAP32, helper.h 28. *)
Definition swap32 (v : Z) : Z :=
  Z.land v 255 * 2 ^ 24 + Z.land (Z.shiftr v 8) 255 * 2 ^ 16 + Z.land (Z.shiftr v 16) 255 * 2 ^ 8 + Z.land (Z.shiftr v 24) 255.
Definition rgb_to_string (len v : Z) : res (list Z) :=
  do s <- printf len [35; 37; 48; 56; 88; 0] [AInt (s32 (swap32 v))];
  Ok (if (9 <=? zlen s) && (nth 7 s 0 =? 48) && (nth 8 s 0 =? 48) then firstn 7 s else s).

(** SysTickToString, strtypes.c 132-160; GetTimeFreq is 1000 (date.h 27), systick_t an int of 32 bits. *)
Definition tick_to_string (len tick : Z) : res (list Z) :=
  if tick =? - 2 ^ 31 then Bad (* -Tick overflows *)
  else
    let sign := if tick <? 0 then [45; 0] else [0] in
    let t := Z.abs tick in
    let hour := t / 3600 / 1000 in
    let t := t - hour * 3600 * 1000 in
    let min := t / 60 / 1000 in
    let t := t - min * 60 * 1000 in
    let sec := t / 1000 in
    let t := t - sec * 1000 in
    do s <- (if (hour =? 0) && (min =? 0) then printf len [37; 115; 37; 100; 0] [AStr (Some sign); AInt sec]
             else
               do s <- (if negb (hour =? 0) then printf len [37; 115; 37; 100; 58; 37; 48; 50; 100; 0] [AStr (Some sign); AInt hour; AInt min]
                        else printf len [37; 115; 37; 100; 0] [AStr (Some sign); AInt min]);
               cat_printf len s [58; 37; 48; 50; 100; 0] [AInt sec]);
    cat_printf len s [46; 37; 48; 51; 100; 0] [AInt (t * 1000 / 1000)].

(** EBML_ElementSetInfiniteSize, ebmlelement.c 78-82. *)
Definition set_infinite (i : info) (b : bool) : info :=
  mkInfo (e_kind i) (e_set i) (e_need i) (negb b) (e_dsize i) (e_defsz i) (e_szlen i) (e_epos i) (e_spos i) (e_end i).
(** EBML_ElementForceDataSize, ebmlelement.c 132-135. *)
Definition force_data_size (i : info) (n : Z) : info :=
  mkInfo (e_kind i) (e_set i) (e_need i) (e_fin i) n (e_defsz i) (e_szlen i) (e_epos i) (e_spos i) (e_end i).
(** EBML_ElementInfiniteForceSize, ebmlelement.c 184-205: the result and the element. *)
Definition infinite_force_size (i : info) (n : Z) : bool * info :=
  if e_fin i then (false, i)
  else
    let old := coded_size_length (e_dsize i) (e_szlen i) (e_fin i) in
    let i' := force_data_size i n in
    if coded_size_length (e_dsize i') (e_szlen i') (e_fin i') =? old then (true, set_infinite i' true)
    else (false, i).
