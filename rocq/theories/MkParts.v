(** mkparts: splitting concatenated segments into files, mkparts/mkparts.c 117-335, without its messages and its command line.

    The source is a list of bytes; StreamOpen and Stream_Write of the outputs succeed.  filepos_t arithmetic does not overflow. *)
From Verif Require Import Base Vint Ebml Finder MkSchema Tree Str Printf Path.

Definition ID_HEAD : Z := 440786851.
Definition ID_SEGMENT : Z := 408125543.
(** EL_Type, 20 and EBML_ElementIsType, libebml2/ebmlelement.c 147-150. *)
Definition is_type (id : Z) (h : hdr) : bool := kind_id mk (h_kind h) =? id.
(** GetIdLength, ebmlelement.c 207-216. *)
Definition id_length (id : Z) : Z := if id <? 256 then 1 else if id <? 65536 then 2 else if id <? 16777216 then 3 else 4.
(** EBML_ElementFullSize with the default values, ebmlelement.c 120-125. *)
Definition full_size (h : hdr) : Z := h_dsize h + id_length (kind_id mk (h_kind h)) + coded_size_length (h_dsize h) (h_szlen h) (h_fin h).
(** EBML_ElementPositionData, ebmlelement.c 167-177, of an element the finder gave: its size is coded on h_szlen bytes. *)
Definition pos_data (h : hdr) : Z := h_spos h + (if h_fin h then coded_size_length (h_dsize h) (h_szlen h) true else h_szlen h).
(** SegmentStart, 117-122. *)
Record start := St { st_hpos : Z; st_hsize : Z; st_spos : Z; st_ssize : Z }.

Section Scan.
(** The source; the uninitialised buffer and level of each call of EBML_FindNextElement at a position. *)
Context (file : list Z) (junk : Z -> list Z) (upper : Z -> Z).
(** RContext, 216-219: the top level, without end. *)
Definition chain : list pctx := [(cStream, INVALID_FILEPOS)].
(** EBML_FindNextElement, the element and the position after; Null for no element. *)
Definition next_elt (allow : bool) (pos : Z) : res (option hdr * Z) :=
  match find_next mk (junk pos) file pos chain (upper pos) allow with
  | None => Fuel
  | Some FBad => Bad
  | Some (FNull _ p) => Ok (None, p)
  | Some (FElt h _ p) => Ok (Some h, p)
  end.
(** 242-249: the search of a segment.  EbmlHead, Segment and the position; line 244 reads through Segment before it is tested. *)
Fixpoint seek_segment (fuel : nat) (head : hdr) (pos : Z) : res (hdr * hdr * Z) :=
  match fuel with
  | O => Fuel
  | S fuel =>
      do r <- next_elt false pos;
      match r with
      | (None, _) => Null
      | (Some h, p) =>
          let head := if is_type ID_HEAD h then h else head in
          if is_type ID_SEGMENT h then Ok (head, h, p) else seek_segment fuel head p
      end
  end.
(** EBML_ElementSkipData, ebmlelement.c 93-108 with AllowDummyElt, 263. *)
Definition skip_segment (seg : hdr) (pos : Z) : res (option hdr * Z) :=
  if h_fin seg then Ok (None, h_end seg)
  else do r <- next_elt true pos;
       match r with (Some h, _) => Ok (Some h, pos_data h) | (None, p) => Ok (None, p) end.
(** 253-275: the start recorded. *)
Definition head_size (head seg : hdr) : Z := if h_fin head then full_size head else h_epos seg - h_epos head.
Definition segment_size (seg : hdr) (next : option hdr) (pos : Z) : Z :=
  if h_fin seg then full_size seg else match next with Some h => h_epos h - h_epos seg | None => pos end.
(** The loop, 222-279. *)
Fixpoint scan (fuel : nat) (head : option hdr) (pos : Z) (acc : list start) : res (list start) :=
  match head with
  | None => Ok acc
  | Some head =>
      match fuel with
      | O => Fuel
      | S fuel =>
          do r <- seek_segment (S (length file)) head pos;
          let '(head, seg, p) := r in
          if is_type ID_HEAD head then
            do k <- skip_segment seg p;
            let '(next, p) := k in
            let acc := acc ++ [St (h_epos head) (head_size head seg) (h_epos seg) (segment_size seg next p)] in
            match next with
            | Some _ => scan fuel next p acc
            | None => do r <- next_elt false p; scan fuel (fst r) (snd r) acc
            end
          else scan fuel (Some head) p acc
      end
  end.
(** 221-279: the segments of the file. *)
Definition segments : res (list start) := do r <- next_elt false 0; scan (S (length file)) (fst r) (snd r) [].

(** CopyTo, 124-142: what is written.  A short read gives ERR_END_OF_FILE and its bytes are not written. *)
Definition BLOCK : Z := 8192.
Fixpoint copy_loop (fuel : nat) (pos left : Z) (out : list Z) : res (list Z) :=
  if left =? 0 then Ok out
  else match fuel with
       | O => Fuel
       | S fuel =>
           let n := Z.min left BLOCK in
           let bs := firstn (Z.to_nat n) (skipn (Z.to_nat pos) file) in
           if zlen bs =? n then copy_loop fuel (pos + n) (left - n) (out ++ bs)
           else copy_loop fuel (pos + zlen bs) left out
       end.
Definition copy_to (pos size : Z) (out : list Z) : res (list Z) := copy_loop (S (Z.to_nat (size / BLOCK))) pos size out.

(** A word passed for the size_t [j] and read as a pointer: 0 is NULL, others are no strings. *)
Definition word (j : Z) : arg := if j =? 0 then AStr None else AInt j.
(** "write segment %zu from %s %" TPRId64 " size %" TPRId64 " in %s\r\n", 296: TextPrintf (corec/corec/helpers/parser/parser2.c) into MAXLINE
    characters.  [addr] is the address of Path; behind it come the two positions and Path. *)
Definition T_WRITE : list Z := [119; 114; 105; 116; 101; 32; 115; 101; 103; 109; 101; 110; 116; 32].
Definition T_FROM : list Z := [32; 102; 114; 111; 109; 32].
Definition T_SIZE : list Z := [32; 115; 105; 122; 101; 32].
Definition T_IN : list Z := [32; 105; 110; 32].
Definition M_STR : list Z := [37; 115].
Definition M_LD : list Z := [37; 108; 100].
Definition M_ZU : list Z := [37; 122; 117].
Definition message_mask : list Z := T_WRITE ++ M_ZU ++ T_FROM ++ M_STR ++ [32] ++ M_LD ++ T_SIZE ++ M_LD ++ T_IN ++ M_STR ++ [13; 10; 0].
Definition message (addr : Z) (path : list Z) (j : Z) (s : start) : res (list Z) :=
  vstprintf false 1024 message_mask [word j; AInt addr; AInt (st_hpos s); AInt (st_hsize s + st_ssize s); AStr (Some (path ++ [0]))].
(** 298-309: the path of an output.  [Original] and [String] have MAXLINE (1024) characters, [Ext] has MAXDATA (4096). *)
Context (maxpath full : Z).
Definition out_name (path : list Z) (j : Z) : res (list Z) :=
  do d <- split_path maxpath false path;
  let '(dir, name, ext) := d in
  let dir := cut 1024 dir in let name := cut 1024 name in let ext := cut 4096 ext in
  let d := match dir with [] => [] | _ => add_delim full (cut full dir) end in
  if zlen d <? full then
    do t <- match ext with
            | [] => vstprintf false (full - zlen d) (M_ZU ++ [46] ++ M_STR ++ [0]) [word j; AStr (Some (name ++ [0]))]
            | _ => vstprintf false (full - zlen d) (M_STR ++ [46] ++ M_ZU ++ [46] ++ M_STR ++ [0]) [AStr (Some (name ++ [0])); word j; AStr (Some (ext ++ [0]))]
            end;
    Ok (d ++ removelast t)
  else Ok d.

(** How a run ends: the result of main, an access to memory that is no object, or never. *)
Inductive ending := Done (code : Z) | Crash | Hang.
Definition ending_of {A} (r : res A) : ending := match r with Fuel => Hang | _ => Crash end.
(** 293-322: the files written.  Output is closed at 321 and, not being reset, once more at 329-330. *)
Fixpoint write_parts (quiet : bool) (addr : Z) (path : list Z) (j : Z) (l : list start) (outs : list (list Z * list Z)) : list (list Z * list Z) * ending :=
  match l with
  | [] => (outs, match outs with [] => Done 0 | _ => Crash end)
  | s :: l =>
      match (if quiet then Ok [] else message addr path j s) with
      | Ok _ =>
          match out_name path j with
          | Ok n =>
              match (do a <- copy_to (st_hpos s) (st_hsize s) []; copy_to (st_spos s) (st_ssize s) a) with
              | Ok b => write_parts quiet addr path (j + 1) l (outs ++ [(n, b)])
              | e => (outs, ending_of e)
              end
          | e => (outs, ending_of e)
          end
      | e => (outs, ending_of e)
      end
  end.
(** 221-335.  The result is -3 with no segment or only one. *)
Definition mkparts (quiet : bool) (addr : Z) (path : list Z) : list (list Z * list Z) * ending :=
  match segments with
  | Ok [] | Ok [_] => ([], Done (-3))
  | Ok l => write_parts quiet addr path 0 l []
  | e => ([], ending_of e)
  end.
End Scan.
