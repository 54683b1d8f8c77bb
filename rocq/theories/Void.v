(** Void elements, libebml2/ebmlvoid.c. *)
From Verif Require Import Base Vint EbmlId EltHead.

(** EBML_ContextEbmlVoid Id, libebml2/ebmlmain.c 49 (EBML_ContextEbmlVoid). *)
Definition VOID_ID : Z := 236.

(** EBML_VoidSetFullSize, ebmlvoid.c 65-72: the new DataSize and the returned bool.
    Simplification: filepos_t overflow is outside the model (sizes are unbounded Z). *)
Definition void_set_full_size (size : Z) : Z * bool :=
  let d := size - 1 - coded_size_length size 0 true in (d, 0 <=? d).

(** RenderData, ebmlvoid.c 21-36: [Left] zero bytes written in chunks of at most 2048 bytes.
    [fuel] bounds the number of chunks; [None] when exhausted.  A negative DataSize converts to
    a huge size_t; that is the [None] of a negative argument. *)
Fixpoint void_chunks (fuel : nat) (left : Z) : option (list Z) :=
  if left =? 0 then Some []
  else match fuel with
  | O => None
  | S f =>
      let n := Z.min left 2048 in
      match void_chunks f (left - n) with
      | Some r => Some (repeat 0 (Z.to_nat n) ++ r)
      | None => None
      end
  end.
Definition void_render_data (datasize : Z) : option (list Z) :=
  if datasize <? 0 then None else void_chunks (Z.to_nat datasize) datasize.

(** EBML_ElementRender of a finite Void with SizeLength [sl], ebmlelement.c 258-300. *)
Definition void_render (datasize sl : Z) : option (list Z) :=
  match render_head VOID_ID datasize sl true, void_render_data datasize with
  | Some h, Some d => Some (h ++ d)
  | _, _ => None
  end.

(** The filler header built in EBML_VoidReplaceWith, ebmlvoid.c 95-105, for a gap of [gap] bytes:
    DataSize, SizeLength and the bytes of the rendered head.  A fresh element has SizeLength 0
    and a finite size. *)
Definition void_filler (gap : Z) : Z * Z * option (list Z) :=
  let d := fst (void_set_full_size gap) in
  let head_before := full_size VOID_ID d 0 true - d in
  let d' := d - coded_size_length d 0 true in
  let head_after := full_size VOID_ID d' 0 true - d' in
  let sl := if head_before =? head_after then 0
            else s8 (coded_size_length d' 0 true - (head_after - head_before)) in
  (d', sl, render_head VOID_ID d' sl true).

(** Stream_Seek(SEEK_SET) then Stream_Write of [bs] in a seekable file whose contents are [file]. *)
Definition patch (file : list Z) (pos : Z) (bs : list Z) : list Z :=
  firstn (Z.to_nat pos) file ++ bs ++ skipn (Z.to_nat (pos + zlen bs)) file.

(** EBML_VoidReplaceWith, ebmlvoid.c 74-114.  [pos] is Void->ElementPosition, [vfull] the full
    size of the Void, [repl] the bytes EBML_ElementRender writes for ReplacedWith (their number is
    its full size).  [None] = INVALID_FILEPOS_T, nothing written; otherwise the file after the call
    and the returned size. *)
Definition void_replace_with (file : list Z) (pos vfull : Z) (repl : list Z) : option (option (list Z) * Z) :=
  let gap := vfull - zlen repl in
  if gap <? 0 then None
  else if gap =? 1 then None
  else
    let file1 := patch file pos repl in
    if 1 <? gap then
      match snd (void_filler gap) with
      | Some h => Some (Some (patch file1 (pos + zlen repl) h), vfull)
      | None => Some (None, vfull)
      end
    else Some (Some file1, vfull).
