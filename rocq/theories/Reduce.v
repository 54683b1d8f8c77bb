(** ReduceSize of mkclean, mkclean/mkclean.c 196-243: what it does to an element and all below it before
    it is written. *)
From Verif Require Import Base Ebml Tree TreeRead Create.

(** IDs of BlockGroup and EbmlCrc32, matroska_sem.c 62 and ebmlmain.c 32. *)
Definition ID_BLOCK_GROUP : Z := 160.
Definition ID_CRC : Z := 191.

(** EBML_ElementSetSizeLength, ebmlelement.c 142-145. *)
Definition with_szlen (i : info) (n : Z) : info :=
  mkInfo (e_kind i) (e_set i) (e_need i) (e_fin i) (e_dsize i) (e_defsz i) n (e_epos i) (e_spos i) (e_end i).
(** EBML_MasterUseChecksum with 0, ebmlmaster.c 423-438. *)
Definition no_checksum (i : info) (chk : Z) : info * Z := if chk =? 0 then (i, chk) else (with_need i true, 0).

Section Reduce.
Context (E : schema) (td : Z -> Z).
(** [fuel] bounds the depth of created elements, [unsafe] is --unsafe, [prof] is DstProfile. *)
Context (fuel : nat) (unsafe : bool) (prof : Z).

(** The children deleted before anything else, mkclean.c 214-229. *)
Definition dropped (e : elt) : bool :=
  match kind_class E (e_kind (einfo e)) with KVoid | KDummy => true | _ => eid_of E (einfo e) =? ID_CRC end.

(** The loop of EBML_MasterCheckContext always ends with this fuel (C50). *)
Definition cc_fuel (ch : list elt) : nat := (length ch * S (length ch) + length ch)%nat.

(** ReduceSize.  [None] is an element that was deleted: in the tree it is gone, but the caller of the
    outermost call keeps its pointer.  MasterError (mkclean.c 171-194) always returns 1, that is
    EBML_MasterCheckContext deletes what it reports.  Deleting children sets bNeedDataSizeUpdate
    (ebmlmaster.c 586-590). *)
Fixpoint reduce (e : elt) : res (option elt) :=
  match e with
  | Leaf i v => Ok (Some (Leaf (with_szlen i 0) v))
  | Master i chk ch =>
      let i := with_szlen i 0 in
      let '(i, chk) := if unsafe then no_checksum i chk else (i, chk) in
      do ok <- (if eid_of E i =? ID_BLOCK_GROUP then check_mandatory E false prof (Master i chk ch) else Ok true);
      if negb ok then Ok None
      else
        do ch1 <- (fix all (l : list elt) : res (list elt) :=
                     match l with
                     | [] => Ok []
                     | c :: l =>
                         do r <- (if dropped c then Ok None else reduce c);
                         do l' <- all l;
                         Ok (match r with None => l' | Some c' => c' :: l' end)
                     end) ch;
        let i := if zlen ch1 =? zlen ch then i else with_need i true in
        do ok <- (match ch1 with [] => check_mandatory E false prof (Master i chk []) | _ => Ok true end);
        if negb ok then Ok None
        else
          do e3 <- add_mandatory E td fuel true prof (Master i chk ch1);
          match e3 with
          | Leaf _ _ => Bad
          | Master _ _ ch3 => do r <- check_context E (cc_fuel ch3) (Some (fun _ => true)) prof e3; Ok (Some (Datatypes.fst r))
          end
  end.
End Reduce.
