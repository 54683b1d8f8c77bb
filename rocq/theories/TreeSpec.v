(** Specification of the bytes an element tree stands for, independent of how the library writes them. *)
From Verif Require Import Base VintSpec EbmlIdSpec CrcSpec IntEltSpec Vint EbmlId IntElt EltHead Ebml FinderSpec Tree.

Section Spec.
Context (E : schema) (narrow widen : Z -> Z) (flt_is : Z -> Z -> bool).
(** bWithDefault. *)
Context (wd : bool).

(** Elements that hold their default value are not written unless asked for. *)
Definition omitted (e : elt) : bool :=
  negb wd &&
  match e with
  | Master _ _ _ => false
  | Leaf i v =>
      match default_of E i, kind_class E (e_kind i), v with
      | Some (DInt y), (KUInt | KSInt | KDate), VInt x => negb (e_set i) || (x =? y)
      | Some (DInt y), KFloat, VFlt x => negb (e_set i) || flt_is x y
      | Some (DStr s), (KString | KUni), VStr b =>
          negb (e_set i) || match b with Some b => match cstr b with Some t => list_eqb t s | None => false end | None => false end
      | _, _, _ => false
      end
  end.

(** Number of payload bytes of an element. *)
Definition leaf_psize (i : info) (v : val) : Z :=
  match kind_class E (e_kind i), v with
  | KUInt, VInt x => update_size_uint x (e_defsz i)
  | (KSInt | KDate), VInt x => update_size_sint x (e_defsz i)
  | KFloat, _ => Z.max (e_dsize i) (e_defsz i)
  | (KString | KUni), VStr (Some b) => match cstr b with Some s => zlen s | None => 0 end
  | (KBinary | KDummy), VBin d => zlen d
  | _, _ => e_dsize i
  end.
Fixpoint psize (e : elt) : Z :=
  match e with
  | Leaf i v => leaf_psize i v
  | Master i chk ch =>
      (if chk =? 0 then 0 else 6) +
      (fix sum (l : list elt) : Z :=
         match l with
         | [] => 0
         | c :: l => (if omitted c then 0 else full_size (eid_of E (einfo c)) (psize c) (e_szlen (einfo c)) (e_fin (einfo c))) + sum l
         end) ch
  end.
Definition fsize (e : elt) : Z := full_size (eid_of E (einfo e)) (psize e) (e_szlen (einfo e)) (e_fin (einfo e)).

(** Length of an element's encoding, from the size fields it carries. *)
Definition elen (e : elt) : Z := full_size (eid_of E (einfo e)) (e_dsize (einfo e)) (e_szlen (einfo e)) (e_fin (einfo e)).
(** Every master's data size is the sum of the lengths of the children that are written, and 6 for a
    checksum. *)
Inductive balanced : elt -> Prop :=
| balanced_leaf i v : balanced (Leaf i v)
| balanced_master i chk ch :
    e_dsize i = (if chk =? 0 then 0 else 6) + fold_right Z.add 0 (map elen (filter (fun c => negb (omitted c)) ch)) ->
    Forall (fun c => omitted c = true \/ balanced c) ch -> balanced (Master i chk ch).

(** Payload of a value. *)
Definition payload (i : info) (v : val) (data : list Z) : Prop :=
  bytes_ok data /\
  match kind_class E (e_kind i), v with
  | KUInt, VInt x => 1 <= zlen data <= 8 /\ be_val data = x mod 2 ^ 64
  | KSInt, VInt x => 1 <= zlen data <= 8 /\ twos_val data = x
  | KDate, VInt x => zlen data = 8 /\ twos_val data = x
  | KFloat, VFlt x => zlen data = leaf_psize i v /\ ((zlen data = 8 /\ be_val data = x) \/ (zlen data = 4 /\ be_val data = narrow x))
  | (KString | KUni), VStr (Some b) => exists r, b = data ++ 0 :: r /\ ~ In 0 data
  | (KBinary | KDummy), VBin d => data = d
  | KVoid, VNone => Forall (fun b => b = 0) data
  | KCrc, VCrc c => data = rev (be_bytes 4 c)
  | _, _ => False
  end.

(** Coded size: the payload length, or the unknown marker. *)
Definition coded (i : info) (szb : list Z) (n : Z) : Prop :=
  vint_spec szb (if e_fin i then n else vint_reserved (zlen szb)) /\ (e_fin i = true -> n <> vint_reserved (zlen szb)).

(** A CRC-32 element over [body], when a checksum is used. *)
Definition checksum (chk : Z) (body : list Z) : list Z :=
  if chk =? 0 then [] else [191; 132] ++ rev (be_bytes 4 (crc32_ieee body)).

Inductive enc : elt -> list Z -> Prop :=
| enc_leaf i v idb szb data : id_encodes idb (eid_of E i) -> coded i szb (zlen data) -> payload i v data ->
    enc (Leaf i v) (idb ++ szb ++ data)
| enc_master i chk ch idb szb body : id_encodes idb (eid_of E i) -> coded i szb (zlen (checksum chk body ++ body)) -> encs ch body ->
    enc (Master i chk ch) (idb ++ szb ++ checksum chk body ++ body)
with encs : list elt -> list Z -> Prop :=
| encs_nil : encs [] []
| encs_omit c l b : omitted c = true -> encs l b -> encs (c :: l) b
| encs_cons c l b1 b2 : omitted c = false -> enc c b1 -> encs l b2 -> encs (c :: l) (b1 ++ b2).

(** ** Trees that can be written *)
(** The context's default has the shape of its class. *)
Definition def_ok (i : info) : Prop :=
  match kind_class E (e_kind i), default_of E i with
  | _, None => True
  | (KUInt | KSInt | KDate), Some (DInt y) => is_int64 y
  | KFloat, Some (DInt _) => True
  | (KString | KUni), Some (DStr _) => True
  | (KUInt | KSInt | KDate | KFloat | KString | KUni), _ => False
  | _, _ => True
  end.
(** The value has the type of the class; a set string is a C string. *)
Definition val_ok (i : info) (v : val) : Prop :=
  match kind_class E (e_kind i), v with
  | (KUInt | KSInt | KDate), VInt x => is_int64 x
  | KFloat, VFlt _ => True
  | (KString | KUni), VStr b => e_set i = true -> exists b' s, b = Some b' /\ cstr b' = Some s /\ bytes_ok s
  | (KBinary | KDummy), VBin d => bytes_ok d
  | KVoid, VNone => True
  | KCrc, VCrc c => 0 <= c < 2 ^ 32
  | _, _ => False
  end.
(** DefaultSize does not reach over the payload, except where the payload can be padded. *)
Definition defsz_ok (i : info) (v : val) : Prop :=
  match kind_class E (e_kind i), v with
  | (KUInt | KSInt), _ => 0 <= e_defsz i <= 8
  | KDate, _ => e_defsz i = 8
  | KFloat, VFlt x => (Z.max (e_dsize i) (e_defsz i) = 8 /\ 0 <= x < 2 ^ 64) \/ (Z.max (e_dsize i) (e_defsz i) = 4 /\ 0 <= narrow x < 2 ^ 32)
  | KCrc, _ => e_dsize i = 4 /\ e_defsz i <= 4
  | _, _ => e_defsz i <= leaf_psize i v
  end.
Definition head_ok (i : info) (n : Z) : Prop := valid_id (eid_of E i) /\ 0 <= e_szlen i <= 8 /\ 0 <= n < 2 ^ 35 - 1.

Fixpoint writable (e : elt) : Prop :=
  match e with
  | Leaf i v => def_ok i /\ val_ok i v /\
      (omitted e = false -> e_set i = true /\ e_fin i = true /\ defsz_ok i v /\ head_ok i (psize e) /\ (e_need i = true \/ e_dsize i = psize e))
  | Master i chk ch =>
      e_set i = true /\ e_defsz i <= 0 /\ head_ok i (psize e) /\ (e_need i = true \/ e_dsize i = psize e) /\
      (chk = 0 \/ e_fin i = true \/ 1 <= e_szlen i) /\
      (fix all (l : list elt) : Prop := match l with [] => True | c :: l => writable c /\ all l end) ch
  end.

(** ** Reading back *)
(** The value read for a value written. *)
Definition val_same (i : info) (v v' : val) : Prop :=
  match v with
  | VFlt x => v' = VFlt (if psize (Leaf i v) =? 8 then x else widen (narrow x))
  | VStr (Some b) => match cstr b with Some s => v' = VStr (Some (s ++ [0])) | None => False end
  | _ => v' = v
  end.
(** [same f e e']: [e'] is what [e] becomes when its encoding in file [f] is read: every written element
    with its kind and value, in order, placed where its encoding lies; the checksum verified (or not
    there, in a master without content). *)
Inductive same (f : list Z) : elt -> elt -> Prop :=
| same_leaf i v i' v' : e_kind i' = e_kind i -> val_same i v v' -> (v = VNone \/ e_set i' = true) ->
    enc (Leaf i v) (slice f (e_epos i') (e_end i' - e_epos i')) ->
    same f (Leaf i v) (Leaf i' v')
| same_master i chk ch i' chk' ch' : e_kind i' = e_kind i -> e_set i' = true ->
    (if chk =? 0 then chk' = 0 else chk' = 2 \/ (chk' = 0 /\ ch' = [])) -> sames f ch ch' ->
    enc (Master i chk ch) (slice f (e_epos i') (e_end i' - e_epos i')) ->
    same f (Master i chk ch) (Master i' chk' ch')
with sames (f : list Z) : list elt -> list elt -> Prop :=
| sames_nil : sames f [] []
| sames_omit c l l' : omitted c = true -> sames f l l' -> sames f (c :: l) l'
| sames_cons c c' l l' : omitted c = false -> same f c c' -> sames f l l' -> sames f (c :: l) (c' :: l').

(** The context [p] resolves the kind of a child by its ID, and to nothing else. *)
Definition resolves (p : Z) (k : kind) : Prop :=
  exists c, k = Known c /\ (exists s, names E p (c_id (E c)) s) /\ forall s, names E p (c_id (E c)) s -> s_ctx s = c.
(** Signed integers survive where char is signed only if no byte over 127 follows a byte that is not FF. *)
Definition sint_plain (cs : bool) (i : info) (v : val) : Prop :=
  match kind_class E (e_kind i), v with
  | KSInt, VInt x => cs = false \/ (forall pre b post, bytes_ok (pre ++ b :: post) -> zlen (pre ++ b :: post) <= 8 -> twos_val (pre ++ b :: post) = x ->
      128 <= b -> Forall (fun c => c = 255) pre)
  | _, _ => True
  end.
(** Trees whose encoding is read back: finite sizes, every element known in its parent's context;
    checksums only in contexts that know the CRC-32 element and not below [depth] levels; no CRC-32
    elements among the children themselves. *)
Fixpoint readable (cs : bool) (depth : nat) (e : elt) : Prop :=
  e_fin (einfo e) = true /\
  match e with
  | Leaf i v => val_ok i v /\ sint_plain cs i v /\ kind_class E (e_kind i) <> KMaster /\ kind_class E (e_kind i) <> KCrc /\ eid_of E i <> 191
  | Master i chk ch =>
      exists c, e_kind i = Known c /\ c_class (E c) = KMaster /\ eid_of E i <> 191 /\
      (chk = 0 \/ ((0 < depth)%nat /\ exists cc, c_id (E cc) = 191 /\ c_class (E cc) = KCrc /\ resolves c (Known cc))) /\
      (fix all (l : list elt) : Prop :=
         match l with [] => True | d :: l => (omitted d = false -> resolves c (e_kind (einfo d)) /\ readable cs (Nat.pred depth) d) /\ all l end) ch
  end.
End Spec.

(** Trees that cannot be written: an element without a value and without a default somewhere. *)
Inductive blocked (E : schema) : elt -> Prop :=
| blocked_leaf i v : e_set i = false -> default_of E i = None -> blocked E (Leaf i v)
| blocked_master i chk ch : e_set i = false -> blocked E (Master i chk ch)
| blocked_child i chk ch c : In c ch -> blocked E c -> blocked E (Master i chk ch).
