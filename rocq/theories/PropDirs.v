(** C142: file streams and the listing of directories. *)
From Coq Require Import Permutation.
From Verif Require Import Base BaseProofs Tree Stream Ebml Path Dirs DirsSpec DirsProofs.

(** Over every history no handle is closed twice, and what is open is what others have open and what the stream holds: at most
    a file and a directory, each once. *)
Theorem C142_handles stat others next l : NoDup others -> Forall (fun n => (n < next)%nat) others -> Forall (good_call stat) l ->
  exists p r, druns stat (dstart others next) l = Ok (p, r) /\ Permutation (p_open p) (handles (p_strm p) ++ others) /\ NoDup (p_open p) /\ (length (p_open p) <= 2 + length others)%nat.
Proof.
  intros N F G. destruct (runs_ok stat others l _ (start_ok stat others next N F) G) as (p & r & E & P & N' & _ & _). exists p, r.
  split; [exact E|]. split; [exact P|]. split; [exact N'|]. rewrite (Permutation_length P), app_length.
  destruct (p_strm p) as [[[a|] [(b & x)|] y]|]; cbn; lia.
Qed.

(** The end of the stream closes all it has open, whatever was done with it. *)
Theorem C142_deleted stat others next l : NoDup others -> Forall (fun n => (n < next)%nat) others -> Forall (good_call stat) l ->
  exists p r, druns stat (dstart others next) (l ++ [DDelete]) = Ok (p, r) /\ Permutation (p_open p) others /\ p_strm p = None.
Proof.
  intros N F G. assert (G' : Forall (good_call stat) (l ++ [DDelete])) by (apply Forall_app; split; [exact G|repeat constructor]).
  destruct (runs_ok stat others _ _ (start_ok stat others next N F) G') as (p & r & E & P & _).
  assert (S : p_strm p = None).
  { clear -E. revert E. generalize (dstart others next) as q. revert r. induction l as [|c l IH]; intros r q E; cbn [app druns] in E.
    - unfold dstep in E. destruct (p_strm q) as [s|] eqn:K.
      + unfold delete in E. destruct (close (s_fd s) (p_open q)) as [| | |x]; cbn [bind] in E; try discriminate. destruct (close (dir_handle s) x) as [| | |y]; cbn [bind] in E; try discriminate.
        injection E as <- _. reflexivity.
      + cbn [bind Datatypes.fst Datatypes.snd] in E. injection E as <- _. exact K.
    - destruct (dstep stat q c) as [| | |((q' & e) & i)]; cbn [bind Datatypes.fst Datatypes.snd] in E; try discriminate.
      destruct (druns stat q' (l ++ [DDelete])) as [| | |(p2 & r2)] eqn:R; cbn [bind Datatypes.fst Datatypes.snd] in E; try discriminate. injection E as -> _. exact (IH r2 q' R). }
  exists p, r. rewrite S in P. split; [exact E|]. split; [exact P|exact S].
Qed.

(** After any history, a directory that is opened is told whole: every name once, in order, as [listing] has it; then the end,
    as often as it is asked for; the directory is closed, and the file of the stream is as before. *)
Theorem C142_listing stat others next l path names exts filter items k : NoDup others -> Forall (fun n => (n < next)%nat) others -> Forall (good_call stat) l -> ~ In DDelete l ->
  zlen path + 2 < 4096 -> Forall (good_name stat path) names -> listing stat (dirpath path) exts filter names items ->
  exists q r p s s', druns stat (dstart others next) l = Ok (q, r) /\ p_strm q = Some s /\
    druns stat q (DOpenDir path (inl names) :: repeat (DEnum exts filter) (length items + S k)) =
      Ok (p, (ERR_NONE, None) :: map (fun i => (ERR_NONE, Some i)) items ++ repeat (ERR_END_OF_FILE, None) (S k)) /\
    p_strm p = Some s' /\ s_dir s' = None /\ s_fd s' = s_fd s /\ Permutation (p_open p) (handles (Some s') ++ others).
Proof.
  intros N F G ND HP GN L. destruct (runs_ok stat others l _ (start_ok stat others next N F) G) as (q & r & E & I).
  assert (S : p_strm q <> None).
  { clear -E ND. assert (S0 : p_strm (dstart others next) <> None) by discriminate. revert S0 E. generalize (dstart others next) as p. revert r.
    induction l as [|c l IH]; intros r p S0 E; cbn [druns] in E; [injection E as <- _; exact S0|].
    destruct (dstep stat p c) as [| | |((p' & e) & i)] eqn:D; cbn [bind Datatypes.fst Datatypes.snd] in E; try discriminate.
    destruct (druns stat p' l) as [| | |(p2 & r2)] eqn:R; cbn [bind Datatypes.fst Datatypes.snd] in E; try discriminate. injection E as -> _.
    refine (IH _ r2 p' _ R); [intros X; apply ND; right; exact X|].
    unfold dstep in D. destruct (p_strm p) as [s|] eqn:Hs; [|contradiction]. destruct c as [name works|pa fo|ex fi|].
    - unfold open_file in D. destruct (close (s_fd s) (p_open p)) as [| | |x]; cbn [bind] in D; try discriminate. destruct name, works; cbn [negb bind] in D; injection D as <- _ _; discriminate.
    - unfold open_dir in D. destruct (close (dir_handle s) (p_open p)) as [| | |x]; cbn [bind] in D; try discriminate. destruct fo; cbn [bind] in D; injection D as <- _ _; discriminate.
    - unfold enum_dir in D. destruct (s_dir s) as [(n & nm)|]; [|injection D as <- _ _; rewrite Hs; discriminate].
      destruct (enum_loop stat (s_path s) ex fi nm) as [| | |([it|] & rest)]; cbn [bind] in D; try discriminate; [injection D as <- _ _; discriminate|].
      destruct (close (Some n) (p_open p)) as [| | |x]; cbn [bind] in D; try discriminate. injection D as <- _ _. discriminate.
    - exfalso. apply ND. left. reflexivity. }
  destruct (lists stat others q path names exts filter k I S HP GN) as (items' & p & L' & R & (P & _) & s & s' & S1 & S2 & S3 & S4).
  rewrite (listing_det stat _ _ _ _ _ _ L L'). exists q, r, p, s, s'. rewrite S2 in P. repeat split; assumption.
Qed.

(** A listing is there for all such names, so the last theorem is about every directory of this kind. *)
Theorem C142_listed stat path names exts filter : Forall (good_name stat path) names -> exists items, listing stat (dirpath path) exts filter names items.
Proof.
  intros G. apply listing_total. pose proof (dirpath_len path) as DL. revert G. apply Forall_impl. intros nm (A1 & A2 & A3). split; [exact A1|]. split; [lia|exact A3].
Qed.

(** A name that leads nowhere (a link without a target): the statistics that are used were never set. *)
Theorem C142_dangling_refuted : ~ forall stat path names, Forall (fun name => name <> [] /\ zlen path + zlen name + 2 < 4096) names ->
  exists r, druns stat (dstart [] 0) [DOpenDir path (inl names); DEnum None false] = Ok r.
Proof.
  intros H. destruct (H (fun _ => None) [100] [[97]]) as (r & E); [constructor; [split; [discriminate|reflexivity]|constructor]|]. vm_compute in E. discriminate E.
Qed.

(** A path that does not fit is cut: a file is told with the size of another one. *)
Definition far : list Z := 47 :: repeat 100 4090.
Definition far_stat (p : list Z) : option fstat :=
  if list_eq_dec Z.eq_dec p (dirpath far ++ [97; 98; 99; 100]) then Some (SFile 5)
  else if list_eq_dec Z.eq_dec p (dirpath far ++ [97; 98; 99]) then Some (SFile 9) else None.
Theorem C142_far_refuted : ~ forall stat path name n, name <> [] -> ~ hidden name -> stat (dirpath path ++ name) = Some (SFile n) ->
  exists p, druns stat (dstart [] 0) [DOpenDir path (inl [name]); DEnum None false] = Ok (p, [(ERR_NONE, None); (ERR_NONE, Some (mkItem name n 0))]).
Proof.
  intros H. destruct (H far_stat far [97; 98; 99; 100] 5) as (p & E); [discriminate|intros (r & [=])|vm_compute; reflexivity|].
  assert (B : match druns far_stat (dstart [] 0) [DOpenDir far (inl [[97; 98; 99; 100]]); DEnum None false] with Ok (_, [_; (_, Some i)]) => it_size i =? 9 | _ => false end = true) by (vm_compute; reflexivity).
  rewrite E in B. discriminate B.
Qed.

(** "/m" with ".", "a.mkv", "b.txt" and "sub": the stream has a file open and lists the directory twice, then is deleted. *)
Definition ex_stat (p : list Z) : option fstat :=
  if list_eq_dec Z.eq_dec p [47; 109; 47; 97; 46; 109; 107; 118] then Some (SFile 700)
  else if list_eq_dec Z.eq_dec p [47; 109; 47; 98; 46; 116; 120; 116] then Some (SFile 3)
  else if list_eq_dec Z.eq_dec p [47; 109; 47; 115; 117; 98] then Some SDir else None.
Definition ex_names : list (list Z) := [[46]; [97; 46; 109; 107; 118]; [98; 46; 116; 120; 116]; [115; 117; 98]].
Definition ex_exts : option (list Z) := Some [109; 107; 118; 58; 86].
Example C142_ex :
  Forall (good_call ex_stat) [DOpen true true; DOpenDir [47; 109] (inl ex_names)] /\
  listing ex_stat (dirpath [47; 109]) ex_exts true ex_names [mkItem [97; 46; 109; 107; 118] 700 86; mkItem [115; 117; 98] (-1) 68] /\
  match druns ex_stat (dstart [7; 3]%nat 8) (DOpen true true :: DOpenDir [47; 109] (inl ex_names) :: repeat (DEnum ex_exts true) 3) with
  | Ok (p, r) => p_open p = [8; 7; 3]%nat /\ r = [(0, None); (0, None); (0, Some (mkItem [97; 46; 109; 107; 118] 700 86)); (0, Some (mkItem [115; 117; 98] (-1) 68)); (ERR_END_OF_FILE, None)]
  | _ => False
  end.
Proof.
  split; [|split].
  - constructor; [exact I|]. constructor; [|constructor]. cbn [good_call]. split; [reflexivity|].
    constructor; [|repeat apply Forall_cons; try apply Forall_nil; (split; [discriminate|]; split; [reflexivity|]; intros _; vm_compute; discriminate)]. split; [discriminate|]. split; [reflexivity|]. intros K. exfalso. apply K. exists []. reflexivity.
  - apply (li_name _ _ _ _ _ _ []); [apply ad_hidden; exists []; reflexivity|].
    apply (li_name _ _ _ _ _ _ [_]); [apply ad_file; [intros (r & [=])|vm_compute; reflexivity|vm_compute; reflexivity|left; discriminate]|].
    apply (li_name _ _ _ _ _ _ []); [apply (ad_other _ _ _ _ _ 3); [intros (r & [=])|vm_compute; reflexivity|vm_compute; reflexivity|reflexivity]|].
    apply (li_name _ _ _ _ _ _ [_] []); [apply ad_dir; [intros (r & [=])|vm_compute; reflexivity]|]. apply li_none.
  - vm_compute. split; reflexivity.
Qed.

Print Assumptions C142_handles.
Print Assumptions C142_deleted.
Print Assumptions C142_listing.
Print Assumptions C142_listed.
Print Assumptions C142_dangling_refuted.
Print Assumptions C142_far_refuted.
