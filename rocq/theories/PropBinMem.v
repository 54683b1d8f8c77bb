(** C138: the data of binary elements, over every history of calls. *)
From Verif Require Import Base BaseProofs Ebml Stream Tree Arr BinMem BinMemSpec BinMemProofs.

(** After calls in order, a call in order ends: it reads and writes no storage but that of the element,
    with allocations failing or not. *)
Theorem C138_safe h m o : bhappens h m -> b_orderly h = true -> b_in_order h o = true -> exists m' r, bstep m o = Some (m', r).
Proof. intros H O I. destruct (binv_step h m o (bhappens_inv h m H O) I) as (m' & r & S & _). eauto. Qed.
(** The data told of an element that has a value is that value: the bytes set last, the announced bytes
    of what was read last, or those of the element it is a copy of; whatever was done to other elements
    since, and whatever calls failed. *)
Theorem C138_value h m k d : bhappens h m -> b_orderly h = true -> b_whole h = true -> b_alive m k ->
  value h k = Some d -> b_tells m k (pointed d).
Proof.
  intros H O W A V. unfold b_alive in A. destruct (bm_elts m k) as [e|] eqn:Ek; [|congruence].
  destruct (bhappens_inv h m H O k e Ek) as (_ & Ho & Hw). specialize (Hw W). rewrite V in Hw.
  destruct (get_ok e _ Ho) as (r & G). pose proof (get_holds _ _ _ _ Hw G) as ->. unfold b_tells. cbn [bstep]. rewrite Ek, G. reflexivity.
Qed.
(** It is written as that value behind a head that announces its size; an element without value is not
    written. *)
Theorem C138_written h m k : bhappens h m -> b_orderly h = true -> b_whole h = true -> b_alive m k ->
  b_writes m k match value h k with Some d => Some (zlen d, d) | None => None end.
Proof.
  intros H O W A. unfold b_alive in A. destruct (bm_elts m k) as [e|] eqn:Ek; [|congruence].
  destruct (bhappens_inv h m H O k e Ek) as (_ & Ho & Hw). specialize (Hw W).
  destruct (render_ok e _ Ho) as (e' & b & R & _). destruct (render_holds _ _ _ _ _ Hw R) as (_ & <-).
  exists (bput m k (Some e')). cbn [bstep]. rewrite Ek, R. reflexivity.
Qed.
(** The size told by EBML_ElementDataSize. *)
Theorem C138_size h m k e : bhappens h m -> b_orderly h = true -> b_whole h = true -> bm_elts m k = Some e ->
  b_size e = told_size h k /\ forall d, value h k = Some d -> b_size e = zlen d.
Proof.
  intros H O W Ek. destruct (bhappens_inv h m H O k e Ek) as (_ & _ & Hw). specialize (Hw W). split; [apply Hw|].
  intros d V. rewrite V in Hw. apply Hw.
Qed.

(** The elements that are there are those given out and not deleted since: a deletion takes no other, and what is given out is new. *)
Theorem C138_alive h m k : bhappens h m -> (b_alive m k <-> b_lives h k = true).
Proof.
  intros H. revert k. unfold b_alive. induction H as [|h m o m' r H IH S]; intros k; [cbn; split; [congruence|discriminate]|].
  assert (Add : forall e, Some (badd m e) = Some (m', r) -> bm_elts m' k <> None <-> bmade r k || b_lives h k = true).
  { intros e [= <- <-]. cbn [bm_elts bmade]. rewrite (Nat.eqb_sym (bm_made m) k). destruct (Nat.eqb k (bm_made m)); cbn [orb]; [split; [reflexivity|discriminate]|apply IH]. }
  assert (Put : forall j e x, bm_elts m j = Some e -> Some (bput m j (Some x), r) = Some (m', r) -> bm_elts m' k <> None <-> b_lives h k = true).
  { intros j e x J [= <-]. cbn [bput bm_elts]. rewrite <- IH. destruct (Nat.eqb_spec k j) as [->|]; [rewrite J; split; discriminate|reflexivity]. }
  destruct o as [|n|j d ok junk|j nd src ok junk|j|j|j|j mk ok junk|j]; cbn [bstep b_lives] in S |- *.
  - exact (Add _ S).
  - exact (Add _ S).
  - destruct (bm_elts m j) as [e|] eqn:J; [|injection S as <- <-; apply IH]. destruct (b_set_data e d ok junk) as [[x c]|]; [|discriminate]. assert (r = PCode c) by congruence. subst r. exact (Put _ _ _ J S).
  - destruct (bm_elts m j) as [e|] eqn:J; [|injection S as <- <-; apply IH]. destruct (b_read e nd src ok junk) as [[x c]|]; [|discriminate]. assert (r = PCode c) by congruence. subst r. exact (Put _ _ _ J S).
  - destruct (bm_elts m j) as [e|] eqn:J; [|injection S as <- <-; apply IH]. destruct (b_get e); [|discriminate]. injection S as <- <-. apply IH.
  - destruct (bm_elts m j) as [e|] eqn:J; [|injection S as <- <-; apply IH]. destruct (b_update e) as [x c]. assert (r = PSize c) by congruence. subst r. exact (Put _ _ _ J S).
  - destruct (bm_elts m j) as [e|] eqn:J; [|injection S as <- <-; apply IH]. destruct (b_render e) as [[x c]|]; [|discriminate]. assert (r = PBytes c) by congruence. subst r. exact (Put _ _ _ J S).
  - destruct (bm_elts m j) as [e|] eqn:J; [|injection S as <- <-; apply IH]. destruct mk; [|injection S as <- <-; apply IH]. destruct (b_copy e ok junk); [|discriminate]. exact (Add _ S).
  - destruct (bm_elts m j) as [e|] eqn:J; injection S as <- <-; cbn [bmade orb].
    + cbn [bput bm_elts]. rewrite (Nat.eqb_sym j k). destruct (Nat.eqb k j); cbn [negb andb]; [split; [congruence|discriminate]|apply IH].
    + destruct (Nat.eqb_spec j k) as [->|]; cbn [negb andb]; [rewrite J; split; [congruence|discriminate]|apply IH].
Qed.
(** What is given out was not there before. *)
Theorem C138_new h m o m' k : bhappens h m -> bstep m o = Some (m', PNew (Some k)) -> ~ b_alive m k /\ b_alive m' k.
Proof.
  intros H S. assert (B : forall j, (bm_made m <= j)%nat -> bm_elts m j = None).
  { clear S. induction H as [|h m c m1 r H IH S]; [reflexivity|]. intros j L.
    assert (Add : forall e, Some (badd m e) = Some (m1, r) -> bm_elts m1 j = None).
    { intros e [= <- <-]. cbn [bm_elts bm_made] in *. destruct (Nat.eqb_spec j (bm_made m)); [lia|apply IH; lia]. }
    assert (Put : forall i e x, bm_elts m i = Some e -> m1 = bput m i x -> bm_elts m1 j = None).
    { intros i e x J E1. rewrite E1 in *. cbn [bput bm_elts bm_made] in *. destruct (Nat.eqb j i) eqn:Q; [apply Nat.eqb_eq in Q; rewrite <- Q, (IH j L) in J; discriminate|apply IH; exact L]. }
    destruct c as [|n|i d ok junk|i nd src ok junk|i|i|i|i mk ok junk|i]; cbn [bstep] in S; try exact (Add _ S);
      (destruct (bm_elts m i) as [e|] eqn:J; [|injection S as <- <-; apply IH; exact L]).
    - destruct (b_set_data e d ok junk) as [[x q]|]; [|discriminate]. injection S as S1 _. exact (Put _ _ _ J (eq_sym S1)).
    - destruct (b_read e nd src ok junk) as [[x q]|]; [|discriminate]. injection S as S1 _. exact (Put _ _ _ J (eq_sym S1)).
    - destruct (b_get e); [|discriminate]. injection S as <- <-. apply IH; exact L.
    - destruct (b_update e) as [x q]. injection S as S1 _. exact (Put _ _ _ J (eq_sym S1)).
    - destruct (b_render e) as [[x q]|]; [|discriminate]. injection S as S1 _. exact (Put _ _ _ J (eq_sym S1)).
    - destruct mk; [|injection S as <- <-; apply IH; exact L]. destruct (b_copy e ok junk); [|discriminate]. exact (Add _ S).
    - injection S as S1 _. exact (Put _ _ _ J (eq_sym S1)). }
  assert (A : forall e, Some (badd m e) = Some (m', PNew (Some k)) -> ~ b_alive m k /\ b_alive m' k).
  { intros e [= <- <-]. unfold b_alive. rewrite B by lia. split; [congruence|]. cbn [bm_elts]. rewrite Nat.eqb_refl. discriminate. }
  destruct o as [|n|j d ok junk|j nd src ok junk|j|j|j|j mk ok junk|j]; cbn [bstep] in S; try exact (A _ S); destruct (bm_elts m j) as [e|]; try discriminate.
  - destruct (b_set_data e d ok junk) as [[x c]|]; discriminate.
  - destruct (b_read e nd src ok junk) as [[x c]|]; discriminate.
  - destruct (b_get e); discriminate.
  - destruct (b_render e) as [[x c]|]; discriminate.
  - destruct mk; [|discriminate]. destruct (b_copy e ok junk); [|discriminate]. exact (A _ S).
Qed.

(** A program: its calls one after the other. *)
Fixpoint bsteps (m : bmem) (h : bhistory) (l : list bcall) : option (bmem * bhistory) :=
  match l with [] => Some (m, h) | o :: l => match bstep m o with None => None | Some (m, r) => bsteps m ((o, r) :: h) l end end.
Lemma bsteps_happen l m h m' h' : bhappens h m -> bsteps m h l = Some (m', h') -> bhappens h' m'.
Proof.
  revert m h. induction l as [|o l IH]; intros m h H; cbn [bsteps].
  - intros [= <- <-]. auto.
  - destruct (bstep m o) as [[m1 r]|] eqn:E; [|discriminate]. apply IH. econstructor; eauto.
Qed.
(** Reading into an element whose size is not known, one just made or one found with that mark, writes
    outside of its storage as soon as there is a byte to read. *)
Theorem C138_unknown_refuted src junk : src <> [] -> exists m,
  bhappens [(BFound (-1), PNew (Some 0%nat))] m /\ bstep m (BRead 0 false (Some src) true junk) = None.
Proof.
  intros Hs. eexists _. split.
  { eapply (bsteps_happen [BFound (-1)]); [constructor|reflexivity]. }
  cbn [bstep badd fst bm_elts bm_made bm_start Nat.eqb]. unfold b_read. cbn [b_new b_size b_data b_need b_set].
  change (-1 mod 2 ^ 64) with 18446744073709551615.
  replace (resize64 true junk (mkArr [] 0) 18446744073709551615) with (Some (mkArr [] 18446744073709551615)) by (vm_compute; reflexivity).
  cbn [mem]. unfold mem_put. set (d := firstn _ src). assert (0 < zlen d).
  { unfold d, zlen in *. rewrite firstn_length. destruct src; [congruence|]. cbn [length] in *. lia. }
  change (zlen (@nil Z)) with 0. rewrite (proj2 (Z.ltb_lt 0 (0 + zlen d))) by lia. rewrite orb_true_r. reflexivity.
Qed.
(** A copy whose data found no memory has the mark of a value and the size of the original, and is
    written as a head that announces this size with nothing behind it. *)
Theorem C138_copy_refuted d junk : d <> [] -> zlen d < 2 ^ 61 -> exists h m,
  bhappens h m /\ b_orderly h = true /\ map fst h = [BCopy 0 true false junk; BSet 0 d true junk; BCreate] /\ b_writes m 1 (Some (zlen d, [])).
Proof.
  intros Hd Hz. destruct (bstep bm_start BCreate) as [[m0 r0]|] eqn:E0; [|discriminate].
  assert (H0 : bhappens [(BCreate, r0)] m0) by (econstructor; [constructor|exact E0]).
  injection E0 as <- <-. pose proof (zlen_nonneg d) as Hn.
  assert (R : exists a, resize64 true junk (mkArr [] 0) (zlen d) = Some a).
  { destruct (resize64 true junk (mkArr [] 0) (zlen d)) eqn:R; [eauto|]. exfalso. revert R. apply resize64_gets. lia. }
  destruct R as (a & R). assert (E00 : arr_in (mkArr [] 0)) by (unfold arr_in, zlen; cbn; lia).
  destruct (resize64_in true junk (mkArr [] 0) (zlen d) a ltac:(lia) E00 R) as (U & Ia).
  destruct (mem_put_front (mem a) d) as (t & P & L); [unfold arr_in in Ia; lia|].
  pose (e := BElt true false (zlen d) (mkArr (d ++ t) (used a))).
  assert (Ld : (zlen (@nil Z) <? zlen d) = true) by (apply Z.ltb_lt; unfold zlen in *; destruct d; [congruence|]; cbn [length]; lia).
  exists [(BCopy 0 true false junk, PNew (Some 1%nat)); (BSet 0 d true junk, PCode ERR_NONE); (BCreate, PNew (Some 0%nat))]. eexists. split.
  { econstructor; [econstructor; [exact H0|]|].
    - cbn [bstep badd fst bm_elts bm_made bm_start Nat.eqb]. unfold b_set_data. cbn [b_new b_data]. rewrite R, P. reflexivity.
    - cbn [bstep badd fst bm_elts bm_made bm_start Nat.eqb bput]. unfold b_copy. cbn [b_data used b_set b_need b_size].
      rewrite U. unfold resize64. cbn [mem]. rewrite Ld. unfold data_realloc. cbn [mem andb].
      pose proof (size_align_bounds (zlen d) ltac:(lia)) as B. rewrite Z.mod_small by lia.
      rewrite (proj2 (Z.ltb_lt (zlen (@nil Z)) (size_align (zlen d) 0))) by (apply Z.ltb_lt in Ld; lia). reflexivity. }
  split; [|split; [reflexivity|]].
  - cbn [b_orderly b_in_order]. rewrite (proj2 (Z.ltb_lt (zlen d) (2 ^ 61))) by lia. reflexivity.
  - eexists. reflexivity.
Qed.
(** An element that is measured before its data is read loses its size: what is read then is nothing,
    and reported as well read. *)
Theorem C138_measured_refuted n src junk : exists h m,
  bhappens h m /\ rev h = [(BFound n, PNew (Some 0%nat)); (BUpdate 0, PSize 0); (BRead 0 false (Some src) true junk, PCode ERR_NONE)] /\ b_tells m 0 None.
Proof.
  eexists _, _. split.
  { eapply (bsteps_happen [BFound n; BUpdate 0; BRead 0 false (Some src) true junk]); [constructor|].
    cbn [bsteps bstep badd bm_elts bm_start bm_made Nat.eqb b_update b_new b_data used b_set b_need bput fst snd].
    unfold b_read. cbn [b_size b_data b_need mem used]. change (0 mod 2 ^ 64) with 0.
    replace (resize64 true junk (mkArr [] 0) 0) with (Some (mkArr [] 0)) by reflexivity. cbn [mem].
    pose proof (zlen_nonneg src). rewrite Z.min_l by lia. cbn [firstn Z.to_nat].
    rewrite (proj2 (Z.ltb_ge (zlen src) 0)) by lia. reflexivity. }
  split; reflexivity.
Qed.
(** After a reading that failed, what was in fresh memory is handed out as data. *)
Theorem C138_failed_refuted junk : exists h m,
  bhappens h m /\ b_orderly h = true /\ rev h = [(BFound 2, PNew (Some 0%nat)); (BRead 0 false (Some [7]) true junk, PCode ERR_END_OF_FILE)] /\ b_tells m 0 (Some [7; junk]).
Proof.
  eexists _, _. split.
  { eapply (bsteps_happen [BFound 2; BRead 0 false (Some [7]) true junk]); [constructor|reflexivity]. }
  split; [reflexivity|]. split; reflexivity.
Qed.

(** An element read from a file, copied, the copy changed, a change that fails, both written. *)
Definition bex_calls : list bcall :=
  [BFound 3; BRead 0 false (Some [97; 0; 99; 100]) true 9; BCopy 0 true true 9; BSet 1 [120; 121; 122; 123] true 9; BSet 0 (repeat 5 200) false 9;
   BGet 0; BGet 1; BRender 0; BUpdate 1; BRender 1; BSet 0 [] true 9; BGet 0; BRender 0; BRead 1 false (Some [1]) true 9; BRender 1].
Definition bex_end : bmem * bhistory := match bsteps bm_start [] bex_calls with Some p => p | _ => (bm_start, []) end.
Example C138_ex : bhappens (snd bex_end) (fst bex_end) /\ b_orderly (snd bex_end) = true /\ b_whole (snd bex_end) = true /\
  map snd (rev (snd bex_end)) =
    [PNew (Some 0%nat); PCode 0; PNew (Some 1%nat); PCode 0; PCode ERR_OUT_OF_MEMORY; PData (Some [97; 0; 99]); PData (Some [120; 121; 122; 123]);
     PBytes (Some (3, [97; 0; 99])); PSize 4; PBytes (Some (4, [120; 121; 122; 123])); PCode 0; PData None; PBytes (Some (0, [])); PCode ERR_END_OF_FILE; PBytes None]
  /\ value (snd bex_end) 0 = Some [] /\ value (snd bex_end) 1 = None.
Proof.
  split; [apply (bsteps_happen bex_calls bm_start []); [constructor|]; vm_compute; reflexivity|]. vm_compute. auto 10.
Qed.
Example C138_copy_ex : [1; 2; 3] <> [] /\ zlen [1; 2; 3] < 2 ^ 61.
Proof. split; [discriminate|reflexivity]. Qed.

(** Two elements and a copy; the first is deleted, and a new one is given out. *)
Example C138_alive_ex : match bsteps bm_start [] [BFound 2; BCreate; BCopy 0 true true 9; BDelete 0; BCreate] with
  | Some (m, h) => map (b_lives h) [0; 1; 2; 3; 4]%nat = [false; true; true; true; false] /\ map (fun k => match bm_elts m k with Some _ => true | None => false end) [0; 1; 2; 3; 4]%nat = [false; true; true; true; false]
  | None => False end.
Proof. vm_compute. split; reflexivity. Qed.

Print Assumptions C138_safe.
Print Assumptions C138_value.
Print Assumptions C138_written.
Print Assumptions C138_size.
Print Assumptions C138_unknown_refuted.
Print Assumptions C138_copy_refuted.
Print Assumptions C138_measured_refuted.
Print Assumptions C138_failed_refuted.
Print Assumptions C138_alive.
Print Assumptions C138_new.
