(** Proofs about the compression of tracks. *)
From Verif Require Import Base BaseProofs IntEltProofs Vint EbmlId Ebml Tree TreeRead Create CreateProofs Str StrSpec StrProofs Durations DurationsSpec DurationsProofs Frame Block BlockTime Cues CuesSpec CuesProofs CuesProofs2 Tracks TracksSpec TracksProofs TracksProofs2 Encode EncodeSpec.

Lemma plain_any : forall l id t, text id -> Forall text l -> any_of (map (fun c => c ++ [0]) l) (id ++ 0 :: t) = Ok true /\ (exists c, In c l /\ same_text id c) \/
  any_of (map (fun c => c ++ [0]) l) (id ++ 0 :: t) = Ok false /\ forall c, In c l -> ~ same_text id c.
Proof.
  induction l as [|c l IH]; intros id t Hi Hl; cbn [map any_of]; [right; split; [reflexivity|intros c []]|].
  apply Forall_cons_iff in Hl. destruct Hl as [Hc Hl]. rewrite same_text_id by assumption. cbn [bind].
  destruct (order id c) eqn:O.
  - left. split; [reflexivity|]. exists c. split; [left; reflexivity|]. apply order_eq; assumption.
  - destruct (IH id t Hi Hl) as [[E (d & Hd & S)]|[E N]]; [left|right]; (split; [exact E|]); [exists d; split; [right; exact Hd|exact S]|].
    intros d [<-|Hd]; [|exact (N d Hd)]. intros S. apply order_eq in S; [|assumption..]. congruence.
  - destruct (IH id t Hi Hl) as [[E (d & Hd & S)]|[E N]]; [left|right]; (split; [exact E|]); [exists d; split; [right; exact Hd|exact S]|].
    intros d [<-|Hd]; [|exact (N d Hd)]. intros S. apply order_eq in S; [|assumption..]. congruence.
Qed.
Lemma plain_texts : Forall text plain_names.
Proof. repeat (constructor; [known_text|]). constructor. Qed.
Lemma text_nz id : text id -> Forall (fun x => x <> 0) id.
Proof. intros H. eapply Forall_impl; [|exact H]. cbn. intros a Ha. lia. Qed.
Lemma starts_yes : forall p r t, starts_with p ((p ++ r) ++ t) = Ok true.
Proof. induction p as [|x p IH]; intros r t; [reflexivity|]. cbn [app starts_with]. rewrite Z.eqb_refl. apply IH. Qed.
Lemma plain_codec_ok id t : text id -> plain_codec (id ++ 0 :: t) = Ok true /\ stores_plain id \/ plain_codec (id ++ 0 :: t) = Ok false /\ ~ stores_plain id.
Proof.
  intros Hi. unfold plain_codec. change PLAIN_IDS with (map (fun c => c ++ [0]) plain_names).
  destruct (plain_any plain_names id t Hi plain_texts) as [[-> H]|[-> N]]; cbn [bind]; [left; split; [reflexivity|left; exact H]|].
  assert (D : (exists r, id = PCM_PREFIX ++ r) \/ forall r, id <> PCM_PREFIX ++ r).
  { destruct (list_eq_dec Z.eq_dec (firstn 5 id) PCM_PREFIX) as [E|E]; [left; exists (skipn 5 id); rewrite <- E; symmetry; apply firstn_skipn|right; intros r ->; apply E; reflexivity]. }
  destruct D as [(r & ->)|D].
  - left. split; [apply starts_yes|]. right. exists r. reflexivity.
  - right. split; [apply starts_no; [repeat (constructor; [lia|]); constructor|apply text_nz; exact Hi|exact D]|]. intros [(c & Hc & S)|(r & Hr)]; [exact (N c Hc S)|exact (D r Hr)].
Qed.

Section Proofs.
Context (rest : schema) (td : Z -> Z) (zl : list Z -> option Z).
Notation T := (T rest).

Lemma change_same id f l d : find_child T id l = Some d -> f d = Ok d -> change_child T id f l = Ok l.
Proof. clear td zl.
  unfold find_child. induction l as [|x l IH]; cbn [find change_child]; [discriminate|]. destruct (_ =? id); [intros [= ->] ->; reflexivity|]. intros H Hf. rewrite (IH H Hf). reflexivity.
Qed.
Lemma land1 s : (Z.land s SCOPE_BLOCK =? 0) = negb (Z.odd s).
Proof. unfold SCOPE_BLOCK. change 1 with (Z.ones 1). rewrite Z.land_ones by lia. change (2 ^ 1) with 2. rewrite Zmod_odd. destruct (Z.odd s); reflexivity. Qed.
Lemma find_head25152 enc : has_id T 25152 enc -> find_child T ID_ContentEncoding [enc] = Some enc.
Proof. clear td zl. intros H. unfold find_child. cbn [find]. unfold eid_of. rewrite H. reflexivity. Qed.
Lemma touch_declares fuel prof t scope algo st : declares T t scope algo st -> touch_compression rest td fuel prof t = Ok t.
Proof. clear zl.
  intros (i & k & ch & enc & cp & j & H1 & -> & H2 & H3 & H4 & (ja & H5) & _). destruct t as [i0 v0|i0 k0 ch0]; [destruct H1 as (l1 & l2 & E & _); destruct l1; discriminate E|].
  cbn [touch_compression]. cbn [kids] in H1. rewrite (change_same _ _ ch0 _ (find_only _ _ _ _ H1)); [reflexivity|].
  rewrite (change_same _ _ [enc] enc (find_head25152 enc H2)); [reflexivity|].
  rewrite (get_found rest td fuel prof 7 enc _ (find_only _ _ _ _ H3)). cbn [bind fst snd int_of]. rewrite land1. destruct (Z.odd scope); [|reflexivity]. cbn [negb].
  destruct enc as [ie ve|ie ke che]; [destruct H3 as (l1 & l2 & E & _); destruct l1; discriminate E|]. cbn [kids] in H3, H4.
  rewrite (change_same _ _ che _ (find_only _ _ _ _ H4)); [reflexivity|]. unfold look. rewrite (get_found rest td fuel prof 10 cp _ (find_only _ _ _ _ H5)). reflexivity.
Qed.
Lemma touch_plain fuel prof t : uncompressed T t -> touch_compression rest td fuel prof t = Ok t.
Proof. clear zl. intros H. destruct t as [i v|i k ch]; [reflexivity|]. cbn [touch_compression]. unfold uncompressed in H. cbn [kids] in H. rewrite change_none by (apply find_no; exact H). reflexivity. Qed.
Lemma get_plain fuel prof t : uncompressed T t -> get_compression rest td fuel prof t = Ok (-1).
Proof. clear zl. intros H. unfold get_compression, child. rewrite kids_children. change ID_ContentEncodings with 28032. rewrite (find_no _ _ _ H). reflexivity. Qed.
Lemma none_plain t : uncompressed T t -> set_none rest t = (false, t).
Proof. clear td zl. intros H. unfold set_none, child. rewrite kids_children. change ID_ContentEncodings with 28032. rewrite (find_no _ _ _ H). reflexivity. Qed.
Lemma none_declared t scope algo st : declares T t scope algo st -> fst (set_none rest t) = true.
Proof. clear td zl. intros (i & k & ch & enc & cp & j & H1 & _). unfold set_none, child. rewrite kids_children. change ID_ContentEncodings with 28032. rewrite (find_only _ _ _ _ H1). reflexivity. Qed.
Lemma scope_plain fuel prof t : uncompressed T t -> scope_now rest td fuel prof t = Ok 1.
Proof. clear zl. intros H. unfold scope_now, child. rewrite kids_children. change ID_ContentEncodings with 28032. rewrite (find_no _ _ _ H). reflexivity. Qed.
Lemma scope_declared fuel prof t scope algo st : declares T t scope algo st -> scope_now rest td fuel prof t = Ok (s32 scope).
Proof. clear zl.
  intros (i & k & ch & enc & cp & j & H1 & -> & H2 & H3 & _). unfold scope_now, child. rewrite kids_children. change ID_ContentEncodings with 28032. rewrite (find_only _ _ _ _ H1). cbn [children].
  rewrite (find_head25152 enc H2). rewrite (get_found rest td fuel prof 7 enc _ (find_only _ _ _ _ H3)). reflexivity.
Qed.
Lemma coded_plain fuel prof t : uncompressed T t -> coded rest td fuel prof t = Ok false.
Proof. clear zl. intros H. unfold coded, child. rewrite kids_children. change ID_ContentEncodings with 28032. rewrite (find_no _ _ _ H). reflexivity. Qed.
Lemma coded_declared fuel prof t scope algo st : declares T t scope algo st -> coded rest td fuel prof t = Ok (if Z.odd scope then negb (algo =? 3) else false).
Proof. clear zl.
  intros (i & k & ch & enc & cp & j & H1 & -> & H2 & H3 & H4 & (ja & H5) & _). unfold coded, child. rewrite kids_children. change ID_ContentEncodings with 28032. rewrite (find_only _ _ _ _ H1). cbn [children].
  rewrite (find_head25152 enc H2). rewrite (get_found rest td fuel prof 7 enc _ (find_only _ _ _ _ H3)). cbn [bind fst snd int_of]. rewrite land1. destruct (Z.odd scope); [|reflexivity]. cbn [negb].
  rewrite (get_found rest td fuel prof 9 enc _ (find_only _ _ _ _ H4)). cbn [bind fst snd]. rewrite (get_found rest td fuel prof 10 cp _ (find_only _ _ _ _ H5)). reflexivity.
Qed.

Lemma private_ok t p : private T t p -> private_data rest t = p.
Proof. clear td zl.
  intros H. unfold private_data, child. rewrite kids_children. change ID_CodecPrivate with 25506. destruct p as [d|]; [destruct H as (j & H); rewrite (find_only _ _ _ _ H)|rewrite (find_no _ _ _ H)]; reflexivity.
Qed.
Lemma drop_solid t p : private T t p -> p <> Some [] -> drop_empty rest t = t.
Proof. clear td zl. intros H N. unfold drop_empty. rewrite (private_ok t p H). destruct p as [[|x d]|]; [contradiction|reflexivity..]. Qed.
Lemma drop_void t j : only T 25506 (kids t) (Leaf j (VBin [])) -> exists t', drop_empty rest t = t' /\ drop_empty rest t' = t' /\ private T t' None /\ others T 25506 (kids t) (kids t') /\ e_kind (einfo t') = e_kind (einfo t).
Proof. clear td zl.
  intros H. assert (P : private T t (Some [])) by (exists j; exact H). unfold drop_empty. rewrite (private_ok t _ P).
  destruct t as [i v|i k ch]; [destruct H as (l1 & l2 & E & _); destruct l1; discriminate E|]. cbn [delete_child]. cbn [kids] in H. destruct (drop_only rest _ _ _ H) as [D1 D2].
  exists (Master (with_need i true) k (drop_first rest ID_CodecPrivate ch)). split; [reflexivity|].
  assert (P' : private T (Master (with_need i true) k (drop_first rest ID_CodecPrivate ch)) None) by exact D1.
  split; [rewrite (private_ok _ _ P'); reflexivity|]. split; [exact P'|]. split; [exact D2|reflexivity].
Qed.

(** No gain leaves the choice, a gain takes --compalgo and the private data too. *)
Definition wants (o : options) (enc scope : Z) : Prop := (o_opt o = true \/ enc <> -1) /\ enc <> 3 /\ scope <> 2.
Definition extra_of (o : options) (enc : Z) : Z := (if enc =? -1 then 13 else 3) + (if o_algo o =? 0 then 0 else 1).
Lemma try_off o enc scope t p : private T t p -> ~ gain zl (extra_of o enc) p -> try_private rest zl o enc scope t = (enc, scope).
Proof. clear td.
  intros H N. unfold try_private. destruct ((o_opt o || negb (enc =? COMP_NONE)) && negb (enc =? COMP_HEADERSTRIP) && negb (scope =? SCOPE_PRIVATE)); [|reflexivity].
  rewrite (private_ok t p H). destruct p as [d|]; [|reflexivity]. cbv zeta. destruct (zl d) as [n|] eqn:Z; [|reflexivity].
  destruct (Z.ltb_spec (n + ((if enc =? COMP_NONE then 13 else 3) + (if o_algo o =? COMP_ZLIB then 0 else 1))) (zlen d)) as [L|]; [|reflexivity]. elim N. exists d, n. split; [reflexivity|]. split; [exact Z|exact L].
Qed.
Lemma try_on o enc scope t p : private T t p -> gain zl (extra_of o enc) p -> wants o enc scope -> try_private rest zl o enc scope t = (o_algo o, Z.lor scope 2).
Proof. clear td.
  intros H (d & n & -> & Zn & L) (W1 & W2 & W3). unfold try_private, COMP_NONE, COMP_HEADERSTRIP, SCOPE_PRIVATE.
  replace ((o_opt o || negb (enc =? -1)) && negb (enc =? 3) && negb (scope =? 2)) with true.
  2: { symmetry. rewrite !andb_true_iff, orb_true_iff, !negb_true_iff. repeat (split; try lia). destruct W1; [left; assumption|right; lia]. }
  rewrite (private_ok t _ H), Zn. cbv zeta. unfold extra_of in L. unfold COMP_ZLIB. rewrite (proj2 (Z.ltb_lt _ _) L). reflexivity.
Qed.
Lemma try_not o enc scope t : ~ wants o enc scope -> try_private rest zl o enc scope t = (enc, scope).
Proof. clear td.
  intros W. unfold try_private, COMP_NONE, COMP_HEADERSTRIP, SCOPE_PRIVATE.
  replace ((o_opt o || negb (enc =? -1)) && negb (enc =? 3) && negb (scope =? 2)) with false; [reflexivity|]. symmetry. apply not_true_is_false. intros K. apply W.
  rewrite !andb_true_iff, orb_true_iff, !negb_true_iff in K. destruct K as [[[K|K] K2] K3]; (split; [|split; lia]); [left; exact K|right; lia].
Qed.

(** ** What is done with the choice *)
Definition finish (enc scope : Z) (header : option (list Z)) (fuel : nat) (prof : Z) (e : elt) : res (bool * elt) :=
  do r <- (if (enc =? COMP_ZLIB) || (enc =? COMP_BZLIB) || (enc =? COMP_LZO1X) then set_algo rest td fuel prof scope COMP_ZLIB e
           else if enc =? COMP_HEADERSTRIP then
             match header with None => Ok (true, e) | Some h => set_header rest td fuel prof (Some h) e end
           else Ok (set_none rest e));
  do again <- coded rest td fuel prof (snd r);
  Ok (fst r || again, snd r).
Lemma encode_finish o hdr codec fuel prof t enc header scope enc' scope' : drop_empty rest t = t -> choose rest td o hdr codec fuel prof t = Ok (enc, header, t) ->
  (if enc =? -1 then Ok 0 else scope_now rest td fuel prof t) = Ok scope -> try_private rest zl o enc scope t = (enc', scope') ->
  encode_track rest td zl o hdr codec fuel prof t = finish enc' scope' header fuel prof t.
Proof. intros H1 H2 H3 H4. unfold encode_track. cbv zeta. rewrite H1, H2. cbn [bind]. unfold COMP_NONE. rewrite H3. cbn [bind]. rewrite H4. reflexivity. Qed.
Lemma finish_zlib enc scope header fuel prof t : (2 <= fuel)%nat -> plain_track T t -> 0 <= enc <= 2 -> 0 < scope < 2 ^ 32 ->
  exists need t', finish enc scope header fuel prof t = Ok (need, t') /\ declares T t' scope 0 None /\ others T 28032 (kids t) (kids t') /\
    need = (fst (set_none rest t) || Z.odd scope) /\ e_kind (einfo t') = e_kind (einfo t).
Proof.
  intros Hf Ht He Hs. unfold finish. replace ((enc =? COMP_ZLIB) || (enc =? COMP_BZLIB) || (enc =? COMP_LZO1X)) with true by (unfold COMP_ZLIB, COMP_BZLIB, COMP_LZO1X; lia).
  destruct (set_algo_ok rest td fuel prof scope COMP_ZLIB t Hf Ht) as (t' & -> & Hd & Ho & i & k & ch & -> & Hk); [lia|lia|unfold COMP_ZLIB; lia|].
  cbn [bind fst snd]. rewrite (coded_declared fuel prof _ _ _ _ Hd). cbn [bind]. eexists _, _. split; [reflexivity|]. split; [exact Hd|]. split; [exact Ho|]. split; [destruct (Z.odd scope); reflexivity|exact Hk].
Qed.
Lemma finish_none scope header fuel prof t : plain_track T t ->
  exists need t', finish (-1) scope header fuel prof t = Ok (need, t') /\ uncompressed T t' /\ others T 28032 (kids t) (kids t') /\
    need = fst (set_none rest t) /\ e_kind (einfo t') = e_kind (einfo t).
Proof. clear zl.
  intros Ht. unfold finish. change ((-1 =? COMP_ZLIB) || (-1 =? COMP_BZLIB) || (-1 =? COMP_LZO1X)) with false. change (-1 =? COMP_HEADERSTRIP) with false. cbv iota. cbn [bind].
  destruct (set_none_ok rest t Ht) as (i & k & ch & E & Hn & Ho & Hk & _). rewrite E. rewrite (coded_plain fuel prof (Master i k ch)) by exact Hn. cbn [bind].
  eexists _, _. split; [reflexivity|]. split; [exact Hn|]. split; [exact Ho|]. split; [apply orb_false_r|exact Hk].
Qed.
Lemma finish_strip scope h fuel prof t : (2 <= fuel)%nat -> plain_track T t -> h <> [] ->
  exists need t', finish 3 scope (Some h) fuel prof t = Ok (need, t') /\ declares T t' 1 3 (Some h) /\ others T 28032 (kids t) (kids t') /\
    need = fst (set_none rest t) /\ e_kind (einfo t') = e_kind (einfo t).
Proof. clear zl.
  intros Hf Ht Hh. unfold finish. change ((3 =? COMP_ZLIB) || (3 =? COMP_BZLIB) || (3 =? COMP_LZO1X)) with false. change (3 =? COMP_HEADERSTRIP) with true. cbv iota.
  destruct (set_header_ok rest td fuel prof h t Hf Ht Hh) as (t' & -> & Hd & Ho & i & k & ch & -> & Hk). cbn [bind fst snd]. rewrite (coded_declared fuel prof _ _ _ _ Hd). cbn [bind].
  eexists _, _. split; [reflexivity|]. split; [exact Hd|]. split; [exact Ho|]. split; [apply orb_false_r|exact Hk].
Qed.
Lemma finish_keep scope fuel prof t s st : declares T t s 3 st -> finish 3 scope None fuel prof t = Ok (true, t).
Proof. clear zl. intros Hd. unfold finish. change ((3 =? COMP_ZLIB) || (3 =? COMP_BZLIB) || (3 =? COMP_LZO1X)) with false. change (3 =? COMP_HEADERSTRIP) with true. cbv iota. cbn [bind fst snd]. rewrite (coded_declared fuel prof _ _ _ _ Hd). reflexivity. Qed.
End Proofs.

(** Video tracks with --optimize_nv. *)
Lemma skip_yes o : o_un o = false -> o_opt o = true -> o_video o = false -> skip_video o 1 = true.
Proof. intros A B C. unfold skip_video. rewrite A, B, C. reflexivity. Qed.
Lemma skip_no o ty : o_un o = true \/ o_opt o = false \/ o_video o = true \/ ty <> 1 -> skip_video o ty = false.
Proof. unfold skip_video, MATROSKA_TRACK_TYPE_VIDEO. intros H. destruct (o_un o), (o_opt o), (o_video o), (Z.eqb_spec ty 1); try reflexivity. destruct H as [H|[H|[H|H]]]; [discriminate..|contradiction]. Qed.
Lemma filter_in_all {A} (f : A -> bool) l : Forall (fun x => f x = true) l -> filter f l = l.
Proof. induction 1 as [|x l H _ IH]; [reflexivity|]. cbn [filter]. rewrite H, IH. reflexivity. Qed.
Lemma private_others (rest : schema) t t' p : private (T rest) t p -> others (T rest) 28032 (kids t) (kids t') -> none (T rest) 28032 (kids t') -> private (T rest) t' p.
Proof.
  intros P O N. unfold others in O. rewrite (filter_in_all _ (kids t')) in O; [|revert N; apply Forall_impl; intros x X; apply negb_true_iff, Z.eqb_neq; exact X].
  set (f := fun x => negb (kind_id (T rest) (e_kind (einfo x)) =? 28032)) in O.
  assert (Fs : forall (Q : elt -> Prop) l, Forall Q l -> Forall Q (filter f l)) by (intros Q l H; apply Forall_forall; intros x X; apply filter_In in X; rewrite Forall_forall in H; apply H, X).
  destruct p as [d|]; cbn [private] in *.
  - destruct P as (j & l1 & l2 & E & H & F). exists j, (filter f l1), (filter f l2). split; [|split; [exact H|rewrite <- filter_app; apply Fs; exact F]].
    rewrite O, E, filter_app. f_equal. cbn [filter]. replace (f (Leaf j (VBin d))) with true; [reflexivity|]. symmetry. apply negb_true_iff, Z.eqb_neq. unfold has_id in H. intros X. rewrite X in H. discriminate H.
  - rewrite O. apply Fs. exact P.
Qed.
Lemma prepared_ok (rest : schema) o t p : o_un o = false -> o_opt o = true -> o_video o = false -> plain_track (T rest) t -> private (T rest) t p ->
  let t1 := prepare_track rest o 1 t in plain_track (T rest) t1 /\ uncompressed (T rest) t1 /\ others (T rest) 28032 (kids t) (kids t1) /\ private (T rest) t1 p.
Proof.
  intros A B C Ht Hp. cbv zeta. unfold prepare_track. rewrite (skip_yes o A B C).
  assert (E : match child rest ID_ContentEncodings t with Some _ => delete_child rest ID_ContentEncodings t | None => t end = snd (set_none rest t)) by (unfold set_none; destruct (child rest ID_ContentEncodings t); reflexivity). rewrite E.
  destruct (set_none_ok rest t Ht) as (i & k & ch & E1 & N & O & _). rewrite E1. split; [exists i, k, ch; split; [reflexivity|left; exact N]|]. split; [exact N|]. split; [exact O|]. apply (private_others rest t); [exact Hp|exact O|exact N].
Qed.
