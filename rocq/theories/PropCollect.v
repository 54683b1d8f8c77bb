(** C136: asking for memory back. *)
From Verif Require Import Base Collect CollectSpec CollectProofs.

(** For all collectors, whatever they do and answer, NodeHibernate ends. *)
Theorem C136_ends S (cleanup : S -> S * bool) busy (l : list (collector S)) s : exists fuel r, hibernate cleanup fuel busy l s = Some r.
Proof.
  unfold hibernate. destruct busy; [exists O; eauto|].
  destruct (passes_end S l COLLECT_UNUSED s) as (fuel & [[s1 c] log] & E); [unfold COLLECT_UNUSED; lia|].
  exists fuel. rewrite E. destruct c; [eauto|]. destruct (cleanup s1). eauto.
Qed.
(** It goes through the rounds of the specification; modules are released only when no collector found
    memory; the result says whether a collector found memory or a module was released; afterwards memory
    can be asked for again. *)
Theorem C136_rounds S (cleanup : S -> S * bool) fuel (l : list (collector S)) s s' busy' b log :
  hibernate cleanup fuel false l s = Some (s', busy', b, log) ->
  busy' = false /\ exists s1 f, rounds l 0 s s1 f log /\ if f then b = true /\ s' = s1 else cleanup s1 = (s', b).
Proof.
  unfold hibernate. destruct (passes fuel l COLLECT_UNUSED s) as [[[s1 f] log1]|] eqn:P; [|discriminate].
  apply passes_rounds in P; [|unfold COLLECT_UNUSED; lia].
  destruct f.
  - intros [= <- <- <- <-]. split; [auto|]. exists s1, true. auto.
  - destruct (cleanup s1) as [s2 f2] eqn:C. intros [= <- <- <- <-]. split; [auto|]. exists s1, false. auto.
Qed.
(** Levels never go down; each is the first or one that somebody asked for; nothing is asked above the
    level at which some was found. *)
Theorem C136_levels S (cleanup : S -> S * bool) fuel (l : list (collector S)) s s' busy' b log :
  hibernate cleanup fuel false l s = Some (s', busy', b, log) ->
  (forall i j x y, (i < j)%nat -> nth_error log i = Some x -> nth_error log j = Some y -> fst x <= fst y) /\
  (forall x, In x log -> fst x = 0 \/ exists lv, In (lv, fst x) log /\ lv < fst x) /\
  (forall lv, In (lv, -1) log -> b = true /\ forall x, In x log -> fst x <= lv).
Proof.
  intros E. apply C136_rounds in E. destruct E as (_ & s1 & f & R & F). split; [|split].
  - eapply rounds_sorted; eauto.
  - eapply rounds_asked_for; eauto.
  - intros lv I. split.
    + assert (X : f = true) by (apply (rounds_found_iff _ _ _ _ _ _ _ R); eauto). rewrite X in F. apply F.
    + eapply rounds_stop; eauto.
Qed.
(** While memory is asked for, a collector that asks for memory gets the answer no at once. *)
Theorem C136_nested S (cleanup : S -> S * bool) fuel (l : list (collector S)) s : hibernate cleanup fuel true l s = Some (s, true, false, []).
Proof. reflexivity. Qed.

(** A cache of 5 that can be emptied from level 100 on, a picture of 3 from level 200 on. *)
Definition ex_cache (s : Z * Z) (level : Z) : (Z * Z) * Z :=
  if level <? 100 then (s, 100) else if 0 <? fst s then ((0, snd s), -1) else (s, 0).
Definition ex_picture (s : Z * Z) (level : Z) : (Z * Z) * Z :=
  if level <? 200 then (s, 200) else if 0 <? snd s then ((fst s, 0), -1) else (s, 0).
Example C136_ex :
  hibernate (fun s => (s, false)) 3 false [ex_picture; ex_cache] (5, 3) =
    Some ((0, 3), false, true, [(0, 200); (0, 100); (100, 200); (100, -1)]) /\
  hibernate (fun s => (s, false)) 3 false [ex_picture; ex_cache] (0, 3) =
    Some ((0, 0), false, true, [(0, 200); (0, 100); (100, 200); (100, 0); (200, -1); (200, 0)]) /\
  hibernate (fun s => (s, false)) 3 false [ex_picture; ex_cache] (0, 0) =
    Some ((0, 0), false, false, [(0, 200); (0, 100); (100, 200); (100, 0); (200, 0); (200, 0)]).
Proof. repeat split; reflexivity. Qed.

Print Assumptions C136_ends.
Print Assumptions C136_rounds.
Print Assumptions C136_levels.
Print Assumptions C136_nested.
