(** Properties of arrays, sorting, searching and FIFOs. *)
From Verif Require Import Base BaseProofs Arr ArrSpec ArrProofs ArrProofs2.

(** ** C21 *)
Theorem C21_sort_permutes_and_orders : forall A (cmp : A -> A -> Z) fast a, total_preorder cmp ->
  exists r, array_sort cmp fast false a = Some r /\ Permutation a r /\ sorted_by cmp r.
Proof. intros A cmp fast a H. exact (array_sort_sorted cmp H fast a). Qed.
Print Assumptions C21_sort_permutes_and_orders.
(** Whatever the comparison answers, as long as it never calls an item below itself: the sort ends,
    stays in bounds and loses nothing. *)
Theorem C21_sort_safe_for_any_comparison : forall A (cmp : A -> A -> Z) fast a, (forall x, 0 <= cmp x x) ->
  exists r, array_sort cmp fast false a = Some r /\ Permutation a r.
Proof. intros A cmp fast a H. exact (array_sort_perm cmp H fast a). Qed.
Print Assumptions C21_sort_safe_for_any_comparison.
Theorem C21_sort_stable : forall A (cmp : A -> A -> Z) a, total_preorder cmp ->
  exists r, array_sort cmp false false a = Some r /\ forall x, class_of cmp x r = class_of cmp x a.
Proof. intros A cmp a H. exact (array_sort_stable cmp H a). Qed.
Print Assumptions C21_sort_stable.
Theorem C21_sort_unique : forall A (cmp : A -> A -> Z) fast a, total_preorder cmp ->
  exists r, array_sort cmp fast true a = Some r /\ strictly_sorted_by cmp r /\
    (forall x, In x r -> In x a) /\ (forall x, In x a -> exists y, In y r /\ cmp x y = 0).
Proof. intros A cmp fast a H. exact (array_sort_unique cmp H fast a). Qed.
Print Assumptions C21_sort_unique.
(** Finding: the word-sized sort is not stable. *)
Theorem C21_fast_sort_stable_refuted : exists (cmp : Z * Z -> Z * Z -> Z) a r x, total_preorder cmp /\
  array_sort cmp true false a = Some r /\ class_of cmp x r <> class_of cmp x a.
Proof.
  exists (fun p q => fst p - fst q), (map (fun n => (1 - n / 12, n)) [0;1;2;3;4;5;6;7;8;9;10;11;12;13;14;15;16;17;18;19;20;21;22;23]).
  eexists. exists (1, 0). split; [split; intros; lia|]. split; [vm_compute; reflexivity|]. vm_compute. discriminate.
Qed.
Print Assumptions C21_fast_sort_stable_refuted.
Example C21_case : total_preorder Z.sub /\
  array_sort Z.sub true false [5;3;9;1;7;2;8;6;4;0;15;13;19;11;17;12;18;16;14;10] =
    Some [0;1;2;3;4;5;6;7;8;9;10;11;12;13;14;15;16;17;18;19] /\
  array_sort Z.sub false true [5;3;5;1;3] = Some [1;3;5].
Proof. split; [split; intros; lia|]. vm_compute. split; reflexivity. Qed.

(** ** C22 *)
Theorem C22_find : forall A (cmpd : A -> Z) a, search_ready cmpd a ->
  (exists p x s, array_find cmpd a = Some (zlen p, true) /\ a = p ++ x :: s /\ cmpd x = 0) \/
  (exists p s, array_find cmpd a = Some (zlen p, false) /\ a = p ++ s /\
     Forall (fun x => cmpd x < 0) p /\ Forall (fun x => 0 < cmpd x) s).
Proof. exact @array_find_spec. Qed.
Print Assumptions C22_find.
Theorem C22_sorted_is_searchable : forall A (cmp : A -> A -> Z) a x, total_preorder cmp -> sorted_by cmp a ->
  search_ready (fun y => cmp y x) a.
Proof. exact @sorted_search_ready. Qed.
Print Assumptions C22_sorted_is_searchable.
Theorem C22_find_without_order : forall A (eqd : A -> bool) a,
  (exists p x s, array_find_eq eqd a 0 = (zlen p, true) /\ a = p ++ x :: s /\ eqd x = true /\ Forall (fun y => eqd y = false) p) \/
  (array_find_eq eqd a 0 = (zlen a, false) /\ Forall (fun y => eqd y = false) a).
Proof. intros A eqd a. exact (array_find_eq_spec eqd a 0). Qed.
Print Assumptions C22_find_without_order.
Theorem C22_add : forall A (cmp : A -> A -> Z) a x, total_preorder cmp -> strictly_sorted_by cmp a ->
  exists a' pos, array_add cmp true a x = Some (a', pos) /\ strictly_sorted_by cmp a' /\
    aget a' pos = Some x /\ (forall y, In y a' <-> y = x \/ (In y a /\ cmp y x <> 0)).
Proof. intros A cmp a x Hp. exact (array_add_spec cmp Hp a x). Qed.
Print Assumptions C22_add.
Theorem C22_add_without_memory : forall A (cmp : A -> A -> Z) a x, total_preorder cmp -> strictly_sorted_by cmp a ->
  (forall y, In y a -> cmp y x <> 0) -> array_add cmp false a x = Some (a, -1).
Proof. intros A cmp a x Hp. exact (array_add_fail cmp Hp a x). Qed.
Print Assumptions C22_add_without_memory.
Theorem C22_remove : forall A (cmp : A -> A -> Z) a x, total_preorder cmp -> strictly_sorted_by cmp a ->
  exists a' found, array_remove cmp a x = Some (a', found) /\ strictly_sorted_by cmp a' /\
    (found = true <-> exists y, In y a /\ cmp y x = 0) /\ (forall y, In y a' <-> In y a /\ cmp y x <> 0).
Proof. intros A cmp a x Hp. exact (array_remove_spec cmp Hp a x). Qed.
Print Assumptions C22_remove.
Theorem C22_histories : forall A (cmp : A -> A -> Z) ops, total_preorder cmp ->
  exists a, set_run cmp [] ops = Some a /\ strictly_sorted_by cmp a /\ forall y, In y a <-> set_spec cmp (fun _ => False) ops y.
Proof. intros A cmp ops Hp. exact (set_run_ok cmp Hp ops [] (SSorted_nil _)). Qed.
Print Assumptions C22_histories.
Example C22_case : set_run Z.sub [] [SAdd 5; SAdd 1; SAdd 9; SAdd 5; SDel 1; SAdd 7; SDel 3] = Some [5; 7; 9] /\
  strictly_sorted_by Z.sub [1; 5; 9] /\
  array_find (fun y => y - 6) [1; 5; 9] = Some (2, false) /\ array_find (fun y => y - 9) [1; 5; 9] = Some (2, true).
Proof. repeat split; try (vm_compute; reflexivity). repeat constructor. Qed.

(** ** C23 *)
Theorem C23_append : forall ok junk a bs align, align_ok align -> arr_ok a ->
  (exists a', array_append ok junk a (Some bs) (zlen bs) align = AOk a' /\ arr_ok a' /\ contents a' = contents a ++ bs) \/
  (ok = false /\ array_append ok junk a (Some bs) (zlen bs) align = AFail a).
Proof. exact array_append_spec. Qed.
Print Assumptions C23_append.
Theorem C23_insert : forall ok junk a ofs bs align, align_ok align -> arr_ok a -> 0 <= ofs <= used a ->
  (exists a', array_insert ok junk a ofs (Some bs) (zlen bs) align = AOk a' /\ arr_ok a' /\
     contents a' = firstn (Z.to_nat ofs) (contents a) ++ bs ++ skipn (Z.to_nat ofs) (contents a)) \/
  (ok = false /\ array_insert ok junk a ofs (Some bs) (zlen bs) align = AFail a).
Proof. exact array_insert_spec. Qed.
Print Assumptions C23_insert.
Theorem C23_delete : forall a ofs width, arr_ok a -> 0 <= ofs -> 0 <= width -> ofs + width <= used a ->
  exists a', array_delete a ofs width = AOk a' /\ arr_ok a' /\
     contents a' = firstn (Z.to_nat ofs) (contents a) ++ skipn (Z.to_nat (ofs + width)) (contents a).
Proof. exact array_delete_spec. Qed.
Print Assumptions C23_delete.
(** Finding: deleting beyond the used part is not refused; the move length wraps and the access leaves the block. *)
Theorem C23_delete_outside_faults : forall a ofs width, arr_ok a -> 0 <= ofs -> 0 <= width -> used a < ofs + width ->
  array_delete a ofs width = AFault.
Proof. exact array_delete_fault. Qed.
Print Assumptions C23_delete_outside_faults.
Theorem C23_shrink : forall a len, arr_ok a -> 0 <= len ->
  arr_ok (array_shrink a len) /\ contents (array_shrink a len) = firstn (Z.to_nat (used a - len)) (contents a).
Proof. exact array_shrink_spec. Qed.
Print Assumptions C23_shrink.
Theorem C23_resize : forall ok junk a total align, align_ok align -> arr_ok a -> 0 <= total ->
  (exists a', array_resize ok junk a total align = AOk a' /\ arr_ok a' /\ used a' = total /\
     forall n, 0 <= n <= Z.min total (used a) -> firstn (Z.to_nat n) (contents a') = firstn (Z.to_nat n) (contents a)) \/
  (ok = false /\ array_resize ok junk a total align = AFail a).
Proof. exact array_resize_spec. Qed.
Print Assumptions C23_resize.
Theorem C23_copy : forall ok junk p q, arr_ok p -> arr_ok q ->
  (exists p', array_copy ok junk p q = AOk p' /\ arr_ok p' /\ contents p' = contents q) \/
  (ok = false /\ array_copy ok junk p q = AFail p).
Proof. exact array_copy_spec. Qed.
Print Assumptions C23_copy.
Example C23_case : arr_ok (mkArr [1; 2; 3; 0] 3) /\ align_ok 16 /\ align_ok 0 /\
  match array_insert true 7 (mkArr [1; 2; 3; 0] 3) 1 (Some [8; 9]) 2 16 with
  | AOk a => contents a = [1; 8; 9; 2; 3] /\ match array_delete a 1 2 with AOk b => contents b = [1; 2; 3] | _ => False end
  | _ => False end.
Proof.
  split; [unfold arr_ok; cbn; lia|]. split; [right; exists 4; split; [lia|reflexivity]|]. split; [left; reflexivity|].
  vm_compute. split; reflexivity.
Qed.

(** ** C24 *)
Theorem C24_queue_histories : forall ops f i o g, Forall op_align_ok ops -> fifo_ok f ->
  fifo_run f ops = Some (i, o, g) -> fifo_ok g /\ pending f ++ i = o ++ pending g.
Proof. exact fifo_run_queue. Qed.
Print Assumptions C24_queue_histories.
Theorem C24_no_fault : forall ops f, Forall op_align_ok ops -> fifo_ok f ->
  (exists r, fifo_run f ops = Some r) \/
  (exists pre n post i o g, ops = pre ++ OpRead n :: post /\ fifo_run f pre = Some (i, o, g) /\ (n < 0 \/ zlen (pending g) < n)).
Proof. exact fifo_run_total. Qed.
Print Assumptions C24_no_fault.
Theorem C24_write : forall ok junk f bs align, align_ok align -> fifo_ok f ->
  (exists f', fifo_write ok junk f bs align = FOk f' /\ fifo_ok f' /\ pending f' = pending f ++ bs /\
     used (base f') + SAFETAIL <= zlen (mem (base f'))) \/
  (ok = false /\ exists f', fifo_write ok junk f bs align = FFail f' /\ fifo_ok f' /\ pending f' = pending f).
Proof. exact fifo_write_spec. Qed.
Print Assumptions C24_write.
Theorem C24_read : forall f n, fifo_ok f -> 0 <= n <= fifo_size f ->
  exists bs f', fifo_read f n = Some (bs, f') /\ fifo_ok f' /\ zlen bs = n /\ pending f = bs ++ pending f'.
Proof. exact fifo_read_spec. Qed.
Print Assumptions C24_read.
Example C24_case : let f := mkFifo (mkArr [] 0) 0 in
  fifo_ok f /\
  match fifo_run f [OpWrite true 0 [1;2;3] 16; OpRead 2; OpWrite false 0 (repeat 7 300) 16; OpWrite true 0 (repeat 4 20) 16; OpRead 2] with
  | Some (i, o, g) => o = [1;2;3;4] /\ i = [1;2;3] ++ repeat 4 20 /\ pending g = repeat 4 19
  | None => False end.
Proof. split; [unfold fifo_ok, arr_ok; cbn; lia|]. vm_compute. repeat split. Qed.
