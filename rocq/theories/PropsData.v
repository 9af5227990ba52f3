(** * PropsData.v: properties C01-C10 (order slab and event queue)

    Vocabulary: DataSpec.v.  Every statement ranges over all runs of a slab (queue)
    of any capacity. *)
From Coq Require Import Sorting.Sorted.
From stdpp Require Import gmap.
From Verif Require Import Machine Critbit EventQueue DataSpec DataProps ExampleRuns.

(** Runs used in the examples: three inserts, a replacement, updates and a removal,
    on a slab of 3 slots. *)
Definition ex_slab_ops : list (slab_op N) :=
  [SInsert 9 100 1; SInsert 5 50 2; SInsert 170141183460469231731687303715884105728 70 3;
   SInsert 6 10 4; SInsert 5 55 5; SSetQty 9 90; SSetCallback 9 11; SRemove 5; SRemove 7; SInsert 8 80 8].
Definition ex_slab_log := Eval vm_compute in
  match slab_run_of 0 3 1 ex_slab_ops with Some (log, _) => log | None => [] end.
Definition ex_slab := Eval vm_compute in
  match slab_run_of 0 3 1 ex_slab_ops with Some (_, s) => s | None => empty_slab 0 0 0 end.
Lemma ex_slab_run : slab_run 0 3 1 ex_slab_log ex_slab.
Proof. apply (slab_run_of_run _ _ _ ex_slab_ops). vm_compute. reflexivity. Qed.

(** C01: the answers of all operations are those of a finite map of bounded size, and
    the slab shows exactly the orders of that map. *)
Theorem C01_slab_is_a_map : forall (C : Type) (z : C) (n x : nat) log s,
  (1 <= n)%nat -> N.of_nat n <= p31 -> slab_run z n x log s ->
  map snd log = fst (map_run n (map fst log)) /\ shows s (snd (map_run n (map fst log))).
Proof. exact @slab_is_map. Qed.
Print Assumptions C01_slab_is_a_map.
Example C01_example :
  map snd ex_slab_log =
    [Ok ANew; Ok ANew; Ok ANew; Err SlabOutOfSpace; Ok (AReplaced 5 50); Ok AUpdated; Ok AUpdated;
     Ok (ARemoved 5 55 5); Ok AAbsent; Ok ANew] /\
  slab_run 0 3 1 ex_slab_log ex_slab /\
  traverse ex_slab = Ok [(mk_leaf 8 80, 8); (mk_leaf 9 90, 11);
                         (mk_leaf 170141183460469231731687303715884105728 70, 3)].
Proof. split; [reflexivity|]. split; [exact ex_slab_run|]. vm_compute. reflexivity. Qed.

(** C01 (progress): in every reachable slab every operation has the map's answer and
    leads to a slab showing the map's next state; the only exception is the removal of
    C05. *)
Theorem C01_slab_progress : forall (C : Type) (z : C) (n x : nat) log s,
  (1 <= n)%nat -> N.of_nat n <= p31 -> slab_run z n x log s ->
  forall o, slab_op_typed o ->
  (exists s', slab_exec o s = (fst (map_exec n o (snd (map_run n (map fst log)))), s') /\
     shows s' (snd (map_exec n o (snd (map_run n (map fst log))))) /\
     (is_ok (fst (map_exec n o (snd (map_run n (map fst log))))) = false -> s' = s)) \/
  (exists k, o = SRemove k /\ snd (map_run n (map fst log)) !! k = None /\ stale_slot s k /\
     slab_exec o s = (Panic PIndex, s)).
Proof. exact @slab_progress. Qed.
Print Assumptions C01_slab_progress.

(** C02: find_min and find_max designate the extreme orders. *)
Theorem C02_find_min_max : forall (C : Type) (z : C) (n x : nat) log s,
  (1 <= n)%nat -> N.of_nat n <= p31 -> slab_run z n x log s ->
  let mp := snd (map_run n (map fst log)) in
  forall mx : bool,
  (mp = ∅ /\ find_min_max s mx = Ok None) \/
  (exists h k q c, find_min_max s mx = Ok (Some h) /\ mp !! k = Some (q, c) /\ designates s h k q c /\
     forall k', is_Some (mp !! k') -> if mx then k' <= k else k <= k').
Proof.
  intros C z n x log s H1 H2 H3 mp mx.
  exact (find_extreme _ _ _ mx (proj2 (slab_run_sinv _ _ _ _ _ H1 H2 H3))).
Qed.
Print Assumptions C02_find_min_max.
Example C02_example : exists h, find_min_max ex_slab false = Ok (Some h) /\ designates ex_slab h 8 80 8.
Proof. exists 1. vm_compute. auto. Qed.

(** C03: iteration lists every order once, in increasing (decreasing) id order. *)
Theorem C03_iteration : forall (C : Type) (z : C) (n x : nat) log s,
  (1 <= n)%nat -> N.of_nat n <= p31 -> slab_run z n x log s ->
  let mp := snd (map_run n (map fst log)) in
  exists l, iterate s true = Ok l /\ iterate s false = Ok (rev l) /\
    StronglySorted N.lt (map lf_key l) /\
    (forall k q, mk_leaf k q ∈ l <-> exists c, mp !! k = Some (q, c)).
Proof.
  intros C z n x log s H1 H2 H3 mp.
  exact (iterate_sorted _ _ _ (proj2 (slab_run_sinv _ _ _ _ _ H1 H2 H3))).
Qed.
Print Assumptions C03_iteration.
Example C03_example : iterate ex_slab false =
  Ok [mk_leaf 170141183460469231731687303715884105728 70; mk_leaf 9 90; mk_leaf 8 80].
Proof. vm_compute. reflexivity. Qed.

(** C04: a fresh id is accepted exactly when fewer than [n] orders are present;
    otherwise the slab is unchanged. *)
Theorem C04_capacity : forall (C : Type) (z : C) (n x : nat) log s,
  (1 <= n)%nat -> N.of_nat n <= p31 -> slab_run z n x log s ->
  let mp := snd (map_run n (map fst log)) in
  forall k q c, k < p128 -> mp !! k = None ->
  if (size mp <? n)%nat
  then exists s', slab_exec (SInsert k q c) s = (Ok ANew, s')
  else slab_exec (SInsert k q c) s = (Err SlabOutOfSpace, s).
Proof. exact @capacity_exact. Qed.
Print Assumptions C04_capacity.
Example C04_example : leaf_count (hdr ex_slab) = 3 /\
  fst (slab_exec (SInsert 1 1 1) ex_slab) = Err SlabOutOfSpace.
Proof. vm_compute. auto. Qed.

(** C05: removing an absent id reports absence and changes nothing, except that it
    panics exactly when the slab holds one order and slot 0 still holds the stale key of
    the id; then the id was inserted before. *)
Theorem C05_absent_removal : forall (C : Type) (z : C) (n x : nat) log s,
  (1 <= n)%nat -> N.of_nat n <= p31 -> slab_run z n x log s ->
  forall k, snd (map_run n (map fst log)) !! k = None ->
  (~ stale_slot s k -> remove_by_key k s = (Ok None, s)) /\
  (stale_slot s k -> remove_by_key k s = (Panic PIndex, s) /\ k ∈ inserted log).
Proof. exact @absent_removal. Qed.
Print Assumptions C05_absent_removal.
(** The unconditional claim is false of the code: insert 1, insert 2, remove 1, remove 1. *)
Theorem C05_absent_removal_refuted : exists (log : list (slab_op N * res (slab_answer N))) s k,
  slab_run 0 4 0 log s /\ snd (map_run 4 (map fst log)) !! k = None /\
  remove_by_key k s = (Panic PIndex, s).
Proof.
  destruct (slab_run_of 0 4 0 [SInsert 1 10 0; SInsert 2 10 0; SRemove 1]) as [[log s]|] eqn:H.
  2:{ exfalso. vm_compute in H. discriminate H. }
  exists log, s, 1. split; [by eapply slab_run_of_run|]. vm_compute in H. injection H as <- <-.
  split; vm_compute; reflexivity.
Qed.
Print Assumptions C05_absent_removal_refuted.

(** C06: with a budget of 129 node visits no descent runs out: 128 inner nodes and one
    leaf at most (the removal walk starts at a child of the root). *)
Theorem C06_walks_are_short : forall (C : Type) (z : C) (n x : nat) log s,
  (1 <= n)%nat -> N.of_nat n <= p31 -> slab_run z n x log s ->
  snd (map_run n (map fst log)) <> ∅ ->
  forall k, k < p128 ->
  let r := root_node (hdr s) in
  insert_walk 129 s r None k <> Diverge /\ find_walk 129 s r k <> Diverge /\
  min_max_walk 129 s true r <> Diverge /\ min_max_walk 129 s false r <> Diverge /\
  (forall nd, is_inner r = true -> idx (inner_nodes s) (not32 r) = Ok nd ->
     exists w, walk_down nd k = Ok w /\ remove_walk 128 s None r (fst w) (snd w) k <> Diverge) /\
  (is_inner r = false -> remove_walk 1 s None r 0 false k <> Diverge).
Proof.
  intros C z n x log s H1 H2 H3 H4 k Hk.
  exact (walks_short _ _ _ k (proj2 (slab_run_sinv _ _ _ _ _ H1 H2 H3)) H4 Hk).
Qed.
Print Assumptions C06_walks_are_short.
Example C06_example : snd (map_run 3 (map fst ex_slab_log)) !! 9 = Some (90, 11) /\
  is_inner (root_node (hdr ex_slab)) = true /\
  find_walk 2 ex_slab (root_node (hdr ex_slab)) 9 = Diverge /\
  find_walk 3 ex_slab (root_node (hdr ex_slab)) 9 = Ok (Some 0).
Proof. vm_compute. auto. Qed.

(** C07: find_by_key finds exactly the orders present. *)
Theorem C07_find_by_key : forall (C : Type) (z : C) (n x : nat) log s,
  (1 <= n)%nat -> N.of_nat n <= p31 -> slab_run z n x log s ->
  let mp := snd (map_run n (map fst log)) in
  forall k, k < p128 ->
  match mp !! k with
  | Some (q, c) => exists h, find_by_key s k = Ok (Some h) /\ designates s h k q c
  | None => find_by_key s k = Ok None
  end.
Proof.
  intros C z n x log s H1 H2 H3 mp k Hk.
  exact (find_key _ _ _ k (proj2 (slab_run_sinv _ _ _ _ _ H1 H2 H3)) Hk).
Qed.
Print Assumptions C07_find_by_key.
Example C07_example : find_by_key ex_slab 5 = Ok None /\ find_by_key ex_slab 9 = Ok (Some 0).
Proof. vm_compute. auto. Qed.

(** ** Event queue *)
Definition ex_fill k : fill_event := mk_fill_event 7 1 0 (10 * k) (1000 + k) k.
Definition ex_out k : out_event := mk_out_event 9 0 281474976710656 (2000 + k) k.
Definition ex_queue_ops : list (queue_op N) :=
  [QSeq; QFill (ex_fill 1) 11 21; QOut (ex_out 2) 12; QFill (ex_fill 3) 13 23; QOut (ex_out 4) 14;
   QPop 2; QOut (ex_out 5) 15; QFill (ex_fill 6) 16 26; QSeq].
Definition ex_queue_log := Eval vm_compute in
  match queue_run_of 0 3 ex_queue_ops with Some (log, _) => log | None => [] end.
Definition ex_queue := Eval vm_compute in
  match queue_run_of 0 3 ex_queue_ops with Some (_, q) => q | None => empty_queue 0 0 end.
Lemma ex_queue_run : queue_run 0 3 ex_queue_log ex_queue.
Proof. apply (queue_run_of_run _ _ ex_queue_ops). vm_compute. reflexivity. Qed.

(** C08, C10: iterating, peeking and measuring the queue gives the list of the events
    pushed and not yet popped, with the contents they were pushed with. *)
Theorem C08_queue_is_fifo : forall (C : Type) (z : C) (n : nat) log q,
  (1 <= n)%nat -> N.of_nat n <= p31 -> N.of_nat (length log) < p63 -> queue_run z n log q ->
  let evs := fst (snd (list_run n (map fst log))) in
  map snd log = fst (list_run n (map fst log)) /\
  queue_iter q = Ok evs /\ (forall i, peek_at q i = Ok (evs !! N.to_nat i)) /\
  queue_len q = N.of_nat (length evs) /\ (queue_is_empty q = true <-> evs = []) /\
  (length evs <= n)%nat.
Proof. exact @queue_is_fifo. Qed.
Print Assumptions C08_queue_is_fifo.
Example C08_example : queue_run 0 3 ex_queue_log ex_queue /\
  map snd ex_queue_log =
    [Ok 0; Ok 0; Ok 0; Ok 0; Err EventQueueFull; Ok 0; Ok 0; Ok 0; Ok 1] /\
  q_head ex_queue = 2 /\
  queue_iter ex_queue =
    Ok [EvFill (mk_fill_event tag_fill 1 0 30 1003 3) 13 23;
        EvOut (mk_out_event tag_out 0 281474976710656 2005 5) 15;
        EvFill (mk_fill_event tag_fill 1 0 60 1006 6) 16 26].
Proof. split; [exact ex_queue_run|]. vm_compute. auto. Qed.

(** C09: a push fails exactly when the queue is full, and then nothing changes;
    otherwise exactly one event is added and the sequence number stays. *)
Theorem C09_full_queue : forall (C : Type) (z : C) (n : nat) log q,
  (1 <= n)%nat -> N.of_nat n <= p31 -> N.of_nat (length log) < p63 -> queue_run z n log q ->
  forall o, queue_op_typed o -> (forall k, o <> QPop k) -> o <> QSeq ->
  let evs := fst (snd (list_run n (map fst log))) in
  if (length evs <? n)%nat
  then exists q', queue_exec o q = (Ok 0, q') /\
    queue_iter q' = Ok (fst (snd (list_exec n o (snd (list_run n (map fst log)))))) /\
    length (fst (snd (list_exec n o (snd (list_run n (map fst log)))))) = S (length evs) /\
    q_seq q' = q_seq q
  else queue_exec o q = (Err EventQueueFull, q).
Proof. exact @queue_push. Qed.
Print Assumptions C09_full_queue.
Example C09_example : queue_exec (QOut (ex_out 7) 1) ex_queue = (Err EventQueueFull, ex_queue).
Proof. vm_compute. reflexivity. Qed.

(** C10: what is pushed is what is read back, whatever the slot contained. *)
Theorem C10_fill_round_trip : forall (C : Type) (z : C) (n : nat) log q,
  (1 <= n)%nat -> N.of_nat n <= p31 -> N.of_nat (length log) < p63 -> queue_run z n log q ->
  forall e maker taker q', queue_op_typed (QFill e maker taker) ->
  queue_exec (QFill e maker taker) q = (Ok 0, q') ->
  peek_at q' (queue_len q) =
    Ok (Some (EvFill (mk_fill_event tag_fill (fe_taker_side e) (fe_pad e) (fe_quote e)
                        (fe_maker_id e) (fe_base e)) maker taker)).
Proof. exact @fill_read_back. Qed.
Print Assumptions C10_fill_round_trip.
Theorem C10_out_round_trip : forall (C : Type) (z : C) (n : nat) log q,
  (1 <= n)%nat -> N.of_nat n <= p31 -> N.of_nat (length log) < p63 -> queue_run z n log q ->
  forall e cb q', queue_op_typed (QOut e cb) -> queue_exec (QOut e cb) q = (Ok 0, q') ->
  peek_at q' (queue_len q) =
    Ok (Some (EvOut (mk_out_event tag_out (oe_side e) (oe_pad e) (oe_id e) (oe_base e)) cb)).
Proof. exact @out_read_back. Qed.
Print Assumptions C10_out_round_trip.
Example C10_example :
  let q' := snd (queue_exec (QOut (ex_out 7) 1) (snd (queue_exec (QPop 1) ex_queue))) in
  peek_at q' 2 = Ok (Some (EvOut (mk_out_event tag_out 0 281474976710656 2007 7) 1)).
Proof. vm_compute. reflexivity. Qed.
