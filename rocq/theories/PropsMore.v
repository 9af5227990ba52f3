(** * PropsMore.v: properties C55-C58, and what C30's panic needs

    Vocabulary: Spec.v, DataSpec.v, MoreSpec.v, LedgerSpec.v. *)
From stdpp Require Import gmap.
From Verif Require Import Machine Bytes Critbit EventQueue OrderBook Market Spec DataSpec MoreSpec Check
  ExampleRuns Layout Borsh Ledger LedgerSpec.
From Verif Require Import DataProps BookProofs MarketProofs MarketFacts HistoryProps MoreProofs StaleProofs CheckProofs WorldProofs WindProofs
  PropsData PropsMarket PropsLedger LedgerExample.

(** ** C55: every market can be emptied and closed *)
(** Every order can be cancelled, in any order, each cancellation returning the whole
    remainder; then the events can be consumed, and nothing is left. *)
Theorem C55_wind_down : forall (C : Type) (same_id : C -> C -> bool) c log m ids n,
  config_ok c -> history same_id c log m -> N.of_nat (length log + length ids + 1) < p63 ->
  NoDup ids -> (forall id, id ∈ ids <-> exists sd, id ∈ map o_id (resting m sd)) ->
  N.of_nat (length (pending m)) <= n -> n < p64 ->
  exists m1 m' log',
    cancels same_id m ids (map (fun id => mk_summary None (base_of m id) (quote_of_id m id) 0) ids) m1 /\
    exec same_id (ConsumeEvents n) m1 = (Ok None, m') /\
    history same_id c (log ++ log') m' /\ length log' = S (length ids) /\
    (forall sd, resting m' sd = []) /\ pending m' = [].
Proof. intros. by apply wind_down_all. Qed.
Print Assumptions C55_wind_down.
(** On the ledger: these instructions followed by close_market all succeed, the four
    accounts are disabled and their lamports are with the target. *)
Theorem C55_can_close : forall cs same_id rent_exempt pid l a m c log ids n t,
  rent_ok rent_exempt -> world cs same_id rent_exempt pid l -> opens cs pid l a m ->
  config_ok c -> history same_id c log m -> N.of_nat (length log + length ids + 1) < p63 ->
  Forall (fun k => k < 256 ^ 32) (keys a ++ [t]) -> t ∉ keys a ->
  a_lamports (l t) + balances l a < p64 ->
  NoDup ids -> (forall id, id ∈ ids <-> exists sd, id ∈ map o_id (resting m sd)) ->
  N.of_nat (length (pending m)) <= n -> n < p64 ->
  exists l',
    trace cs same_id rent_exempt pid l
      (map (fun id => Call (keys a) (op_data (CancelOrder id))
                        (Some (mk_summary None (base_of m id) (quote_of_id m id) 0))) ids ++
       [Call [ac_market a; ac_queue a] (op_data (ConsumeEvents n)) None;
        Call (keys a ++ [t]) [ix_close_market] None]) l' /\
    (forall k, k ∈ keys a -> disabled pid l' k /\ a_lamports (l' k) = 0) /\
    a_lamports (l' t) = a_lamports (l t) + balances l a.
Proof.
  intros cs same_id rent_exempt pid l a m c log ids n t Hrent W. apply (world_wf _ _ _ _ Hrent) in W.
  intros. eapply can_close; eauto.
Qed.
Print Assumptions C55_can_close.
Example C55_example :
  history N.eqb ex_cfg h_log h_m /\ NoDup [h_id_b1; h_id_a3; h_id_b3] /\
  (forall id, id ∈ [h_id_b1; h_id_a3; h_id_b3] <-> exists sd, id ∈ map o_id (resting h_m sd)) /\
  length (pending h_m) = 2%nat /\
  (base_of h_m h_id_a3, quote_of_id h_m h_id_a3) = (100, 350).
Proof.
  split; [exact h_history|]. split; [by apply (bool_decide_unpack _); vm_compute|].
  split; [|split; [by vm_compute|by vm_compute]]. intros id.
  assert (Eb : map o_id (resting h_m Bid) = [h_id_b1; h_id_b3]) by (by vm_compute).
  assert (Ea : map o_id (resting h_m Ask) = [h_id_a3]) by (by vm_compute).
  split.
  - intros H. rewrite !elem_of_cons, elem_of_nil in H. destruct H as [->|[->|[->|[]]]].
    + exists Bid. rewrite Eb. left.
    + exists Ask. rewrite Ea. left.
    + exists Bid. rewrite Eb. right. left.
  - intros [[] H]; rewrite ?Eb, ?Ea in H; rewrite !elem_of_cons, elem_of_nil in *; tauto.
Qed.
(** The first market of the example ledger, with a bid, an ask and no event waiting. *)
Example C55_example_ledger :
  world e_cs e_same e_rent e_pid e_l4 /\ rent_ok e_rent /\ opens e_cs e_pid e_l4 e_a e_ma /\
  reachable e_same e_cfg e_ma /\ 6 ∉ keys e_a /\ a_lamports (e_l4 6) + balances e_l4 e_a < p64 /\
  length (resting e_ma Bid) = 1%nat.
Proof.
  split; [exact e_world4|]. split; [exact e_rent_0|]. split; [exact e_opens_a|].
  split; [exact e_reachable_a|]. split; [rewrite <- (bool_decide_spec (_ ∈ _)); vm_compute; auto|].
  split; by vm_compute.
Qed.

(** ** C56: trading does not depend on when events are consumed *)
(** One instruction: consuming events first changes neither its answer nor its events nor
    the book it leaves, unless it failed for want of queue room. *)
Theorem C56_consume_first : forall (C : Type) (same_id : C -> C -> bool) c m n mc o r m1 r' m1',
  reachable same_id c m -> op_typed o ->
  exec same_id (ConsumeEvents n) m = (Ok None, mc) ->
  exec same_id o m = (r, m1) -> exec same_id o mc = (r', m1') ->
  r <> Err EventQueueFull ->
  r' = r /\ emitted mc m1' = emitted m m1 /\ (forall sd, resting m1' sd = resting m1 sd) /\
  q_seq (evq (m_book m1')) = q_seq (evq (m_book m1)).
Proof. exact @crank_one. Qed.
Print Assumptions C56_consume_first.
(** Whole histories: two markets given the same trading instructions, with events consumed
    at different times, have the same answers, events and book, as long as neither ran
    out of queue room; of the waiting events one has consumed more than the other. *)
Theorem C56_schedule_free : forall (C : Type) (same_id : C -> C -> bool) c log m log' m',
  config_ok c -> history same_id c log m -> history same_id c log' m' ->
  N.of_nat (length log) < p63 -> N.of_nat (length log') < p63 ->
  map en_op (trading log) = map en_op (trading log') ->
  (forall e, e ∈ log ++ log' -> en_res e <> Err EventQueueFull) ->
  trading log = trading log' /\ (forall sd, resting m sd = resting m' sd) /\
  (exists gone gone' left_, pending m = gone ++ left_ /\ pending m' = gone' ++ left_).
Proof. exact @crank_free. Qed.
Print Assumptions C56_schedule_free.
(** The history of the examples, with its events consumed one at a time and earlier. *)
Definition h_ops' : list (op N) := [
  ex_new Ask 100 100000 7 10 1 false true DecrementTake;
  ConsumeEvents 3;
  ex_new Ask 50 100000 6 10 2 false true DecrementTake;
  ex_new Ask 60 100000 6 10 3 false true DecrementTake;
  ex_new Bid 40 100000 4 10 4 false true DecrementTake;
  ex_new Bid 45 100000 5 10 5 false true DecrementTake;
  ex_new Bid 43 100000 6 10 9 false true CancelProvide;
  ConsumeEvents 1;
  CancelOrder 198070406304107588057569427451;
  CancelOrder 198070406304107588057569427451;
  ex_new Bid 70 100000 6 10 9 false true DecrementTake].
Definition h_log' : list (entry N) := log_of N.eqb ex_cfg h_ops'.
Definition h_m' : market N := Eval vm_compute in after N.eqb ex_cfg h_ops'.
Lemma h_history' : history N.eqb ex_cfg h_log' h_m'.
Proof. change h_m' with (after N.eqb ex_cfg h_ops'). apply after_history. vm_compute. reflexivity. Qed.
Example C56_example : history N.eqb ex_cfg h_log h_m /\ history N.eqb ex_cfg h_log' h_m' /\
  map en_op (trading h_log) = map en_op (trading h_log') /\
  (forall e, e ∈ h_log ++ h_log' -> en_res e <> Err EventQueueFull) /\
  length (trading h_log) = 9%nat /\
  (length (pending h_m) = 2)%nat /\ (length (pending h_m') = 3)%nat.
Proof.
  split; [exact h_history|]. split; [exact h_history'|]. split; [by vm_compute|]. split; [|by vm_compute].
  apply Forall_forall.
  assert (H : forallb (fun e => match en_res e with Err EventQueueFull => false | _ => true end)
                (h_log ++ h_log') = true) by (by vm_compute).
  apply Forall_forall. intros e He E. rewrite forallb_forall in H. apply elem_of_list_In, H in He.
  by rewrite E in He.
Qed.

(** ** C57: what a market does depends on what can be observed of it *)
Theorem C57_view_step : forall (C : Type) (same_id : C -> C -> bool) c m1 m2 o r1 m1' r2 m2',
  reachable same_id c m1 -> reachable same_id c m2 -> same_view m1 m2 -> op_typed o ->
  exec same_id o m1 = (r1, m1') -> exec same_id o m2 = (r2, m2') ->
  same_answer r1 r2 /\ same_view m1' m2' /\ emitted m1 m1' = emitted m2 m2'.
Proof.
  intros C same_id c m1 m2 o r1 m1' r2 m2' R1 R2 V Ht E1 E2.
  destruct (view_step _ _ _ _ _ _ _ _ _ R1 R2 V Ht E1 E2) as [H1 H2]. split_and!; try done.
  by apply view_emitted.
Qed.
Print Assumptions C57_view_step.
(** Two markets with one ask each, in different slots after different histories. *)
Definition v_ops1 : list (op N) :=
  [ex_new Ask 100 100000 7 10 1 false true DecrementTake;
   ex_new Ask 50 100000 8 10 2 false true DecrementTake;
   CancelOrder h_id_a3].
Definition v_ops2 : list (op N) :=
  [ex_new Bid 100 100000 3 10 1 false true DecrementTake;
   ex_new Ask 50 100000 8 10 2 false true DecrementTake;
   CancelOrder 118842243789843250464025477119].
Definition v_m1 : market N := Eval vm_compute in after N.eqb ex_cfg v_ops1.
Definition v_m2 : market N := Eval vm_compute in after N.eqb ex_cfg v_ops2.
Example C57_example : reachable N.eqb ex_cfg v_m1 /\ reachable N.eqb ex_cfg v_m2 /\
  same_view v_m1 v_m2 /\ asks (m_book v_m1) <> asks (m_book v_m2) /\
  length (resting v_m1 Ask) = 1%nat /\ resting v_m1 Bid = [].
Proof.
  split; [change v_m1 with (after N.eqb ex_cfg v_ops1); apply after_reachable;
          [exact ex_cfg_ok|vm_compute; reflexivity..]|].
  split; [change v_m2 with (after N.eqb ex_cfg v_ops2); apply after_reachable;
          [exact ex_cfg_ok|vm_compute; reflexivity..]|].
  split; [split; [intros []; by vm_compute|split; by vm_compute]|]. split; [by vm_compute|split; by vm_compute].
Qed.

(** ** C58: the structural check of the tests passes always *)
Theorem C58_every_slab : forall (C : Type) (z : C) (n x : nat) log s,
  (1 <= n)%nat -> N.of_nat n <= p31 -> slab_run z n x log s -> check_invariants s = Ok tt.
Proof.
  intros C z n x log s H1 H2 H3. destruct (slab_run_sinv _ _ _ _ _ H1 H2 H3) as [_ (es & Hs & _)].
  by eapply check_ok.
Qed.
Print Assumptions C58_every_slab.
Theorem C58_every_market : forall (C : Type) (same_id : C -> C -> bool) c m sd,
  reachable same_id c m -> check_invariants (tree (m_book m) sd) = Ok tt.
Proof.
  intros C same_id c m sd Hr. destruct (reachable_minv _ _ _ Hr) as (L & pend & Hm & _).
  pose proof (mi_rep _ _ _ _ Hm sd) as Hl.
  destruct Hl as (es & Hs & _). by eapply check_ok.
Qed.
Print Assumptions C58_every_market.
Example C58_example : slab_run 0 3 1 ex_slab_log ex_slab /\ leaf_count (hdr ex_slab) = 3 /\
  check_invariants ex_slab = Ok tt /\
  (* the check notices a wrong leaf *)
  check_invariants (set_leaf_nodes ex_slab (<[1%nat := mk_leaf 3 1]> (leaf_nodes ex_slab))) = Panic PAssert.
Proof. split; [exact ex_slab_run|]. by vm_compute. Qed.

(** ** C30: a panicking cancellation needs an id that was posted *)
Theorem C30_never_posted : forall (C : Type) (same_id : C -> C -> bool) c log m id,
  config_ok c -> history same_id c log m -> N.of_nat (length log) < p63 -> id ∉ posted_ids log ->
  exec same_id (CancelOrder id) m = (Err OrderNotFound, m).
Proof. exact @cancel_never_posted. Qed.
Print Assumptions C30_never_posted.
Theorem C30_panic_was_posted : forall (C : Type) (same_id : C -> C -> bool) c log m id x m',
  config_ok c -> history same_id c log m -> N.of_nat (length log) < p63 ->
  exec same_id (CancelOrder id) m = (Panic x, m') ->
  id ∈ posted_ids log /\ id ∉ map o_id (resting m (side_of_id id)) /\ x = PIndex.
Proof. exact @cancel_panic. Qed.
Print Assumptions C30_panic_was_posted.
Example C30_example_posted : 77 ∉ posted_ids h_log /\
  fst (exec N.eqb (CancelOrder h_id_a3) v_m1) = Panic PIndex /\
  fst (exec N.eqb (CancelOrder h_id_a3) v_m2) = Err OrderNotFound.
Proof. split; [rewrite <- (bool_decide_spec (_ ∈ _)); vm_compute; auto|]. by vm_compute. Qed.
