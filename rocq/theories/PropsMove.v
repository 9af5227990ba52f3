(** * PropsMove.v: how the best prices move (C98)

    Vocabulary: Spec.v ([best_price m sd (Some a)]: [a] is the best price resting on side
    [sd]; [better_price sd]: higher for bids, lower for asks), WaitSpec.v ([nobody_joins])
    and MoveSpec.v. *)
From Verif Require Import Machine Critbit EventQueue OrderBook Market Spec WaitSpec MoveSpec MoveProofs
  ExampleRuns PropsMarket PropsOrder PropsBest PropsOffer PropsWait.
From Coq Require Import ZifyBool ZifyNat ZifyN.

(** A new order never improves the best price of the other side, and never worsens the best
    price of its own side: that stays, or is now the price of the new order. *)
Theorem C98_new_order : forall (C : Type) (same_id : C -> C -> bool) c m p sm m',
  accepted same_id c m p sm m' ->
  (forall a', best_price m' (opposite (p_side p)) (Some a') ->
     exists a, best_price m (opposite (p_side p)) (Some a) /\ ~ better_price (opposite (p_side p)) a' a) /\
  (forall b, best_price m (p_side p) (Some b) ->
     exists b', best_price m' (p_side p) (Some b') /\ ~ better_price (p_side p) b b' /\ (b' = b \/ b' = limit_price p)).
Proof. intros C same_id c m p sm m' H. split; [by eapply new_order_other|by eapply new_order_own]. Qed.

(** Its trades are at prices between the best price of the other side before and after. *)
Theorem C98_trades_between : forall (C : Type) (same_id : C -> C -> bool) c m p sm m' ev,
  accepted same_id c m p sm m' -> ev ∈ emitted m m' -> is_fill ev = true ->
  let other := opposite (p_side p) in
  exists a, best_price m other (Some a) /\ ~ better_price other (id_price (event_id ev)) a /\
    forall a', best_price m' other (Some a') -> ~ better_price other a' (id_price (event_id ev)).
Proof. intros C same_id c m p sm m' ev. apply trades_between. Qed.

(** One after the other, its trades never get better for it. *)
Theorem C98_trades_in_order : forall (C : Type) (same_id : C -> C -> bool) c m p sm m' E1 ev1 E2 ev2 E3,
  accepted same_id c m p sm m' -> emitted m m' = E1 ++ ev1 :: E2 ++ ev2 :: E3 ->
  is_fill ev1 = true -> is_fill ev2 = true ->
  ~ better_price (opposite (p_side p)) (id_price (event_id ev2)) (id_price (event_id ev1)).
Proof. intros C same_id c m p sm m' E1 ev1 E2 ev2 E3. apply trades_in_order. Qed.

(** Over any number of instructions: the best price of a side that nobody joins never
    improves ... *)
Theorem C98_nobody_joins : forall (C : Type) (same_id : C -> C -> bool) c log m log1 m1 sd,
  config_ok c -> history same_id c log m -> steps same_id m log1 m1 -> N.of_nat (length (log ++ log1)) < p63 ->
  nobody_joins sd log1 ->
  forall a', best_price m1 sd (Some a') -> exists a, best_price m sd (Some a) /\ ~ better_price sd a' a.
Proof.
  intros C same_id c log m log1 m1 sd Hc Hh Hs Hl Hn. apply subset_best. intros o Ho.
  destruct (C96_shrinks _ _ _ _ _ _ _ _ Hc Hh Hs Hl Hn o Ho) as (o'&Ho'&E&_). by exists o'.
Qed.
(** ... and the best price of a side from which nothing is taken or cancelled never worsens. *)
Theorem C98_nothing_taken : forall (C : Type) (same_id : C -> C -> bool) c log m log1 m1 sd b,
  config_ok c -> history same_id c log m -> steps same_id m log1 m1 -> N.of_nat (length (log ++ log1)) < p63 ->
  Forall (leaves_alone sd) log1 -> best_price m sd (Some b) ->
  exists b', best_price m1 sd (Some b') /\ ~ better_price sd b b' /\ (b' = b \/ exists e, e ∈ log1 /\ asks_price e b').
Proof. exact @steps_leave. Qed.

(** Two trades with resting orders of the same side, in two instructions: if the later one
    is at a better price for the new order, it is with an order that was posted in between. *)
Theorem C98_better_is_newer : forall (C : Type) (same_id : C -> C -> bool) c log1 e1 log2 e2 log3 m sd ev1 ev2,
  config_ok c -> history same_id c (log1 ++ e1 :: log2 ++ e2 :: log3) m ->
  N.of_nat (length (log1 ++ e1 :: log2 ++ e2 :: log3)) < p63 ->
  ev1 ∈ en_events e1 -> ev2 ∈ en_events e2 -> is_fill ev1 = true -> is_fill ev2 = true ->
  side_of_id (event_id ev1) = sd -> side_of_id (event_id ev2) = sd ->
  better_price sd (id_price (event_id ev2)) (id_price (event_id ev1)) -> event_id ev2 ∈ posted_ids log2.
Proof. exact @cheaper_newer. Qed.

(** ** Concrete cases
    Sellers of 20 at 1 and 20 at 1.5, a buyer at 0.5.  An order for 30 trades at 1 and at
    1.5; the best ask goes from 1 to 1.5 (prices in units of 2^31, doubled). *)
Definition mv_m : market N := after N.eqb ex_cfg [of_ask 20 3 1; of_ask 20 2 2; of_bid 20 1 4].
Definition mv_prices (m : market N) (sd : side) : list N := map (fun o => id_price (o_id o) / 2147483648) (resting m sd).
Example C98_trade_example :
  let p := of_buy 30 10 in
  (exists s, accepted N.eqb ex_cfg mv_m p s (of_next mv_m p)) /\
  mv_prices mv_m Ask = [2; 3] /\ mv_prices (of_next mv_m p) Ask = [3] /\ mv_prices (of_next mv_m p) Bid = [1] /\
  map (fun ev => (is_fill ev, id_price (event_id ev) / 2147483648)) (emitted mv_m (of_next mv_m p)) = [(true, 2); (false, 2); (true, 3)].
Proof. intros p. split; [eexists; of_run|]. split_and!; by vm_compute. Qed.
(** A full side: with room for two bids, a third one at a better price replaces the worse of
    the two. *)
Example C98_post_example :
  let m := after N.eqb ex_cfg [of_bid 20 1 4; of_bid 20 2 5] in
  let p := mk_params 20 1000 (3 * 2147483648) Bid 10 6 false true DecrementTake in
  (exists s, accepted N.eqb ex_cfg m p s (of_next m p)) /\ mv_prices m Bid = [1; 2] /\ mv_prices (of_next m p) Bid = [2; 3].
Proof. intros m p. split; [eexists; of_run|]. split_and!; by vm_compute. Qed.
(** A trade at 1.5, a new offer at 1, a trade at 1. *)
Definition mv_ops : list (op N) := [of_ask 20 3 1; NewOrder (of_buy 10 10); of_bid 20 1 4; of_ask 20 2 2; NewOrder (of_buy 10 10); ConsumeEvents 2].
Example C98_newer_example :
  let log := log_of N.eqb ex_cfg mv_ops in
  exists log1 e1 log2 e2 log3 ev1 ev2,
    log = log1 ++ e1 :: log2 ++ e2 :: log3 /\
    history N.eqb ex_cfg (log1 ++ e1 :: log2 ++ e2 :: log3) (after N.eqb ex_cfg mv_ops) /\
    ev1 ∈ en_events e1 /\ ev2 ∈ en_events e2 /\ is_fill ev1 = true /\ is_fill ev2 = true /\
    side_of_id (event_id ev1) = Ask /\ side_of_id (event_id ev2) = Ask /\
    better_price Ask (id_price (event_id ev2)) (id_price (event_id ev1)) /\ length (posted_ids log2) = 2%nat.
Proof.
  intros log.
  set (d := mk_entry (ConsumeEvents 0) (Ok None) [] : entry N).
  set (dv := EvOut (mk_out_event 0 0 0 0 0) 0 : event_ref N).
  assert (El : log = take 1 log ++ nth 1 log d :: take 2 (drop 2 log) ++ nth 4 log d :: drop 5 log) by (by vm_compute).
  exists (take 1 log), (nth 1 log d), (take 2 (drop 2 log)), (nth 4 log d), (drop 5 log),
    (nth 0 (en_events (nth 1 log d)) dv), (nth 0 (en_events (nth 4 log d)) dv).
  split; [exact El|]. split; [rewrite <- El; apply after_history; by vm_compute|].
  split; [apply elem_of_list_In, nth_In; apply Nat.ltb_lt; by vm_compute|].
  split; [apply elem_of_list_In, nth_In; apply Nat.ltb_lt; by vm_compute|].
  split_and!; by vm_compute.
Qed.
(** Buyers only, one of them for 30 at 1 where 20 are on offer: the best bid rises from 0.5
    to 1, the best ask from 1 to 1.5. *)
Definition mv_bids : list (op N) := [of_bid 30 2 6; ConsumeEvents 1; CancelOrder 77].
Definition mv_run : list (entry N) * market N := run_log N.eqb mv_bids [] mv_m.
Definition leaves_bidsb (e : entry N) : bool :=
  negb (is_ok (en_res e)) ||
  match en_op e with NewOrder p => match p_side p with Bid => true | Ask => false end | ConsumeEvents _ => true | _ => false end.
Lemma leaves_bidsb_ok l : forallb leaves_bidsb l = true -> Forall (leaves_alone Bid) l.
Proof.
  intros H. apply List.Forall_forall. intros e He. rewrite forallb_forall in H. specialize (H e He).
  unfold leaves_bidsb in H. intros Hok. rewrite Hok in H. cbn [negb orb] in H.
  destruct (en_op e) as [p| | |]; try done. by destruct (p_side p).
Qed.
Example C98_taken_example :
  steps N.eqb mv_m (fst mv_run) (snd mv_run) /\ Forall (leaves_alone Bid) (fst mv_run) /\ nobody_joins Ask (fst mv_run) /\
  map (fun e => is_ok (en_res e)) (fst mv_run) = [true; true; false] /\
  mv_prices mv_m Bid = [1] /\ mv_prices (snd mv_run) Ask = [3] /\ mv_prices (snd mv_run) Bid = [1; 2].
Proof.
  split; [apply (run_log_steps N.eqb mv_m mv_bids [] mv_m); [by vm_compute|constructor]|].
  split; [apply leaves_bidsb_ok; by vm_compute|].
  split; [apply nobody_joinsb_ok; by vm_compute|]. split_and!; by vm_compute.
Qed.

Print Assumptions C98_new_order.
Print Assumptions C98_trades_between.
Print Assumptions C98_trades_in_order.
Print Assumptions C98_nobody_joins.
Print Assumptions C98_nothing_taken.
Print Assumptions C98_better_is_newer.
