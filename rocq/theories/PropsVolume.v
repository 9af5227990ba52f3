(** * PropsVolume.v: every order and every base unit is accounted for (C99)

    Vocabulary: Spec.v and VolumeSpec.v (what the answers and the events of a log say). *)
From Verif Require Import Machine Critbit EventQueue OrderBook Market Spec VolumeSpec ExampleRuns.
From Verif Require Import CustodyProofs VolumeProofs PropsMarket.
From Coq Require Import ZifyBool ZifyNat ZifyN.

(** The orders posted are those in the book, those an Out removed and those cancelled, each
    counted once. *)
Theorem C99_every_order : forall (C : Type) (same_id : C -> C -> bool) c log m,
  config_ok c -> history same_id c log m -> N.of_nat (length log) < p63 ->
  Permutation (posted_ids log) (resting_ids m ++ out_ids log ++ cancelled log).
Proof. exact @every_order. Qed.
Print Assumptions C99_every_order.
(** So no order leaves twice, and none leaves that is still there. *)
Theorem C99_leaves_once : forall (C : Type) (same_id : C -> C -> bool) c log m,
  config_ok c -> history same_id c log m -> N.of_nat (length log) < p63 ->
  NoDup (resting_ids m ++ out_ids log ++ cancelled log).
Proof.
  intros C same_id c log m Hc Hh Hl. rewrite <- (C99_every_order _ _ _ _ _ Hc Hh Hl). by eapply C11_ids_unique.
Qed.
Print Assumptions C99_leaves_once.

(** The same for base units, between any two moments: what was in the book and what was
    posted has been traded, given back with an Out, cancelled, or is in the book. *)
Theorem C99_volume : forall (C : Type) (same_id : C -> C -> bool) c log0 m0 log m,
  config_ok c -> history same_id c log0 m0 -> steps same_id m0 log m -> N.of_nat (length (log0 ++ log)) < p63 ->
  resting_base m0 + sumN posted_base log =
    sumN traded_base log + sumN returned_base log + sumN cancelled_base log + resting_base m.
Proof. intros C same_id c log0 m0 log m Hc Hh Hs Hl. by eapply steps_volume. Qed.
Print Assumptions C99_volume.
(** What new orders were answered in all is what was traded plus what was posted. *)
Theorem C99_ordered : forall (C : Type) (same_id : C -> C -> bool) c log0 m0 log m,
  config_ok c -> history same_id c log0 m0 -> steps same_id m0 log m -> N.of_nat (length (log0 ++ log)) < p63 ->
  sumN ordered_base log = sumN traded_base log + sumN posted_base log.
Proof. intros C same_id c log0 m0 log m Hc Hh Hs Hl. by eapply steps_volume. Qed.
Print Assumptions C99_ordered.
(** On one side at one price: no more is traded, given back and left there than was there
    and was posted there, and just as much if nothing was cancelled there. *)
Theorem C99_level : forall (C : Type) (same_id : C -> C -> bool) c log0 m0 log m sd price,
  config_ok c -> history same_id c log0 m0 -> steps same_id m0 log m -> N.of_nat (length (log0 ++ log)) < p63 ->
  sumN (traded_at sd price) log + sumN (returned_at sd price) log + resting_at sd price m <=
    resting_at sd price m0 + sumN (posted_at sd price) log /\
  ((forall id, id ∈ cancelled log -> at_level sd price id = false) ->
   sumN (traded_at sd price) log + sumN (returned_at sd price) log + resting_at sd price m =
    resting_at sd price m0 + sumN (posted_at sd price) log).
Proof.
  intros C same_id c log0 m0 log m sd price Hc Hh Hs Hl.
  destruct (steps_level same_id c log0 m0 log m sd price Hc Hh Hs Hl) as (g&H1&H2). split; [lia|].
  intros H. specialize (H2 H). lia.
Qed.
Print Assumptions C99_level.
(** And the quote units exchanged there are the base units traded times the price, rounded
    by less than one unit for each trade: up when the resting orders sell, down when they
    buy. *)
Theorem C99_turnover : forall (C : Type) (same_id : C -> C -> bool) c log0 m0 log m sd price,
  config_ok c -> history same_id c log0 m0 -> steps same_id m0 log m -> N.of_nat (length (log0 ++ log)) < p63 ->
  let base := sumN (traded_at sd price) log in let quote := sumN (turnover_at sd price) log in
  let trades := sumN (trades_at sd price) log in
  match sd with
  | Ask => base * price <= quote * p32 <= base * price + (p32 - 1) * trades
  | Bid => quote * p32 <= base * price <= quote * p32 + (p32 - 1) * trades
  end.
Proof. exact @steps_turnover. Qed.
Print Assumptions C99_turnover.

(** ** A concrete case
    The history of PropsMarket: six orders are posted, of 305 units together; two were
    removed by an Out, one was cancelled, three are left. *)
Example C99_example :
  history N.eqb ex_cfg h_log h_m /\ N.of_nat (length h_log) < p63 /\
  posted_ids h_log = [h_id_a3; h_id_a1; h_id_a2; h_id_b1; h_id_b2; h_id_b3] /\
  resting_ids h_m = [h_id_b1; h_id_b3; h_id_a3] /\ out_ids h_log = [h_id_a1; h_id_a2] /\ cancelled h_log = [h_id_b2] /\
  (sumN posted_base h_log, sumN ordered_base h_log) = (305, 408) /\
  (sumN traded_base h_log, sumN returned_base h_log, sumN cancelled_base h_log, resting_base h_m) = (103, 7, 45, 150).
Proof. split; [exact h_history|]. split; [exact h_length|]. vm_compute. auto 10. Qed.
(** At the price 3, where nothing was cancelled, 110 were posted for sale, of which 103 were
    traded. *)
Example C99_level_example : let price := 3 * p32 in
  (sumN (posted_at Ask price) h_log, sumN (traded_at Ask price) h_log, sumN (returned_at Ask price) h_log, resting_at Ask price h_m) =
    (110, 103, 7, 0) /\
  (sumN (turnover_at Ask price) h_log, sumN (trades_at Ask price) h_log) = (309, 2) /\
  forallb (fun id => negb (at_level Ask price id)) (cancelled h_log) = true.
Proof. vm_compute. auto. Qed.
