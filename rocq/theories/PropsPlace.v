(** * PropsPlace.v: a resting order keeps its place (C71)

    Vocabulary: Spec.v ([resting], [ahead], [better_price], [steps], [events_about], [gone])
    and PlaceSpec.v ([line]: the base quantity waiting in front of an order at its price;
    [traded_at]: the base quantity traded against orders of a side resting at a price). *)
From Verif Require Import Machine Critbit EventQueue OrderBook Market Spec PlaceSpec ExampleRuns.
From Verif Require Import HistoryProps LifeProps PlaceProofs.
From Coq Require Import ZifyBool ZifyNat ZifyN.

(** Whatever happens between two moments at which an order rests: its owner is the same, it
    has not grown, and whoever is ahead of it at the later moment has a strictly better
    price or was there at the earlier moment, with at least the same quantity. *)
Theorem C71_place : forall (C : Type) (same_id : C -> C -> bool) c log0 m0 log m sd x,
  config_ok c -> history same_id c log0 m0 -> steps same_id m0 log m ->
  N.of_nat (length (log0 ++ log)) < p63 -> x ∈ resting m0 sd ->
  forall y, y ∈ resting m sd -> o_id y = o_id x ->
  o_cb y = o_cb x /\ o_qty y <= o_qty x /\
  forall z, z ∈ resting m sd -> ahead sd (o_id z) (o_id y) ->
    better_price sd (id_price (o_id z)) (id_price (o_id y)) \/
    exists z0, z0 ∈ resting m0 sd /\ o_id z0 = o_id z /\ o_cb z0 = o_cb z /\ o_qty z <= o_qty z0.
Proof. exact @place. Qed.
Print Assumptions C71_place.

(** No order trades while an order that was ahead of it is still there. *)
Theorem C71_no_overtaking : forall (C : Type) (same_id : C -> C -> bool) c log0 m0 log m sd x w ev,
  config_ok c -> history same_id c log0 m0 -> steps same_id m0 log m ->
  N.of_nat (length (log0 ++ log)) < p63 ->
  x ∈ resting m0 sd -> w ∈ resting m0 sd -> ahead sd (o_id w) (o_id x) ->
  ev ∈ events_about (o_id x) log -> is_fill ev = true -> gone m (o_id w).
Proof. exact @overtake. Qed.
Print Assumptions C71_no_overtaking.

(** As long as nothing happens to a resting order, it rests unchanged, each trade against
    its side is with an order ahead of it, and what trades at its price shortens the line
    in front of it: the line never grows. *)
Theorem C71_line : forall (C : Type) (same_id : C -> C -> bool) c log0 m0 log m sd x,
  config_ok c -> history same_id c log0 m0 -> steps same_id m0 log m ->
  N.of_nat (length (log0 ++ log)) < p63 ->
  x ∈ resting m0 sd -> o_id x ∈ map o_id (resting m sd) -> events_about (o_id x) log = [] ->
  x ∈ resting m sd /\
  traded_at sd (id_price (o_id x)) log + line m sd (o_id x) <= line m0 sd (o_id x) /\
  forall ev, ev ∈ flat_map en_events log -> is_fill ev = true -> side_of_id (event_id ev) = sd ->
    ahead sd (event_id ev) (o_id x).
Proof. exact @line_steps. Qed.
Print Assumptions C71_line.
(** So when more has traded at its price than was waiting in front of it, the order has had
    its turn, unless it was cancelled. *)
Theorem C71_turn : forall (C : Type) (same_id : C -> C -> bool) c log0 m0 log m sd x,
  config_ok c -> history same_id c log0 m0 -> steps same_id m0 log m ->
  N.of_nat (length (log0 ++ log)) < p63 -> x ∈ resting m0 sd ->
  line m0 sd (o_id x) < traded_at sd (id_price (o_id x)) log ->
  events_about (o_id x) log <> [] \/ o_id x ∈ cancelled log.
Proof.
  intros C same_id c log0 m0 log m sd x Hc Hh Hs Hl Hx Ht.
  assert (Hl0 : N.of_nat (length log0) < p63) by (rewrite app_length in Hl; lia).
  destruct (events_about (o_id x) log) as [|ev E] eqn:Hev; [|by left]. right.
  destruct (life_steps same_id c log0 m0 log m sd x Hc Hh Hs Hl) as (fl&_&Hcase); [|exact Hx|].
  { eapply resting_posted; [exact Hc|exact Hh|exact Hl0|]. by apply elem_of_list_fmap_1. }
  destruct Hcase as [(y&_&_&Hy&Hi&_)|[(q&He&_)|(la&e&lb&ma&y&->&_&_&_&Hin&_)]].
  - destruct (line_steps same_id c log0 m0 log m sd x Hc Hh Hs Hl Hx) as (_&Hln&_); [|done|lia].
    rewrite <- Hi. by apply elem_of_list_fmap_1.
  - rewrite Hev in He. by destruct fl.
  - unfold cancelled. rewrite flat_map_app. apply elem_of_app. right. cbn. apply elem_of_app. by left.
Qed.
Print Assumptions C71_turn.

(** An order that has to leave a full side leaves after all orders that were behind it: an
    event about a resting order, produced by a new order on its own side, means that every
    order that was behind it is gone. *)
Theorem C71_evicted_last : forall (C : Type) (same_id : C -> C -> bool)
    c log0 m0 la e lb m p sd x w ev,
  config_ok c -> history same_id c log0 m0 -> steps same_id m0 (la ++ e :: lb) m ->
  N.of_nat (length (log0 ++ la ++ e :: lb)) < p63 ->
  x ∈ resting m0 sd -> w ∈ resting m0 sd -> ahead sd (o_id x) (o_id w) ->
  en_op e = NewOrder p -> p_side p = sd -> ev ∈ en_events e -> event_id ev = o_id x ->
  gone m (o_id w).
Proof. exact @evicted_last. Qed.
Print Assumptions C71_evicted_last.

(** ** Concrete cases
    Two asks at 3 (prices count half units), of 50 and 60.  Then an ask of 20 at 2.5 and a
    bid that buys it and 20 of the first: the second has not traded, 30 are left in front
    of it.  Then a bid for 60 more: the first is gone and the second has had its turn. *)
Definition q_run (ops : list (op N)) (m : market N) : list (entry N) * market N := run_log N.eqb ops [] m.
Definition q_ops0 : list (op N) := [
  ex_new Ask 50 100000 6 10 1 false true DecrementTake;
  ex_new Ask 60 100000 6 10 2 false true DecrementTake].
Definition q_ops1 : list (op N) := [
  ex_new Ask 20 100000 5 10 4 false true DecrementTake;
  ex_new Bid 40 100000 6 10 5 false true DecrementTake].
Definition q_ops2 : list (op N) := [ex_new Bid 60 100000 6 10 5 false true DecrementTake].
Definition q_m0 : market N := after N.eqb ex_cfg q_ops0.
Definition q_log1 := fst (q_run q_ops1 q_m0).
Definition q_m1 := snd (q_run q_ops1 q_m0).
Definition q_log2 := fst (q_run (q_ops1 ++ q_ops2) q_m0).
Definition q_m2 := snd (q_run (q_ops1 ++ q_ops2) q_m0).
Definition q_first : N := 6 * 2147483648 * p64.
Definition q_second : N := 6 * 2147483648 * p64 + 1.
Lemma q_history : history N.eqb ex_cfg (log_of N.eqb ex_cfg q_ops0) q_m0.
Proof. apply after_history. by vm_compute. Qed.
Lemma q_steps ops : forallb op_typedb ops = true ->
  steps N.eqb q_m0 (fst (q_run ops q_m0)) (snd (q_run ops q_m0)).
Proof. intros H. apply run_log_steps; [done|constructor]. Qed.
Example C71_example :
  history N.eqb ex_cfg (log_of N.eqb ex_cfg q_ops0) q_m0 /\
  steps N.eqb q_m0 q_log1 q_m1 /\ steps N.eqb q_m0 q_log2 q_m2 /\
  resting q_m0 Ask = [(mk_leaf q_first 50, 1); (mk_leaf q_second 60, 2)] /\
  resting q_m1 Ask = [(mk_leaf q_first 30, 1); (mk_leaf q_second 60, 2)] /\
  resting q_m2 Ask = [(mk_leaf q_second 30, 2)] /\
  events_about q_second q_log1 = [] /\
  line q_m0 Ask q_second = 50 /\ traded_at Ask (id_price q_second) q_log1 = 20 /\
  line q_m1 Ask q_second = 30 /\
  traded_at Ask (id_price q_second) q_log2 = 80 /\ line q_m0 Ask q_second < 80 /\
  length (events_about q_second q_log2) = 1%nat.
Proof.
  split; [exact q_history|]. split; [apply q_steps; by vm_compute|].
  split; [apply q_steps; by vm_compute|]. vm_compute. split_and!; reflexivity.
Qed.
(** Three asks at 3 fill the side; two better ones push out the third, then the second. *)
Definition q_ops3 : list (op N) := [
  ex_new Ask 30 100000 6 10 3 false true DecrementTake;
  ex_new Ask 20 100000 5 10 4 false true DecrementTake;
  ex_new Ask 20 100000 5 10 4 false true DecrementTake].
Example C71_example_evicted :
  let log := fst (q_run q_ops3 q_m0) in let m := snd (q_run q_ops3 q_m0) in
  steps N.eqb q_m0 log m /\ map event_id (flat_map en_events log) = [q_second + 1; q_second] /\
  map (fun o => (o_qty o, o_cb o)) (resting m Ask) = [(20, 4); (20, 4); (50, 1)].
Proof. split; [apply q_steps; by vm_compute|]. vm_compute. split; reflexivity. Qed.
