(** * PropsShare.v: how much of a trade each resting order gets (C93)

    Vocabulary: Spec.v ([accepted], [emitted], [about]: the events about one order,
    [fill_base], [resting], [gone], [steps], [events_about]), ClientSpec.v ([facing]: the
    orders a new order meets, best first; [withdraws]), OfferSpec.v ([free_to_sell]),
    PlaceSpec.v ([line], [traded_at]). *)
From Verif Require Import Machine Critbit EventQueue OrderBook Market Spec PartsSpec BestSpec ClientSpec LadderSpec PlaceSpec
  OfferSpec ExampleRuns.
From Verif Require Import HistoryProps LifeProps MarketReads CustodyProofs ShareProofs PropsPlace PropsOffer.
From Coq Require Import ZifyBool ZifyNat ZifyN.

(** Of what an order trades, a resting order gets all that is left after those in front of
    it, up to its own size.  In front of it: the orders the new order meets earlier,
    without the ones it withdraws for being its owner's.  (Not so for a sell order limited
    in quote units: see [C93_limited_sell_refuted].) *)
Theorem C93_share : forall (C : Type) (same_id : C -> C -> bool) c m p sm m' before o after,
  accepted same_id c m p sm m' -> free_to_sell m p ->
  facing m (p_side p) = before ++ o :: after -> withdraws same_id p o = false ->
  sumN fill_base (about (o_id o) (emitted m m')) =
    N.min (o_qty o)
      (sumN fill_base (emitted m m') -
       sumN o_qty (List.filter (fun z => negb (withdraws same_id p z)) before)).
Proof. exact @share. Qed.
Print Assumptions C93_share.

(** Between two moments at which an order rests: it has lost what it traded, and all else
    that traded at its price was waiting in front of it. *)
Theorem C93_waiting : forall (C : Type) (same_id : C -> C -> bool) c log0 m0 log m sd x,
  config_ok c -> history same_id c log0 m0 -> steps same_id m0 log m ->
  N.of_nat (length (log0 ++ log)) < p63 ->
  x ∈ resting m0 sd -> forall y, y ∈ resting m sd -> o_id y = o_id x ->
  o_qty y + sumN fill_base (events_about (o_id x) log) = o_qty x /\
  traded_at sd (id_price (o_id x)) log + line m sd (o_id x) <=
    line m0 sd (o_id x) + sumN fill_base (events_about (o_id x) log).
Proof. exact @waiting. Qed.
Print Assumptions C93_waiting.

(** So an order does not rest any more once its own size and the line in front of it have
    traded at its price. *)
Theorem C93_served : forall (C : Type) (same_id : C -> C -> bool) c log0 m0 log m sd x,
  config_ok c -> history same_id c log0 m0 -> steps same_id m0 log m ->
  N.of_nat (length (log0 ++ log)) < p63 -> x ∈ resting m0 sd ->
  line m0 sd (o_id x) + o_qty x <= traded_at sd (id_price (o_id x)) log ->
  o_id x ∉ map o_id (resting m sd).
Proof.
  intros C same_id c log0 m0 log m sd x Hc Hh Hs Hl Hx Ht Hin. apply elem_of_list_fmap in Hin as (y&Hi&Hy).
  destruct (waiting same_id c log0 m0 log m sd x Hc Hh Hs Hl Hx y Hy (eq_sym Hi)) as [H1 H2].
  assert (Hr : reachable same_id c m) by (split; [done|]; exists (log0 ++ log); split; [by eapply steps_app|done]).
  destruct (no_dust same_id c m sd y Hr Hy). lia.
Qed.
Print Assumptions C93_served.

(** ** Concrete cases
    Two asks at 3 (prices count half units), of 50 and 60, owned by 1 and 2. A buyer of 70
    gets 50 from the first and 20 from the second. *)
Example C93_example_share :
  let p := mk_params 70 1000 (6 * 2147483648) Bid 10 3 false false DecrementTake in let m' := of_next q_m0 p in
  (exists s, accepted N.eqb ex_cfg q_m0 p s m') /\ free_to_sell q_m0 p /\
  facing q_m0 (p_side p) = [(mk_leaf q_first 50, 1)] ++ (mk_leaf q_second 60, 2) :: [] /\
  withdraws N.eqb p (mk_leaf q_second 60, 2) = false /\
  sumN fill_base (emitted q_m0 m') = 70 /\ sumN fill_base (about q_second (emitted q_m0 m')) = 20.
Proof. intros p m'. split; [eexists; of_run|]. split; [intros E; discriminate E|]. split_and!; by vm_compute. Qed.
(** The run of C71: 50 in front of the second, 80 trade at its price, of which 30 are its
    own; it rests on, with 30 left.  Then 40 more are wanted and it is gone. *)
Definition sh_ops : list (op N) := q_ops1 ++ q_ops2 ++ [ex_new Bid 40 100000 6 10 5 false true DecrementTake].
Example C93_example :
  history N.eqb ex_cfg (log_of N.eqb ex_cfg q_ops0) q_m0 /\ steps N.eqb q_m0 q_log2 q_m2 /\
  resting q_m2 Ask = [(mk_leaf q_second 30, 2)] /\ line q_m0 Ask q_second = 50 /\ line q_m2 Ask q_second = 0 /\
  traded_at Ask (id_price q_second) q_log2 = 80 /\ sumN fill_base (events_about q_second q_log2) = 30 /\
  let log := fst (q_run sh_ops q_m0) in let m := snd (q_run sh_ops q_m0) in
  steps N.eqb q_m0 log m /\ traded_at Ask (id_price q_second) log = 110 /\ resting m Ask = [].
Proof.
  split; [exact q_history|]. split; [apply q_steps; by vm_compute|]. do 5 (split; [by vm_compute|]).
  intros log m. split; [apply q_steps; by vm_compute|]. split; by vm_compute.
Qed.

(** A seller who wants at most 5 quote units meets a buyer of 12 at 1.5: 3 units are traded
    for 4, the 9 left are below the smallest order and removed, and the last quote unit
    pays for one unit of the buyer behind, at 1. *)
Definition sh_buyers : list (op N) := [of_bid 12 3 1; of_bid 20 2 2].
Definition sh_sell : params N := mk_params 100 5 2147483648 Ask 10 3 false false DecrementTake.
Example C93_limited_example :
  let m := after N.eqb ex_cfg sh_buyers in let m' := of_next m sh_sell in
  exists s x y, accepted N.eqb ex_cfg m sh_sell s m' /\ facing m (p_side sh_sell) = [x] ++ y :: [] /\
  withdraws N.eqb sh_sell y = false /\ withdraws N.eqb sh_sell x = false /\ o_qty x = 12 /\
  deals (emitted m m') = [(3, 3 * 2147483648); (1, 2 * 2147483648)] /\
  sumN fill_base (emitted m m') = 4 /\ sumN fill_base (about (o_id y) (emitted m m')) = 1.
Proof. intros m m'. do 3 eexists. split; [of_run|]. split; [by vm_compute|]. split_and!; by vm_compute. Qed.
Theorem C93_limited_sell_refuted : ~ forall (C : Type) (same_id : C -> C -> bool) c m p sm m' before o after,
  accepted same_id c m p sm m' -> facing m (p_side p) = before ++ o :: after -> withdraws same_id p o = false ->
  sumN fill_base (about (o_id o) (emitted m m')) =
    N.min (o_qty o)
      (sumN fill_base (emitted m m') -
       sumN o_qty (List.filter (fun z => negb (withdraws same_id p z)) before)).
Proof.
  intros H. destruct C93_limited_example as (s&x&y&Ha&Hf&Hy&Hx&Hq&_&E1&E2).
  specialize (H _ _ _ _ _ _ _ _ _ _ Ha Hf Hy). cbn [List.filter] in H. rewrite Hx in H. cbn [negb sumN] in H. rewrite E1, E2, Hq in H. lia.
Qed.
Print Assumptions C93_limited_sell_refuted.
