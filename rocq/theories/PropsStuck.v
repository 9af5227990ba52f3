(** * PropsStuck.v: buy orders worth less than one quote unit (C88) *)
From Verif Require Import Machine Critbit EventQueue OrderBook Market Spec StuckSpec StuckProofs
  ExampleRuns PropsMarket PropsOrder PropsParts.
From Coq Require Import ZifyBool ZifyNat ZifyN.

(** A buy order worth less than one quote unit that is the first of its side stops every
    sell order that would accept its price: the order is answered with an empty summary,
    nothing is traded, posted or withdrawn, whatever its quantities, flags and owner. *)
Theorem C88_blocked : forall (C : Type) (same_id : C -> C -> bool) c m p r m' x,
  reachable same_id c m -> op_typed (NewOrder p) -> exec same_id (NewOrder p) m = (r, m') ->
  p_side p = Ask -> first m Bid x -> worthless x -> limit_price p <= id_price (o_id x) ->
  r = Err InvalidLimitPrice \/
  r = Ok (Some (mk_summary None 0 0 0)) /\ (forall sd, resting m' sd = resting m sd) /\ emitted m m' = [].
Proof. exact @blocked. Qed.
(** It stays until it is cancelled or evicted, and until then no buy order behind it is
    filled, whatever happens. *)
Theorem C88_until_removed : forall (C : Type) (same_id : C -> C -> bool) c log0 m0 log m x,
  config_ok c -> history same_id c log0 m0 -> steps same_id m0 log m ->
  N.of_nat (length (log0 ++ log)) < p63 -> x ∈ resting m0 Bid -> worthless x ->
  o_id x ∉ cancelled log -> ~ evicted (o_id x) log ->
  x ∈ resting m Bid /\
  forall ev, ev ∈ flat_map en_events log -> is_fill ev = true -> side_of_id (event_id ev) = Bid ->
    ahead Bid (event_id ev) (o_id x).
Proof. exact @stuck. Qed.
(** Anyone can bring it about for one quote unit, at every price between the two sides at
    which the smallest order is worth less than one quote unit. *)
Theorem C88_one_unit : forall (C : Type) (same_id : C -> C -> bool) c m price cb,
  reachable same_id c m -> (c_tick c | price) -> 0 < price -> c_min c * price < 2 ^ 32 ->
  (forall o, o ∈ resting m Ask -> price < id_price (o_id o)) ->
  (forall o, o ∈ resting m Bid -> id_price (o_id o) < price) ->
  (length (resting m Bid) < c_bids c)%nat ->
  exists sm m' x, accepted same_id c m (mk_params (c_min c) 1 price Bid 1 cb false true DecrementTake) sm m' /\
    total_quote_qty sm = 1 /\ first m' Bid x /\ worthless x /\ id_price (o_id x) = price.
Proof. exact @arises. Qed.
(** A market whose smallest order is worth at least one quote unit at the smallest price
    never has such an order. *)
Theorem C88_sound_market : forall (C : Type) (same_id : C -> C -> bool) c m sd x,
  reachable same_id c m -> 2 ^ 32 <= c_min c * c_tick c -> x ∈ resting m sd -> ~ worthless x.
Proof.
  intros C same_id c m sd x Hr Hc Hx. pose proof (C20_no_dust _ _ _ _ _ _ Hr Hx) as [Hq _].
  pose proof (C21_resting_tick _ _ _ _ _ _ Hr Hx) as [Hd Hp]. apply N.divide_pos_le in Hd; [|lia]. unfold worthless. nia.
Qed.
(** And then an order that accepts the first order of the other side, and can pay for, or
    has, one quote unit's worth, deals with it (by a fill, or by withdrawing it when it is
    the sender's own). *)
Theorem C88_progress : forall (C : Type) (same_id : C -> C -> bool) c m p sm m' x,
  accepted same_id c m p sm m' -> post_only p = false -> 0 < match_limit p ->
  first m (opposite (p_side p)) x -> crossing (p_side p) (limit_price p) (id_price (o_id x)) ->
  match p_side p with
  | Bid => 0 < max_base_qty p /\ id_price (o_id x) <= max_quote_qty p * 2 ^ 32
  | Ask => ~ worthless x /\ 2 ^ 32 <= max_base_qty p * id_price (o_id x) /\
           2 ^ 32 <= max_quote_qty p * 2 ^ 32 / id_price (o_id x) * id_price (o_id x)
  end -> exists ev, ev ∈ emitted m m' /\ event_id ev = o_id x.
Proof. exact @progress. Qed.

(** The smallest size is 10, the tick is 1/16.  Someone bids for 10 units at 1/16, worth
    0.625, and someone else for 1000 units at the same price.  A sell order of 500 units
    at 1/16 does nothing. *)
Definition st_ops : list (op N) := [ex_new2 Bid 10 1 1 1 true; ex_new2 Bid 1000 1000 1 2 true].
Definition st_m : market N := Eval vm_compute in after N.eqb ex_cfg2 st_ops.
Definition st_p : params N := mk_params 500 1000 268435456 Ask 10 3 false true DecrementTake.
Definition st_m1 : market N := Eval vm_compute in snd (exec N.eqb (NewOrder st_p) st_m).
Definition st_x : order N := Eval vm_compute in List.last (resting st_m Bid) (mk_leaf 0 0, 0).
Lemma st_reachable : reachable N.eqb ex_cfg2 st_m.
Proof. change st_m with (after N.eqb ex_cfg2 st_ops). apply after_reachable; [unfold config_ok; cbn; lia|by vm_compute..]. Qed.
Lemma st_first : first st_m Bid st_x.
Proof.
  split; [apply elem_of_list_In; vm_compute; tauto|]. intros o Ho Hne. apply elem_of_list_In in Ho. vm_compute in Ho.
  destruct Ho as [<-|[<-|[]]]; [|by destruct Hne]. right. by vm_compute.
Qed.
Example C88_example : accepted N.eqb ex_cfg2 st_m st_p (mk_summary None 0 0 0) st_m1 /\
  first st_m Bid st_x /\ worthless st_x /\ limit_price st_p = id_price (o_id st_x) /\
  map o_qty (resting st_m1 Bid) = [1000; 10] /\ resting st_m1 Ask = [] /\ pending st_m1 = [].
Proof.
  split; [split; [exact st_reachable|split; [apply op_typedb_ok; by vm_compute|vm_compute; reflexivity]]|].
  split; [exact st_first|]. split; [by vm_compute|]. vm_compute. auto.
Qed.
(** So a sell order that accepts the first buy order, with enough of everything, need not
    deal with it. *)
Theorem C88_progress_refuted : ~ forall (C : Type) (same_id : C -> C -> bool) c m p sm m' x,
  accepted same_id c m p sm m' -> post_only p = false -> 0 < match_limit p ->
  p_side p = Ask -> first m Bid x -> limit_price p <= id_price (o_id x) ->
  2 ^ 32 <= max_base_qty p * id_price (o_id x) ->
  2 ^ 32 <= max_quote_qty p * 2 ^ 32 / id_price (o_id x) * id_price (o_id x) ->
  exists ev, ev ∈ emitted m m' /\ event_id ev = o_id x.
Proof.
  intros H. destruct C88_example as (Ha&Hf&_&_&_&_&Hp).
  destruct (H _ _ _ _ _ _ _ _ Ha eq_refl ltac:(by vm_compute) eq_refl Hf ltac:(apply N.leb_le; by vm_compute)
    ltac:(apply N.leb_le; by vm_compute) ltac:(apply N.leb_le; by vm_compute)) as (ev&Hev&_).
  unfold emitted in Hev. rewrite Hp in Hev. destruct (length _) in Hev; by apply elem_of_nil in Hev.
Qed.
(** Afterwards someone bids more (which evicts the larger order at 1/16, the side has room
    for two) and sells to that bid; the small order stays. *)
Definition st_ops2 : list (op N) := [ex_new2 Bid 20 1000 16 4 true; ex_new2 Ask 20 1000 1 5 false].
Definition st_log2 : list (entry N) := Eval vm_compute in fst (run_log N.eqb st_ops2 [] st_m).
Definition st_m2 : market N := Eval vm_compute in snd (run_log N.eqb st_ops2 [] st_m).
Example C88_until_removed_example : history N.eqb ex_cfg2 (log_of N.eqb ex_cfg2 st_ops) st_m /\
  steps N.eqb st_m st_log2 st_m2 /\ st_x ∈ resting st_m Bid /\ worthless st_x /\
  o_id st_x ∉ cancelled st_log2 /\ ~ evicted (o_id st_x) st_log2 /\
  map (fun ev => (is_fill ev, id_price (event_id ev))) (flat_map en_events st_log2) =
    [(false, 268435456); (true, 16 * 268435456); (false, 16 * 268435456)].
Proof.
  split_and!.
  - change st_m with (after N.eqb ex_cfg2 st_ops). by apply after_history.
  - change st_log2 with (fst (run_log N.eqb st_ops2 [] st_m)). change st_m2 with (snd (run_log N.eqb st_ops2 [] st_m)).
    apply run_log_steps; [by vm_compute|constructor].
  - apply st_first.
  - by vm_compute.
  - intros H. apply elem_of_list_In in H. by vm_compute in H.
  - intros (ev&Hev&_). apply elem_of_list_In in Hev. by vm_compute in Hev.
  - by vm_compute.
Qed.
(** The orders of the usual example market are worth more than one quote unit: its smallest
    size is 10 and its tick 1/2. *)
Example C88_sound_example : 2 ^ 32 <= c_min ex_cfg * c_tick ex_cfg /\ length (resting h_m Bid) = 2%nat.
Proof. split; [apply N.leb_le; by vm_compute|by vm_compute]. Qed.
(** The conditions of C88_one_unit in the small market at its start. *)
Example C88_one_unit_example : reachable N.eqb ex_cfg2 (after N.eqb ex_cfg2 []) /\
  (c_tick ex_cfg2 | 268435456) /\ c_min ex_cfg2 * 268435456 < 2 ^ 32 /\
  resting (after N.eqb ex_cfg2 []) Ask = [] /\ resting (after N.eqb ex_cfg2 []) Bid = [] /\ (0 < c_bids ex_cfg2)%nat.
Proof.
  split; [apply after_reachable; [unfold config_ok; cbn; lia|by vm_compute..]|]. split; [by exists 1|]. vm_compute. auto.
Qed.
(** An order that would deal with it in C88_progress. *)
Example C88_progress_example : exists sm m', accepted N.eqb ex_cfg h_m (mk_params 20 1000 2147483648 Ask 3 9 false false DecrementTake) sm m' /\
  (total_base_qty sm, length (emitted h_m m')) = (20, 3%nat).
Proof.
  eexists _, _. split; [split; [apply h_reachable|split; [apply op_typedb_ok; by vm_compute|vm_compute; reflexivity]]|by vm_compute].
Qed.

Print Assumptions C88_blocked.
Print Assumptions C88_until_removed.
Print Assumptions C88_one_unit.
Print Assumptions C88_sound_market.
Print Assumptions C88_progress.
Print Assumptions C88_progress_refuted.
