(** * PropsLadder.v: what an order trades, worked out from the book (C89) *)
From Verif Require Import Machine Bytes Critbit EventQueue OrderBook Market Spec PartsSpec PartsProofs BestSpec LadderSpec LadderProofs SellProofs
  Layout Ledger LedgerSpec JsClient ClientSpec PropsClient ExampleRuns LedgerExample PropsMarket PropsOrder PropsBest.
From Coq Require Import Sorted ZifyBool ZifyNat ZifyN.

(** A buyer gets the first units of the ladder, slice by slice, at the price of each slice:
    as many as were wanted, as the ladder has, and as the quote units pay for; it is the
    largest such number. *)
Theorem C89_buy : forall (C : Type) (same_id : C -> C -> bool) c m p sm m',
  accepted same_id c m p sm m' -> p_side p = Bid -> post_only p = false ->
  let L := ladder same_id m p in let bought := sumN fill_base (emitted m m') in
  deals (emitted m m') = slices bought L /\ sumN fill_quote (emitted m m') = total Bid (slices bought L) /\
  (bought <= max_base_qty p /\ bought <= depth L /\ total Bid (slices bought L) <= max_quote_qty p) /\
  forall more, more <= max_base_qty p -> more <= depth L -> total Bid (slices more L) <= max_quote_qty p -> more <= bought.
Proof.
  intros C same_id c m p sm m' H Es Hp L B. destruct (buys _ _ _ _ _ _ H Es Hp) as (D1&D2&D3&D4&D5&D6).
  fold L B in D1, D2, D3, D4, D6. rewrite D2 in D5. split_and!; done.
Qed.
(** So a buyer with enough quote units buys what is wanted, or all there is. *)
Theorem C89_buy_all : forall (C : Type) (same_id : C -> C -> bool) c m p sm m',
  accepted same_id c m p sm m' -> p_side p = Bid -> post_only p = false ->
  let L := ladder same_id m p in let wanted := N.min (max_base_qty p) (depth L) in
  total Bid (slices wanted L) <= max_quote_qty p ->
  sumN fill_base (emitted m m') = wanted /\ sumN fill_quote (emitted m m') = total Bid (slices wanted L).
Proof.
  intros C same_id c m p sm m' H Es Hp L B HB. destruct (buys _ _ _ _ _ _ H Es Hp) as (D1&D2&D3&D4&D5&D6). fold L in D2, D4, D6.
  assert (E : sumN fill_base (emitted m m') = B).
  { specialize (D6 B ltac:(lia) ltac:(lia) HB). lia. }
  rewrite E in D2. done.
Qed.
(** A seller (one who is not limited in quote units and withdraws no order) sells to the
    first units of the ladder, up to the first slice that is worth less than one quote
    unit. *)
Theorem C89_sell : forall (C : Type) (same_id : C -> C -> bool) c m p sm m',
  accepted same_id c m p sm m' -> p_side p = Ask -> post_only p = false ->
  worth Bid m <= max_quote_qty p ->
  (forall o, o ∈ resting m Bid -> within_limit p o = true -> withdraws same_id p o = false) ->
  let sold := worth_selling (slices (max_base_qty p) (ladder same_id m p)) in
  deals (emitted m m') = sold /\ sumN fill_base (emitted m m') = depth sold /\
  sumN fill_quote (emitted m m') = total Ask sold.
Proof. intros C same_id c m p sm m'. apply sells. Qed.
(** The same for a seller who withdraws own orders on the way: these stay out of the trade,
    but one for which the rest would be worth less than one quote unit ends it. *)
Theorem C89_sell_withdrawing : forall (C : Type) (same_id : C -> C -> bool) c m p sm m',
  accepted same_id c m p sm m' -> p_side p = Ask -> post_only p = false -> worth Bid m <= max_quote_qty p ->
  let sold := selling (max_base_qty p) (marked_ladder same_id m p) in
  deals (emitted m m') = sold /\ sumN fill_base (emitted m m') = depth sold /\
  sumN fill_quote (emitted m m') = total Ask sold.
Proof. exact @sells_all. Qed.
(** The same worked out by a client from the price levels that [getL2DepthJS] returns,
    whose steps are all the orders of one price together: the result is right up to one
    quote unit for each fill beyond the first at a price. *)
Theorem C89_client : forall cs (same_id : bytes -> bytes -> bool) pid c l a m p sm m' js n levels,
  ledger_ok l -> opens cs pid l a m -> client_slab cs l a (opposite (p_side p)) ->
  js_slab_deserialize (a_data (l (slab_key a (opposite (p_side p))))) (N.of_nat cs) = Ok js ->
  js_get_l2_depth js (N.of_nat n) (match p_side p with Bid => true | Ask => false end) = Ok levels ->
  accepted same_id c m p sm m' -> post_only p = false ->
  (p_side p = Ask -> worth Bid m <= max_quote_qty p) ->
  (forall o, o ∈ resting m (opposite (p_side p)) -> within_limit p o = true -> withdraws same_id p o = false) ->
  let E := emitted m m' in let estimate := slices (sumN fill_base E) levels in
  let beyond := fills E - N.of_nat (length estimate) in
  sumN fill_base E <= depth levels ->
  N.of_nat (length estimate) <= fills E /\
  match p_side p with
  | Bid => total Bid estimate <= sumN fill_quote E <= total Bid estimate + beyond
  | Ask => sumN fill_quote E <= total Ask estimate <= sumN fill_quote E + beyond
  end.
Proof.
  intros cs same_id pid c l a m p sm m' js n lv Hok Ho Hcl Hjs Hlv H Hpo Hw Hown E est bey HB. pose proof H as (Hr&_).
  destruct (C49_l2_depth cs same_id pid c l a m _ Hok Ho Hr Hcl js Hjs n (match p_side p with Bid => true | Ask => false end)) as (prices&Hs&Hp&Hl).
  rewrite Hlv in Hl. injection Hl as Hl.
  assert (Hin : forall o, o ∈ facing m (p_side p) <-> o ∈ resting m (opposite (p_side p))).
  { intros o. destruct (p_side p); cbn [facing opposite]; [done|]. rewrite !elem_of_list_In. symmetry. apply in_rev. }
  destruct (LadderProofs.levels same_id c m p sm m' prices n H Hpo Hw) as [G1 G2].
  - intros o Hf. apply Hown. by apply Hin.
  - by destruct (p_side p).
  - intros q. rewrite Hp. split; intros (o&Hf&Eq); exists o; (split; [by apply Hin|done]).
  - assert (El : lv = take n (map (fun q => (at_price (facing m (p_side p)) q, q)) prices)).
    { rewrite Hl. f_equal. apply map_ext. intros q. f_equal. destruct (p_side p); cbn [facing opposite]; [done|]. by rewrite at_price_rev. }
    rewrite <- El. exact HB.
  - assert (El : lv = take n (map (fun q => (at_price (facing m (p_side p)) q, q)) prices)).
    { rewrite Hl. f_equal. apply map_ext. intros q. f_equal. destruct (p_side p); cbn [facing opposite]; [done|]. by rewrite at_price_rev. }
    rewrite <- El in G1. fold E in G1, G2. fold est in G1. unfold near in G1. destruct G1 as [G0 G1].
    assert (Ef : N.of_nat (length (deals E)) = fills E) by (unfold deals, fills; by rewrite map_length).
    rewrite Ef in G1. fold bey in G1. rewrite <- Ef. split; [lia|]. rewrite G2. destruct (p_side p); exact G1.
Qed.

(** ** Concrete cases
    The sellers of C87_example, 20 at 1, 20 and 20 at 1.5.  Offering 57 quote units for 45
    base units, a buyer gets 44; the 45th would bring the total to 58. *)
Definition la_p (quote : N) : params N := mk_params 45 quote (4 * 2147483648) Bid 10 3 false false DecrementTake.
Definition la_m1 (quote : N) : market N := snd (exec N.eqb (NewOrder (la_p quote)) be_m).
Lemma be_reachable : reachable N.eqb ex_cfg be_m.
Proof. change be_m with (after N.eqb ex_cfg be_ops). apply after_reachable; [exact ex_cfg_ok|by vm_compute..]. Qed.
Example C89_example : exists sm, accepted N.eqb ex_cfg be_m (la_p 57) sm (la_m1 57) /\
  let h := 2147483648 in
  ladder N.eqb be_m (la_p 57) = [(20, 2 * h); (20, 3 * h); (20, 3 * h)] /\
  deals (emitted be_m (la_m1 57)) = [(20, 2 * h); (20, 3 * h); (4, 3 * h)] /\
  total Bid (slices 44 (ladder N.eqb be_m (la_p 57))) = 56 /\ total Bid (slices 45 (ladder N.eqb be_m (la_p 57))) = 58.
Proof.
  eexists. split; [|by vm_compute].
  split; [exact be_reachable|split; [apply op_typedb_ok; by vm_compute|vm_compute; reflexivity]].
Qed.
Example C89_all_example : exists sm, accepted N.eqb ex_cfg be_m (la_p 58) sm (la_m1 58) /\
  total Bid (slices (N.min 45 60) (ladder N.eqb be_m (la_p 58))) <= 58 /\
  sumN fill_base (emitted be_m (la_m1 58)) = 45.
Proof.
  eexists. split; [|by vm_compute].
  split; [exact be_reachable|split; [apply op_typedb_ok; by vm_compute|vm_compute; reflexivity]].
Qed.
(** The market of C49_example: 5 wanted at 4 and 5 at 3; 7 are sold, as the levels say. *)
Definition la_sell : params bytes := mk_params 7 1000 (e_price 3) Ask 10 (e_cb 2) false false CancelProvide.
Definition la_x : market bytes := snd (exec e_same (NewOrder la_sell) x_m).
Example C89_sell_example : exists sm, accepted e_same e_cfg x_m la_sell sm la_x /\
  worth Bid x_m <= max_quote_qty la_sell /\
  (forall o, o ∈ resting x_m Bid -> within_limit la_sell o = true -> withdraws e_same la_sell o = false) /\
  deals (emitted x_m la_x) = [(5, e_price 4); (2, e_price 3)] /\ sumN fill_quote (emitted x_m la_x) = 26 /\
  js_slab_deserialize (a_data (x_l3 (slab_key e_a Bid))) (N.of_nat e_cs) = Ok x_js /\
  exists levels, js_get_l2_depth x_js (N.of_nat 2) false = Ok levels /\ depth levels = 10 /\ total Ask (slices 7 levels) = 26.
Proof.
  eexists. split; [split; [exact x_reachable|split; [apply op_typedb_ok; by vm_compute|vm_compute; reflexivity]]|].
  split; [by vm_compute|]. split.
  { intros o Ho _. assert (E : forallb (fun o => negb (withdraws e_same la_sell o)) (resting x_m Bid) = true) by by vm_compute.
    rewrite forallb_forall in E. apply elem_of_list_In in Ho. specialize (E o Ho). by destruct (withdraws _ _ _). }
  split; [by vm_compute|]. split; [by vm_compute|]. split; [by vm_compute|]. eexists. split; [vm_compute; reflexivity|]. by vm_compute.
Qed.

(** A bid of owner 3 for 20 at 1 and one of owner 2 for 30 at 0.5.  Owner 3 sells 25: the own
    bid is withdrawn and the other one gets all. *)
Definition la_w : market N := after N.eqb ex_cfg [ex_new Bid 20 1000 2 10 3 false true DecrementTake; ex_new Bid 30 1000 1 10 2 false true DecrementTake].
Definition la_wp : params N := mk_params 25 1000 2147483648 Ask 10 3 false false CancelProvide.
Example C89_withdrawing_example : exists sm, accepted N.eqb ex_cfg la_w la_wp sm (snd (exec N.eqb (NewOrder la_wp) la_w)) /\
  worth Bid la_w <= max_quote_qty la_wp /\
  marked_ladder N.eqb la_w la_wp = [(20, 2 * 2147483648, true); (30, 2147483648, false)] /\
  deals (emitted la_w (snd (exec N.eqb (NewOrder la_wp) la_w))) = [(25, 2147483648)].
Proof.
  eexists. split. { split; [apply after_reachable; [exact ex_cfg_ok|by vm_compute..]|]. split; [apply op_typedb_ok; by vm_compute|vm_compute; reflexivity]. }
  split_and!; by vm_compute.
Qed.

Print Assumptions C89_sell_withdrawing.
Print Assumptions C89_buy.
Print Assumptions C89_buy_all.
Print Assumptions C89_sell.
Print Assumptions C89_client.
