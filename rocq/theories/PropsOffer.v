(** * PropsOffer.v: more orders on the other side do a new order no harm (C92) *)
From Verif Require Import Machine Critbit EventQueue OrderBook Market Spec PartsSpec BestSpec LadderSpec OfferSpec OfferProofs
  ExampleRuns PropsMarket PropsOrder PropsBest.
From Coq Require Import ZifyBool ZifyNat ZifyN.

(** The same order [p] in two markets, where the second has all the orders of the other side
    that the first has, and maybe more, or larger ones.  For every quantity that is traded in both: the
    first so many units are worth no more in the second when [p] buys, and no less when it
    sells. *)
Theorem C92_price : forall (C : Type) (same_id : C -> C -> bool) c1 c2 m1 m2 p s1 s2 m1' m2',
  accepted same_id c1 m1 p s1 m1' -> accepted same_id c2 m2 p s2 m2' ->
  more_on_offer m1 m2 (opposite (p_side p)) -> post_only p = false -> free_to_sell m2 p ->
  let trades1 := deals (emitted m1 m1') in let trades2 := deals (emitted m2 m2') in
  forall base, base <= depth trades1 -> base <= depth trades2 ->
  match p_side p with
  | Bid => exact_value (slices base trades2) <= exact_value (slices base trades1)
  | Ask => exact_value (slices base trades1) <= exact_value (slices base trades2)
  end.
Proof.
  intros C same_id c1 c2 m1 m2 p s1 s2 m1' m2' H1 H2 Hm Hpo Hf D1 D2 b B1 B2.
  pose proof (more_price _ _ _ _ _ _ _ _ _ _ H1 H2 Hm Hpo Hf b B1 B2) as G. destruct (p_side p); exact G.
Qed.
(** In quote units it may be one unit for each fill beyond the first to its disadvantage. *)
Theorem C92_quote : forall (C : Type) (same_id : C -> C -> bool) c1 c2 m1 m2 p s1 s2 m1' m2',
  accepted same_id c1 m1 p s1 m1' -> accepted same_id c2 m2 p s2 m2' ->
  more_on_offer m1 m2 (opposite (p_side p)) -> post_only p = false -> free_to_sell m2 p ->
  let trades1 := deals (emitted m1 m1') in let trades2 := deals (emitted m2 m2') in
  forall base, base <= depth trades1 -> base <= depth trades2 ->
  let rounding := N.of_nat (length (slices base trades2)) - 1 in
  match p_side p with
  | Bid => total Bid (slices base trades2) <= total Bid (slices base trades1) + rounding
  | Ask => total Ask (slices base trades1) <= total Ask (slices base trades2) + rounding
  end.
Proof. intros C same_id c1 c2 m1 m2 p s1 s2 m1' m2'. apply more_quote. Qed.
(** A buyer who may meet all the sellers and has the quote units for what is wanted buys at
    least as much. *)
Theorem C92_amount : forall (C : Type) (same_id : C -> C -> bool) c1 c2 m1 m2 p s1 s2 m1' m2',
  accepted same_id c1 m1 p s1 m1' -> accepted same_id c2 m2 p s2 m2' ->
  more_on_offer m1 m2 (opposite (p_side p)) -> p_side p = Bid -> post_only p = false ->
  N.of_nat (length (List.filter (within_limit p) (resting m2 Ask))) <= match_limit p ->
  let L := ladder same_id m2 p in total Bid (slices (N.min (max_base_qty p) (depth L)) L) <= max_quote_qty p ->
  sumN fill_base (emitted m1 m1') <= sumN fill_base (emitted m2 m2').
Proof. intros C same_id c1 c2 m1 m2 p s1 s2 m1' m2'. apply more_bought. Qed.

(** ** Concrete cases
    A seller of 20 at 1.5 and one of 20 at 1; then another of 20 at 1.  30 units are bought
    for 30 instead of 35. *)
Definition subset_of (l1 l2 : list (order N)) : bool :=
  forallb (fun o => existsb (fun o' => (o_id o =? o_id o') && (o_qty o <=? o_qty o') && (o_cb o =? o_cb o')) l2) l1.
Lemma subset_more (m1 m2 : market N) sd : subset_of (resting m1 sd) (resting m2 sd) = true -> more_on_offer m1 m2 sd.
Proof.
  intros H o Ho. unfold subset_of in H. rewrite forallb_forall in H. apply elem_of_list_In in Ho. specialize (H o Ho).
  apply existsb_exists in H as (o'&Hi&E). exists o'. split; [by apply elem_of_list_In|]. lia.
Qed.
Definition of_ask (base price cb : N) : op N := ex_new Ask base 1000 price 10 cb false true DecrementTake.
Definition of_bid (base price cb : N) : op N := ex_new Bid base 1000 price 10 cb false true DecrementTake.
Definition of_buy (base limit : N) : params N := mk_params base 1000 (4 * 2147483648) Bid limit 3 false false DecrementTake.
Definition of_sell (base : N) : params N := mk_params base 1000 2147483648 Ask 10 3 false false DecrementTake.
Definition of_next (m : market N) (p : params N) : market N := snd (exec N.eqb (NewOrder p) m).
Definition of_few : list (op N) := [of_ask 20 3 1; of_ask 20 2 2].
Definition of_many : list (op N) := of_few ++ [of_ask 20 2 5].
Lemma of_accepted ops p : forallb op_typedb (NewOrder p :: ops) = true -> N.of_nat (length ops) < p63 ->
  forall s m', exec N.eqb (NewOrder p) (after N.eqb ex_cfg ops) = (Ok (Some s), m') ->
  accepted N.eqb ex_cfg (after N.eqb ex_cfg ops) p s m'.
Proof.
  intros Ht Hl s m' E. cbn [forallb] in Ht. apply andb_prop in Ht as [H1 H2].
  split; [apply after_reachable; [exact ex_cfg_ok|exact H2|exact Hl]|]. split; [by apply op_typedb_ok|exact E].
Qed.
Ltac of_run := apply of_accepted; [by vm_compute|by vm_compute|vm_compute; reflexivity].
Example C92_example :
  let m1 := after N.eqb ex_cfg of_few in let m2 := after N.eqb ex_cfg of_many in let p := of_buy 30 10 in
  let L := ladder N.eqb m2 p in
  (exists s1, accepted N.eqb ex_cfg m1 p s1 (of_next m1 p)) /\ (exists s2, accepted N.eqb ex_cfg m2 p s2 (of_next m2 p)) /\
  more_on_offer m1 m2 (opposite (p_side p)) /\ post_only p = false /\ free_to_sell m2 p /\
  N.of_nat (length (List.filter (within_limit p) (resting m2 Ask))) <= match_limit p /\
  total Bid (slices (N.min (max_base_qty p) (depth L)) L) <= max_quote_qty p /\
  deals (emitted m1 (of_next m1 p)) = [(20, 2 * 2147483648); (10, 3 * 2147483648)] /\
  deals (emitted m2 (of_next m2 p)) = [(20, 2 * 2147483648); (10, 2 * 2147483648)] /\
  total Bid (deals (emitted m1 (of_next m1 p))) = 35 /\ total Bid (deals (emitted m2 (of_next m2 p))) = 30.
Proof.
  intros m1 m2 p L. split; [eexists; of_run|]. split; [eexists; of_run|]. split; [apply subset_more; by vm_compute|]. split; [reflexivity|].
  split; [intros E; discriminate E|]. split_and!; by vm_compute.
Qed.
(** Rounding: 22 units at 1.5 cost 33, but 34 when another seller of 11 units is first at
    the same price. *)
Definition of_split : list (op N) := [of_ask 11 3 1; of_ask 22 3 2].
Definition of_one : list (op N) := Eval vm_compute in
  of_split ++ [CancelOrder (match resting (after N.eqb ex_cfg of_split) Ask with o :: _ => o_id o | [] => 0 end)].
Example C92_rounding_example :
  let m1 := after N.eqb ex_cfg of_one in let m2 := after N.eqb ex_cfg of_split in let p := of_buy 22 10 in
  (exists s1, accepted N.eqb ex_cfg m1 p s1 (of_next m1 p)) /\ (exists s2, accepted N.eqb ex_cfg m2 p s2 (of_next m2 p)) /\
  more_on_offer m1 m2 (opposite (p_side p)) /\
  deals (emitted m1 (of_next m1 p)) = [(22, 3 * 2147483648)] /\
  deals (emitted m2 (of_next m2 p)) = [(11, 3 * 2147483648); (11, 3 * 2147483648)] /\
  total Bid (deals (emitted m1 (of_next m1 p))) = 33 /\ total Bid (deals (emitted m2 (of_next m2 p))) = 34.
Proof.
  intros m1 m2 p. split; [eexists; of_run|]. split; [eexists; of_run|]. split; [apply subset_more; by vm_compute|]. split_and!; by vm_compute.
Qed.
Theorem C92_exact_quote_refuted : ~ forall (C : Type) (same_id : C -> C -> bool) c1 c2 m1 m2 p s1 s2 m1' m2',
  accepted same_id c1 m1 p s1 m1' -> accepted same_id c2 m2 p s2 m2' ->
  more_on_offer m1 m2 (opposite (p_side p)) -> p_side p = Bid ->
  sumN fill_base (emitted m1 m1') = sumN fill_base (emitted m2 m2') ->
  sumN fill_quote (emitted m2 m2') <= sumN fill_quote (emitted m1 m1').
Proof.
  intros H. destruct C92_rounding_example as ((s1&H1)&(s2&H2)&Hm&_).
  specialize (H N N.eqb _ _ _ _ _ _ _ _ _ H1 H2 Hm eq_refl ltac:(by vm_compute)). apply N.leb_le in H. by vm_compute in H.
Qed.
(** The match limit: who may meet one order only buys the 11 units in front instead of
    22. *)
Example C92_match_example :
  let m1 := after N.eqb ex_cfg of_one in let m2 := after N.eqb ex_cfg of_split in let p := of_buy 22 1 in
  (exists s1, accepted N.eqb ex_cfg m1 p s1 (of_next m1 p)) /\ (exists s2, accepted N.eqb ex_cfg m2 p s2 (of_next m2 p)) /\
  more_on_offer m1 m2 (opposite (p_side p)) /\
  sumN fill_base (emitted m1 (of_next m1 p)) = 22 /\ sumN fill_base (emitted m2 (of_next m2 p)) = 11.
Proof.
  intros m1 m2 p. split; [eexists; of_run|]. split; [eexists; of_run|]. split; [apply subset_more; by vm_compute|]. split_and!; by vm_compute.
Qed.
Theorem C92_match_limit_refuted : ~ forall (C : Type) (same_id : C -> C -> bool) c1 c2 m1 m2 p s1 s2 m1' m2',
  accepted same_id c1 m1 p s1 m1' -> accepted same_id c2 m2 p s2 m2' ->
  more_on_offer m1 m2 (opposite (p_side p)) -> p_side p = Bid -> post_only p = false ->
  total Bid (map step_of (resting m2 Ask)) <= max_quote_qty p ->
  sumN fill_base (emitted m1 m1') <= sumN fill_base (emitted m2 m2').
Proof.
  intros H. destruct C92_match_example as ((s1&H1)&(s2&H2)&Hm&E1&E2).
  specialize (H N N.eqb _ _ _ _ _ _ _ _ _ H1 H2 Hm eq_refl eq_refl ltac:(by vm_compute)). rewrite E1, E2 in H. lia.
Qed.
(** Sales: of 21 units all are sold to a buyer of 30 at 0.5.  With another buyer of 20 at 1
    in front, 20 are sold, for more; the last unit is worth less than one quote unit and
    stays unsold. *)
Definition of_buyer : list (op N) := [of_bid 30 1 1].
Definition of_buyers : list (op N) := of_buyer ++ [of_bid 20 2 2].
Example C92_sell_example :
  let m1 := after N.eqb ex_cfg of_buyer in let m2 := after N.eqb ex_cfg of_buyers in let p := of_sell 21 in
  (exists s1, accepted N.eqb ex_cfg m1 p s1 (of_next m1 p)) /\ (exists s2, accepted N.eqb ex_cfg m2 p s2 (of_next m2 p)) /\
  more_on_offer m1 m2 (opposite (p_side p)) /\ free_to_sell m2 p /\
  deals (emitted m1 (of_next m1 p)) = [(21, 2147483648)] /\ deals (emitted m2 (of_next m2 p)) = [(20, 2 * 2147483648)] /\
  sumN fill_base (emitted m1 (of_next m1 p)) = 21 /\ sumN fill_base (emitted m2 (of_next m2 p)) = 20.
Proof.
  intros m1 m2 p. split; [eexists; of_run|]. split; [eexists; of_run|]. split; [apply subset_more; by vm_compute|].
  split; [|split_and!; by vm_compute]. intros _. by vm_compute.
Qed.
Theorem C92_sell_amount_refuted : ~ forall (C : Type) (same_id : C -> C -> bool) c1 c2 m1 m2 p s1 s2 m1' m2',
  accepted same_id c1 m1 p s1 m1' -> accepted same_id c2 m2 p s2 m2' ->
  more_on_offer m1 m2 (opposite (p_side p)) -> p_side p = Ask -> post_only p = false -> free_to_sell m2 p ->
  N.of_nat (length (resting m2 Bid)) <= match_limit p ->
  sumN fill_base (emitted m1 m1') <= sumN fill_base (emitted m2 m2').
Proof.
  intros H. destruct C92_sell_example as ((s1&H1)&(s2&H2)&Hm&Hf&_&_&E1&E2).
  specialize (H N N.eqb _ _ _ _ _ _ _ _ _ H1 H2 Hm eq_refl eq_refl Hf ltac:(by vm_compute)). rewrite E1, E2 in H. lia.
Qed.

Print Assumptions C92_price.
Print Assumptions C92_quote.
Print Assumptions C92_amount.
Print Assumptions C92_exact_quote_refuted.
Print Assumptions C92_match_limit_refuted.
Print Assumptions C92_sell_amount_refuted.
