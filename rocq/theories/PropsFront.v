(** * PropsFront.v: a better place or price never costs a resting order trades (C97) *)
From Verif Require Import Machine Critbit EventQueue OrderBook Market Spec PartsSpec BestSpec LadderSpec OfferSpec FrontSpec
  FrontProofs StayProofs ExampleRuns PropsMarket PropsOrder PropsBest PropsOffer.
From Coq Require Import ZifyBool ZifyNat ZifyN.

(** The same order [p] comes to two markets.  In the first it meets [o1] after [before1], in
    the second [o2] after [before2], where [o2] is at least as attractive as [o1] and has
    only some of the orders in front that [o1] has.  Then [o2] trades at least as much.
    (What comes behind [o1] and [o2], and the other sides, may be anything.) *)
Theorem C97_better_place : forall (C : Type) (same_id : C -> C -> bool) c1 c2 m1 m2 p s1 s2 m1' m2' before1 o1 after1 before2 o2 after2,
  accepted same_id c1 m1 p s1 m1' -> accepted same_id c2 m2 p s2 m2' -> free_to_sell m1 p -> free_to_sell m2 p ->
  facing m1 (p_side p) = before1 ++ o1 :: after1 -> facing m2 (p_side p) = before2 ++ o2 :: after2 ->
  sublist (map seen before2) (map seen before1) -> as_attractive (p_side p) o1 o2 ->
  sumN fill_base (about (o_id o1) (emitted m1 m1')) <= sumN fill_base (about (o_id o2) (emitted m2 m2')).
Proof. exact @better_place. Qed.

(** Staying is never worse than cancelling and posting again: the owner of [o] cancels it and
    posts [q], no larger and at no better price; whatever order [p] comes next, the new order
    [id] trades no more with it than [o] would have. *)
Theorem C97_staying : forall (C : Type) (same_id : C -> C -> bool) c log m p before o after r1 m1 q sq id m2 s m' s2 m2',
  config_ok c -> history same_id c log m -> N.of_nat (length log) + 2 < p63 ->
  facing m (p_side p) = before ++ o :: after ->
  exec same_id (CancelOrder (o_id o)) m = (Ok r1, m1) ->
  op_typed (NewOrder q) -> exec same_id (NewOrder q) m1 = (Ok (Some sq), m2) -> p_side q = opposite (p_side p) ->
  posted_order_id sq = Some id -> p_callback q = o_cb o -> total_base_qty_posted sq <= o_qty o ->
  ~ better_price (p_side q) (limit_price q) (id_price (o_id o)) ->
  op_typed (NewOrder p) -> exec same_id (NewOrder p) m = (Ok (Some s), m') -> exec same_id (NewOrder p) m2 = (Ok (Some s2), m2') ->
  free_to_sell m p -> free_to_sell m2 p ->
  sumN fill_base (about id (emitted m2 m2')) <= sumN fill_base (about (o_id o) (emitted m m')).
Proof. exact @staying. Qed.

(** ** Concrete cases
    A better price: sellers of 20 at 1 and 20 at 1; owner 5 sells 20 at 1.5 or at 0.5.  Of 50
    units the offer gets 10 or 20. *)
Definition fr_run (l : list (op N)) : market N := after N.eqb ex_cfg l.
Definition fr_dear : market N := fr_run [of_ask 20 2 1; of_ask 20 2 2; of_ask 20 3 5].
Definition fr_cheap : market N := fr_run [of_ask 20 2 1; of_ask 20 2 2; of_ask 20 1 5].
Definition met (m : market N) (sd : side) (i : nat) : order N := nth i (facing m sd) (mk_leaf 0 0, 0).
Definition got (m : market N) (p : params N) (o : order N) : N := sumN fill_base (about (o_id o) (emitted m (of_next m p))).
Example C97_price_example :
  let p := of_buy 50 10 in
  (exists s1, accepted N.eqb ex_cfg fr_dear p s1 (of_next fr_dear p)) /\ (exists s2, accepted N.eqb ex_cfg fr_cheap p s2 (of_next fr_cheap p)) /\
  free_to_sell fr_dear p /\ free_to_sell fr_cheap p /\
  exists before1 o1 after1 before2 o2 after2,
    facing fr_dear (p_side p) = before1 ++ o1 :: after1 /\ facing fr_cheap (p_side p) = before2 ++ o2 :: after2 /\
    sublist (map seen before2) (map seen before1) /\ as_attractive (p_side p) o1 o2 /\
    length before1 = 2%nat /\ got fr_dear p o1 = 10 /\ got fr_cheap p o2 = 20.
Proof.
  intros p. split; [eexists; of_run|]. split; [eexists; of_run|]. split; [intros E; discriminate E|]. split; [intros E; discriminate E|].
  exists (take 2 (facing fr_dear Bid)), (met fr_dear Bid 2), [], [], (met fr_cheap Bid 0), (drop 1 (facing fr_cheap Bid)).
  split; [by vm_compute|]. split; [by vm_compute|]. split; [apply sublist_nil_l|]. unfold as_attractive. split_and!; by vm_compute.
Qed.
(** An earlier arrival: owners 1 and 5 both sell 20 at 1.  Of 30 units owner 5 gets 10 when
    second and 20 when first. *)
Definition fr_second : market N := fr_run [of_ask 20 2 1; of_ask 20 2 5].
Definition fr_first : market N := fr_run [of_ask 20 2 5; of_ask 20 2 1].
Example C97_time_example :
  let p := of_buy 30 10 in
  (exists s1, accepted N.eqb ex_cfg fr_second p s1 (of_next fr_second p)) /\ (exists s2, accepted N.eqb ex_cfg fr_first p s2 (of_next fr_first p)) /\
  exists before1 o1 after1 o2 after2,
    facing fr_second (p_side p) = before1 ++ o1 :: after1 /\ facing fr_first (p_side p) = [] ++ o2 :: after2 /\
    map seen before1 = map seen after2 /\ as_attractive (p_side p) o1 o2 /\
    got fr_second p o1 = 10 /\ got fr_first p o2 = 20.
Proof.
  intros p. split; [eexists; of_run|]. split; [eexists; of_run|].
  exists (take 1 (facing fr_second Bid)), (met fr_second Bid 1), [], (met fr_first Bid 0), (drop 1 (facing fr_first Bid)).
  unfold as_attractive. split_and!; by vm_compute.
Qed.
(** Owner 5, who was first, cancels and posts the same again: of 30 units the new order gets
    10, the old one would have got 20. *)
Definition fr_again : params N := mk_params 20 1000 (2 * 2147483648) Ask 10 5 false true DecrementTake.
Definition fr_cancelled : market N := snd (exec N.eqb (CancelOrder (o_id (met fr_first Bid 0))) fr_first).
Example C97_staying_example :
  let p := of_buy 30 10 in let o := met fr_first Bid 0 in let m2 := of_next fr_cancelled fr_again in
  history N.eqb ex_cfg (log_of N.eqb ex_cfg [of_ask 20 2 5; of_ask 20 2 1]) fr_first /\
  facing fr_first (p_side p) = [] ++ o :: drop 1 (facing fr_first Bid) /\
  (exists r1, fst (exec N.eqb (CancelOrder (o_id o)) fr_first) = Ok r1) /\
  (exists sq id, fst (exec N.eqb (NewOrder fr_again) fr_cancelled) = Ok (Some sq) /\ posted_order_id sq = Some id /\
     p_callback fr_again = o_cb o /\ total_base_qty_posted sq <= o_qty o /\
     ~ better_price (p_side fr_again) (limit_price fr_again) (id_price (o_id o)) /\
     sumN fill_base (about id (emitted m2 (of_next m2 p))) = 10) /\
  sumN fill_base (about (o_id o) (emitted fr_first (of_next fr_first p))) = 20.
Proof.
  intros p o m2. split; [apply after_history; by vm_compute|]. split; [by vm_compute|]. split; [eexists; vm_compute; reflexivity|].
  split; [|by vm_compute]. eexists _, _. split; [vm_compute; reflexivity|]. split; [reflexivity|]. split; [by vm_compute|].
  split; [by vm_compute|]. split; [|by vm_compute]. intros H. vm_compute in H. discriminate H.
Qed.
(** A seller who wants no more than 20 quote units sells 40 at 0.5 or 20 at 1: the better bid
    gets less. *)
Definition fr_low : market N := fr_run [of_bid 40 1 5].
Definition fr_high : market N := fr_run [of_bid 40 2 5].
Definition fr_limited : params N := mk_params 40 20 2147483648 Ask 10 3 false false DecrementTake.
Example C97_limited_example :
  (exists s1, accepted N.eqb ex_cfg fr_low fr_limited s1 (of_next fr_low fr_limited)) /\
  (exists s2, accepted N.eqb ex_cfg fr_high fr_limited s2 (of_next fr_high fr_limited)) /\
  exists o1 o2, facing fr_low Ask = [] ++ o1 :: [] /\ facing fr_high Ask = [] ++ o2 :: [] /\ as_attractive Ask o1 o2 /\
    got fr_low fr_limited o1 = 40 /\ got fr_high fr_limited o2 = 20.
Proof.
  split; [eexists; of_run|]. split; [eexists; of_run|].
  exists (met fr_low Ask 0), (met fr_high Ask 0). unfold as_attractive. split_and!; by vm_compute.
Qed.
Theorem C97_limited_sell_refuted : ~ forall (C : Type) (same_id : C -> C -> bool) c1 c2 m1 m2 p s1 s2 m1' m2' before1 o1 after1 before2 o2 after2,
  accepted same_id c1 m1 p s1 m1' -> accepted same_id c2 m2 p s2 m2' ->
  facing m1 (p_side p) = before1 ++ o1 :: after1 -> facing m2 (p_side p) = before2 ++ o2 :: after2 ->
  sublist (map seen before2) (map seen before1) -> as_attractive (p_side p) o1 o2 ->
  sumN fill_base (about (o_id o1) (emitted m1 m1')) <= sumN fill_base (about (o_id o2) (emitted m2 m2')).
Proof.
  intros H. destruct C97_limited_example as ((s1&H1)&(s2&H2)&o1&o2&F1&F2&Ha&G1&G2).
  specialize (H N N.eqb _ _ _ _ _ _ _ _ _ _ _ _ _ _ _ H1 H2 F1 F2 (sublist_nil_l _) Ha). unfold got in G1, G2. rewrite G1, G2 in H. lia.
Qed.

Print Assumptions C97_better_place.
Print Assumptions C97_limited_sell_refuted.
Print Assumptions C97_staying.
