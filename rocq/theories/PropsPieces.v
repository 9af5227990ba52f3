(** * PropsPieces.v: no order is too large for the event queue (C82) *)
From Verif Require Import Machine Critbit EventQueue OrderBook Market Spec ExchangeSpec ExchangeProofs SplitSpec
  PiecesSpec PiecesProofs ExampleRuns.
From Coq Require Import ZifyBool ZifyNat ZifyN.

(** Suppose an exchange with the rules of the market, the same orders and clock, and room
    for any number of notices would accept the order.  Then the market, however small its
    event queue, takes it in pieces: with match limits [ks] that add up to that of the
    order, each small enough for an empty queue, no piece is refused; the pieces together
    exchange and post the same amounts, under the same id; and they leave the same orders,
    the same clock and, one after the other, the same events. *)
Theorem C82_pieces : forall (C : Type) (same_id : C -> C -> bool) c log m p ks room id b q posted x',
  config_ok c -> history same_id c log m -> N.of_nat (length log) + 2 * N.of_nat (length ks) < p63 ->
  max_base_qty p < p64 -> max_quote_qty p < p64 -> limit_price p < p64 ->
  Forall (fun k => 2 * k + 1 <= N.of_nat (c_events c)) ks ->
  new_order_rule same_id (with_room room (rules_of c)) (with_limit p (sum ks)) (view m) = (Accepted id b q posted, x') ->
  exists events m',
  send same_id ks p m = (Some (mk_outcome events b q id posted), m') /\
  x_notices x' = x_notices (view m) ++ map notice_of events /\
  x_bids (view m') = x_bids x' /\ x_asks (view m') = x_asks x' /\ x_clock (view m') = x_clock x'.
Proof.
  intros C same_id c log m p ks room id b q posted x' Hc Hh Hlen T1 T2 T3 Hks. rewrite rule_effect.
  change (price_bad (with_room room (rules_of c)) (with_limit p (sum ks))) with (price_bad (rules_of c) p).
  change (effect same_id (with_room room (rules_of c)) (with_limit p (sum ks))) with (effect same_id (rules_of c) p).
  cbn [with_limit match_limit max_base_qty max_quote_qty p_side limit_price].
  destruct (price_bad _ p) eqn:Hbad; [done|].
  destruct (effect _ _ _ _ _ _ _ _ _) as [[[[[[[ns po] b1] q1] ms] own] cl]|] eqn:Ef; [|by destruct (_ <=? _)%nat].
  destruct (_ <=? _)%nat; [|done]. intros H.
  injection H as <- <- <- <- <-.
  destruct (send_ok same_id c Hc ks log m p ns po b1 q1 ms own cl) as (evs&m'&E&H1&H2&H3&H4); try done.
  exists evs, m'. split; [done|]. rewrite H1. split; [by destruct (p_side p)|].
  revert H2 H3 H4. destruct (p_side p); cbn; intros; by split_and!.
Qed.

(** With enough room for notices the exchange refuses an order only for its price or for a
    trade with its owner; and two orders at a time always fit the queue. *)
Theorem C82_room : forall (C : Type) (same_id : C -> C -> bool) (c : config C) p x, config_ok c ->
  2 * 2 + 1 <= N.of_nat (c_events c) /\
  exists room, forall room', (room <= room')%nat ->
  match fst (new_order_rule same_id (with_room room' (rules_of c)) p x) with
  | Accepted _ _ _ _ => True
  | BadPrice => limit_price p mod c_tick c <> 0 \/ post_allowed p = true /\ limit_price p < c_tick c
  | SelfTrade => stb p = AbortTransaction
  | _ => False
  end.
Proof.
  intros C same_id c p x Hc. split; [destruct Hc as (_&_&_&_&_&_&?&_); lia|].
  set (r := rules_of c).
  exists (length (x_notices x) + match effect same_id r p (N.to_nat (match_limit p)) (max_base_qty p) (max_quote_qty p) (x_side x (p_side p)) (x_side x (opposite (p_side p))) (x_clock x) with
    | Some (ns, _, _, _, _, _, _) => length ns
    | None => length (fst (trade same_id r p (N.to_nat (match_limit p)) (max_base_qty p) (max_quote_qty p) (x_side x (opposite (p_side p))))) end)%nat.
  intros room' Hroom. rewrite rule_effect.
  change (price_bad (with_room room' r) p) with (price_bad r p).
  change (effect same_id (with_room room' r) p) with (effect same_id r p).
  change (trade same_id (with_room room' r) p) with (trade same_id r p).
  cbn [with_room r_room]. destruct (price_bad r p) eqn:Hbad.
  { cbn [fst]. unfold price_bad in Hbad. apply orb_prop in Hbad as [H|H].
    - left. apply negb_true_iff, N.eqb_neq in H. exact H.
    - right. apply andb_prop in H as [? H]. split; [done|]. by apply N.ltb_lt in H. }
  destruct (effect same_id r p _ _ _ _ _ _) as [[[[[[[ns po] b1] q1] ms] own] cl]|] eqn:Ef.
  { destruct (Nat.leb_spec (length (x_notices x) + length ns) room'); [done|lia]. }
  destruct (Nat.leb_spec (length (x_notices x) + length (fst (trade same_id r p (N.to_nat (match_limit p)) (max_base_qty p) (max_quote_qty p) (x_side x (opposite (p_side p)))))) room'); [|lia].
  cbn [fst]. unfold effect in Ef.
  destruct (trade same_id r p _ _ _ _) as [n1 [[[[? ?] ?] free]|]] eqn:Et.
  { destruct (if free then _ else _) as [[[? ?] ?] ?]; done. }
  clear -Et. revert Et. generalize (max_base_qty p) (max_quote_qty p) (x_side x (opposite (p_side p))) n1.
  induction (N.to_nat (match_limit p)) as [|n IH]; intros b q ms ns; [done|]. destruct ms as [|o os]; [done|].
  cbn [trade]. destruct (negb _); [done|]. destruct (_ || _ || _); [done|].
  destruct (stb p) eqn:Es; destruct (own_order same_id p o); try done; try (destruct (_ <? _));
  match goal with |- (_, snd ?t) = _ -> _ => destruct t as [ns' rr] eqn:Et end; cbn [snd]; intros [= _ ->]; by eapply IH.
Qed.

(** ** A market with the smallest event queue *)
Definition pc_cfg : config N := mk_config 10 2147483648 0 2 6 5 0 0.
(** Six asks of 10 at rising prices; a bid for 80 that may deal with seven orders. *)
Definition pc_ops : list (op N) :=
  map (fun i => ex_new Ask 10 100000 (4 + i) 10 i false true DecrementTake) [1; 2; 3; 4; 5; 6].
Definition pc_bid : params N := mk_params 80 100000 (12 * 2147483648) Bid 7 9 false true DecrementTake.
Definition pc_m : market N := Eval vm_compute in after N.eqb pc_cfg pc_ops.
(** The market refuses it in one piece: it would cause twelve events.  In pieces of two,
    one, two and two orders it buys 60 for 225, and a bid for 20 joins the book.  *)
Example C82_example :
  config_ok pc_cfg /\ history N.eqb pc_cfg (log_of N.eqb pc_cfg pc_ops) pc_m /\
  Forall (fun k => 2 * k + 1 <= N.of_nat (c_events pc_cfg)) [2; 1; 2; 2] /\ sum [2; 1; 2; 2] = match_limit pc_bid /\
  fst (exec N.eqb (NewOrder pc_bid) pc_m) = Err EventQueueFull /\
  (exists id x', new_order_rule N.eqb (with_room 12 (rules_of pc_cfg)) pc_bid (view pc_m) = (Accepted (Some id) 80 345 20, x') /\
   match send N.eqb [2; 1; 2; 2] pc_bid pc_m with
   | (Some o, m') => (length (oc_events o), oc_base o, oc_quote o, oc_posted o, oc_posted_base o) = (12%nat, 80, 345, Some id, 20) /\
       x_notices x' = map notice_of (oc_events o) /\ x_bids (view m') = x_bids x' /\ length (x_bids (view m')) = 1%nat /\ x_asks (view m') = []
   | _ => False
   end) /\
  fst (exec N.eqb (NewOrder (with_limit pc_bid 3)) pc_m) = Err EventQueueFull.
Proof.
  split; [repeat split; (by vm_compute) || (cbn; lia)|].
  split. { change pc_m with (after N.eqb pc_cfg pc_ops). by apply after_history. }
  split; [repeat constructor; cbn; lia|]. split; [done|]. split; [by vm_compute|].
  split; [|by vm_compute]. eexists _, _. split; [by vm_compute|]. by vm_compute.
Qed.

Print Assumptions C82_pieces.
Print Assumptions C82_room.
