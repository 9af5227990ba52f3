(** * Spec.v: what an observer sees of a market (used to state the properties)

    Only the model's state types and its read functions ([traverse], [queue_iter])
    and the transaction function [exec] are used here. *)
From Verif Require Import Machine Critbit EventQueue OrderBook Market.

Section Spec.
Context {C : Type} (same_id : C -> C -> bool).

(** ** Orders *)
Definition order : Type := leaf * C.
Definition o_id (o : order) : N := lf_key (fst o).
Definition o_qty (o : order) : N := lf_qty (fst o).
Definition o_cb (o : order) : C := snd o.

(** An order id is [price * 2^64 + low], the price being a 32.32 fixed point
    number: quote units per base unit, times 2^32. *)
Definition id_price (id : N) : N := id / p64.

(** ** What can be read from a market *)
(** The orders of a side. *)
Definition resting (m : market C) (sd : side) : list order :=
  match traverse (tree (m_book m) sd) with Ok l => l | _ => [] end.
(** The events waiting in the queue, oldest first. *)
Definition pending (m : market C) : list (event_ref C) :=
  match queue_iter (evq (m_book m)) with Ok l => l | _ => [] end.
(** The events added to the queue between two states. *)
Definition emitted (m m' : market C) : list (event_ref C) :=
  drop (length (pending m)) (pending m').

(** ** Histories *)
(** One instruction of the history: the request, the answer, the events it produced. *)
Record entry := mk_entry {
  en_op : op C;
  en_res : res (option summary);
  en_events : list (event_ref C);
}.

(** [steps m0 log m]: starting from [m0], the instructions of [log] (oldest first,
    failed ones included) lead to [m]. *)
Inductive steps (m0 : market C) : list entry -> market C -> Prop :=
| steps_nil : steps m0 [] m0
| steps_snoc log m o r m' :
    steps m0 log m -> op_typed o -> exec same_id o m = (r, m') ->
    steps m0 (log ++ [mk_entry o r (emitted m m')]) m'.

(** [history c log m]: market [m] was created with configuration [c] and has then
    processed the instructions of [log]. *)
Definition history (c : config C) (log : list entry) (m : market C) : Prop :=
  steps (init_market c) log m.

(** Markets that occur: fewer than 2^63 instructions have been processed. *)
Definition reachable (c : config C) (m : market C) : Prop :=
  config_ok c /\ exists log, history c log m /\ N.of_nat (length log) < p63.

(** [accepted c m p sm m']: on the reachable market [m] the new order [p] succeeds
    with summary [sm] and leads to [m']. *)
Definition accepted (c : config C) (m : market C) (p : params C) (sm : summary)
    (m' : market C) : Prop :=
  reachable c m /\ op_typed (NewOrder p) /\ exec same_id (NewOrder p) m = (Ok (Some sm), m').

(** Number of orders a side can hold. *)
Definition capacity (c : config C) (sd : side) : nat :=
  match sd with Bid => c_bids c | Ask => c_asks c end.

(** The same new order with another self-trade behavior. *)
Definition with_stb (p : params C) (b : self_trade) : params C :=
  mk_params (max_base_qty p) (max_quote_qty p) (limit_price p) (p_side p) (match_limit p)
            (p_callback p) (post_only p) (post_allowed p) b.

(** Quantity of order [id] in a list of orders, 0 when absent. *)
Definition qty_in (os : list order) (id : N) : N :=
  match List.find (fun o => o_id o =? id) os with Some o => o_qty o | None => 0 end.

(** A sequence of successful cancellations, with their summaries. *)
Inductive cancels : market C -> list N -> list summary -> market C -> Prop :=
| cancels_nil m : cancels m [] [] m
| cancels_cons m id sm m1 ids sms m2 :
    exec same_id (CancelOrder id) m = (Ok (Some sm), m1) -> cancels m1 ids sms m2 ->
    cancels m (id :: ids) (sm :: sms) m2.

(** What cancelling order [id] returns: its quantity, and the quote amount rounded down. *)
Definition base_of (m : market C) (id : N) : N := qty_in (resting m (side_of_id id)) id.
Definition quote_of_id (m : market C) (id : N) : N := base_of m id * id_price id / p32.

(** ** Events *)
Definition event_id (ev : event_ref C) : N :=
  match ev with EvFill e _ _ => fe_maker_id e | EvOut e _ => oe_id e end.
Definition is_fill (ev : event_ref C) : bool :=
  match ev with EvFill _ _ _ => true | EvOut _ _ => false end.
(** Base and quote sizes of a fill, 0 for an out. *)
Definition fill_base (ev : event_ref C) : N :=
  match ev with EvFill e _ _ => fe_base e | EvOut _ _ => 0 end.
Definition fill_quote (ev : event_ref C) : N :=
  match ev with EvFill e _ _ => fe_quote e | EvOut _ _ => 0 end.
(** Base size of an out, 0 for a fill. *)
Definition out_base (ev : event_ref C) : N :=
  match ev with EvOut e _ => oe_base e | EvFill _ _ _ => 0 end.

Fixpoint sumN {A} (f : A -> N) (l : list A) : N :=
  match l with [] => 0 | x :: l => f x + sumN f l end.

(** Opposite orders matched or cancelled by a new order: its fills, and the outs of
    its own orders under CancelProvide. *)
Definition is_interaction (p : params C) (ev : event_ref C) : bool :=
  match ev with
  | EvFill _ _ _ => true
  | EvOut e cb =>
      match stb p with CancelProvide => true | _ => false end
      && same_id (p_callback p) cb && (oe_side e =? side_u8 (opposite (p_side p)))
  end.
Definition interactions (p : params C) (E : list (event_ref C)) : N :=
  N.of_nat (length (List.filter (is_interaction p) E)).

(** The events of [E] about order [id]. *)
Definition about (id : N) (E : list (event_ref C)) : list (event_ref C) :=
  List.filter (fun ev => event_id ev =? id) E.

(** Effect of an event on a set of orders: a fill takes its base size from the
    maker's order, an out deletes the order. *)
Definition apply_event (os : list order) (ev : event_ref C) : list order :=
  match ev with
  | EvFill e _ _ =>
      map (fun o => if o_id o =? fe_maker_id e
                    then (mk_leaf (o_id o) (o_qty o - fe_base e), o_cb o) else o) os
  | EvOut e _ => List.filter (fun o => negb (o_id o =? oe_id e)) os
  end.
Definition apply_events (os : list order) (E : list (event_ref C)) : list order :=
  fold_left apply_event E os.

(** ** What the log says about the book *)
(** The id posted by an instruction. *)
Definition posted_id (e : entry) : option N :=
  match en_res e with Ok (Some sm) => posted_order_id sm | _ => None end.
Definition posted_ids (log : list entry) : list N := omap posted_id log.
(** The order posted by an instruction. *)
Definition posted_order (e : entry) : list order :=
  match en_op e, en_res e with
  | NewOrder p, Ok (Some sm) =>
      match posted_order_id sm with
      | Some id => [(mk_leaf id (total_base_qty_posted sm), p_callback p)]
      | None => []
      end
  | _, _ => []
  end.
(** The ids cancelled by an instruction. *)
Definition cancelled_ids (e : entry) : list N :=
  match en_op e, en_res e with
  | CancelOrder id, Ok _ => [id]
  | MassCancelOrders ids, Ok _ => ids
  | _, _ => []
  end.
Definition delete_ids (ids : list N) (os : list order) : list order :=
  List.filter (fun o => negb (existsb (N.eqb (o_id o)) ids)) os.
(** Book reconstructed from the log alone: requests, answers and events. *)
Definition replay_entry (os : list order) (e : entry) : list order :=
  delete_ids (cancelled_ids e) (apply_events os (en_events e)) ++ posted_order e.
Definition replay (log : list entry) : list order := fold_left replay_entry log [].

(** All events of the log about order [id], oldest first. *)
Definition events_about (id : N) (log : list entry) : list (event_ref C) :=
  about id (flat_map en_events log).

(** ** Priority *)
(** [crossing taker limit price]: an order resting at [price] is acceptable for a
    taker on side [taker] with the given limit. *)
Definition crossing (taker : side) (limit price : N) : Prop :=
  match taker with Bid => price <= limit | Ask => limit <= price end.
(** A strictly better price on side [sd]: higher for bids, lower for asks. *)
Definition better_price (sd : side) (p1 p2 : N) : Prop :=
  match sd with Bid => p2 < p1 | Ask => p1 < p2 end.
(** The sequence number in an id (for bids it is stored complemented). *)
Definition id_seq (sd : side) (id : N) : N :=
  match sd with Bid => (p64 - 1) - id mod p64 | Ask => id mod p64 end.
(** Price-time priority between orders of side [sd]. *)
Definition ahead (sd : side) (id1 id2 : N) : Prop :=
  better_price sd (id_price id1) (id_price id2) \/
  (id_price id1 = id_price id2 /\ id_seq sd id1 < id_seq sd id2).

(** Quote amount of [base] units at [price]: rounded up when the taker (or the
    posted order) is a bid, down when it is an ask. *)
Definition quote_amount (sd : side) (base price : N) : N :=
  match sd with
  | Bid => (base * price + (p32 - 1)) / p32
  | Ask => base * price / p32
  end.

(** A fill of order [id], resting on side [sd] with callback info [cb]: the taker is on
    the other side and the quote size is the one of the order's own price. *)
Definition maker_fill (sd : side) (id : N) (cb : C) (ev : event_ref C) : Prop :=
  match ev with
  | EvFill e mk _ =>
      fe_maker_id e = id /\ mk = cb /\ fe_taker_side e = side_u8 (opposite sd) /\
      0 < fe_base e /\ fe_quote e = quote_amount (opposite sd) (fe_base e) (id_price id)
  | EvOut _ _ => False
  end.
(** The out of order [id] of side [sd], with [q] base units left. *)
Definition maker_out (sd : side) (id : N) (cb : C) (q : N) : event_ref C :=
  EvOut (mk_out_event tag_out (side_u8 sd) 0 id q) cb.

(** Order [id] rests on neither side. *)
Definition gone (m : market C) (id : N) : Prop := forall sd, id ∉ map o_id (resting m sd).
(** All ids cancelled in the log. *)
Definition cancelled (log : list entry) : list N := flat_map cancelled_ids log.
(** A fill between two parties with the same callback id. *)
Definition self_fill (ev : event_ref C) : bool :=
  match ev with EvFill _ mk tk => same_id tk mk | EvOut _ _ => false end.
(** [r] is the best resting price of side [sd], None for an empty side. *)
Definition best_price (m : market C) (sd : side) (r : option N) : Prop :=
  match r with
  | None => resting m sd = []
  | Some price => (exists o, o ∈ resting m sd /\ id_price (o_id o) = price) /\
      forall o, o ∈ resting m sd -> ~ better_price sd (id_price (o_id o)) price
  end.
End Spec.
Global Arguments order : clear implicits.
Global Arguments entry : clear implicits.
