(** * CustodySpec.v: what the caller of the order book does with its answers
    (used to state C66 and C67)

    The order book holds no tokens.  Its caller does: it takes tokens from the owner of a
    new order, and pays out what the summaries and the consumed events say.  The
    definitions below are such a caller: they use only requests, answers, the events at
    the front of the queue and, for mass cancellations, the quantities readable from the
    book. *)
From Verif Require Import Machine Critbit EventQueue OrderBook Market Spec.

Section Custody.
Context {C : Type} (same_id : C -> C -> bool).

(** ** Reading the events *)
(** The events handled by an instruction: before consuming [n] events, the caller reads
    the first [n] of the queue. *)
Definition handled (m : market C) (o : op C) (r : res (option summary)) : list (event_ref C) :=
  match o, r with
  | ConsumeEvents n, Ok _ => take (N.to_nat n) (pending m)
  | _, _ => []
  end.
(** [delivery m0 log D m]: like [steps], with the events handled along the way, in the
    order in which they were handled. *)
Inductive delivery (m0 : market C) :
    list (entry C) -> list (event_ref C) -> market C -> Prop :=
| delivery_nil : delivery m0 [] [] m0
| delivery_snoc log D m o r m' :
    delivery m0 log D m -> op_typed o -> exec same_id o m = (r, m') ->
    delivery m0 (log ++ [mk_entry o r (emitted m m')]) (D ++ handled m o r) m'.

(** ** Paying *)
(** What handling an event pays.  A fill pays the maker: base units when the taker sold,
    quote units when the taker bought.  An out returns the order's tokens: base units for
    an ask, quote units for a bid (rounded down, as a cancellation does). *)
Definition base_payout (ev : event_ref C) : N :=
  match ev with
  | EvFill e _ _ => if fe_taker_side e =? side_u8 Ask then fe_base e else 0
  | EvOut e _ => if oe_side e =? side_u8 Ask then oe_base e else 0
  end.
Definition quote_payout (ev : event_ref C) : N :=
  match ev with
  | EvFill e _ _ => if fe_taker_side e =? side_u8 Bid then fe_quote e else 0
  | EvOut e _ => if oe_side e =? side_u8 Bid then oe_base e * id_price (oe_id e) / p32 else 0
  end.
(** Ids of one side in a list of ids. *)
Definition ids_on (sd : side) (ids : list N) : list N :=
  List.filter (fun id => side_u8 (side_of_id id) =? side_u8 sd) ids.
(** Quote units accounted for the posted part of an order. *)
Definition posted_quote (p : params C) (sm : summary) : N :=
  match posted_order_id sm with
  | Some _ => quote_amount (p_side p) (total_base_qty_posted sm) (limit_price p)
  | None => 0
  end.

Local Open Scope Z_scope.
(** Base tokens received (positive) or paid (negative) with an instruction.
    - A bid receives at once what it bought; an ask hands over what it sells and what it
      posts.
    - Cancelling asks returns their base units.
    - Consuming pays for the events handled. *)
Definition base_flow (m : market C) (o : op C) (r : res (option summary)) : Z :=
  match o, r with
  | NewOrder p, Ok (Some sm) =>
      match p_side p with
      | Bid => - (Z.of_N (total_base_qty sm) - Z.of_N (total_base_qty_posted sm))
      | Ask => Z.of_N (total_base_qty sm)
      end
  | CancelOrder id, Ok (Some sm) =>
      match side_of_id id with Bid => 0 | Ask => - Z.of_N (total_base_qty sm) end
  | MassCancelOrders ids, Ok (Some _) => - Z.of_N (sumN (base_of m) (ids_on Ask ids))
  | ConsumeEvents _, _ => - Z.of_N (sumN base_payout (handled m o r))
  | _, _ => 0
  end.
(** Quote tokens received or paid.
    - A bid hands over what it spends and what its posted part may cost; an ask receives
      at once what it sold for.
    - Cancelling bids returns the quote value of what was left of them. *)
Definition quote_flow (m : market C) (o : op C) (r : res (option summary)) : Z :=
  match o, r with
  | NewOrder p, Ok (Some sm) =>
      match p_side p with
      | Bid => Z.of_N (total_quote_qty sm)
      | Ask => - (Z.of_N (total_quote_qty sm) - Z.of_N (posted_quote p sm))
      end
  | CancelOrder id, Ok (Some sm) =>
      match side_of_id id with Bid => - Z.of_N (total_quote_qty sm) | Ask => 0 end
  | MassCancelOrders ids, Ok (Some _) => - Z.of_N (sumN (quote_of_id m) (ids_on Bid ids))
  | ConsumeEvents _, _ => - Z.of_N (sumN quote_payout (handled m o r))
  | _, _ => 0
  end.
(** [custody m0 log b q m]: like [steps], with the balances of a caller that starts with
    nothing: [b] base units and [q] quote units. *)
Inductive custody (m0 : market C) : list (entry C) -> Z -> Z -> market C -> Prop :=
| custody_nil : custody m0 [] 0 0 m0
| custody_snoc log b q m o r m' :
    custody m0 log b q m -> op_typed o -> exec same_id o m = (r, m') ->
    custody m0 (log ++ [mk_entry o r (emitted m m')])
      (b + base_flow m o r) (q + quote_flow m o r) m'.
Local Close Scope Z_scope.

(** ** Rounding *)
(** The amounts of an instruction that may have been rounded in the caller's favour: the
    posting of a bid, every fill or out of a bid, every cancelled bid. *)
Definition roundings (e : entry C) : N :=
  match en_op e, posted_id e with
  | NewOrder p, Some _ => match p_side p with Bid => 1 | Ask => 0 end
  | _, _ => 0
  end
  + N.of_nat (length (ids_on Bid (map event_id (en_events e))))
  + N.of_nat (length (ids_on Bid (cancelled_ids e))).
End Custody.
