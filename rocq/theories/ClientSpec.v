(** * ClientSpec.v: vocabulary for events in the queue and for the JavaScript client *)
From Verif Require Import Machine Bytes Critbit EventQueue OrderBook Market Spec Layout JsClient.

(** The byte that stands for a side. *)
Definition side_byte (sd : side) : N := match sd with Bid => 0 | Ask => 1 end.
(** An event of the queue of a market with configuration [c] is sane: its tag byte is 0 for
    a fill and 1 for an Out, its side byte 0 for a bid and 1 for an ask, its
    padding is zero, it is about an order whose price is a positive multiple of the tick
    size, on the side that its id says; and a fill has a
    taker on the other side, positive sizes and the quote size of the maker's price. *)
Definition event_sane {C} (c : config C) (ev : event_ref C) : Prop :=
  0 < id_price (event_id ev) /\ (c_tick c | id_price (event_id ev)) /\
  match ev with
  | EvFill e _ _ => exists sd,
      e = mk_fill_event 0 (side_byte sd) 0 (quote_amount sd (fe_base e) (id_price (fe_maker_id e)))
            (fe_maker_id e) (fe_base e) /\
      side_of_id (fe_maker_id e) = opposite sd /\
      0 < fe_base e < p64 /\ 0 < fe_quote e < p64
  | EvOut e _ =>
      e = mk_out_event 1 (side_byte (side_of_id (oe_id e))) 0 (oe_id e) (oe_base e) /\
      oe_base e < p64
  end.

(** The client's view of an event. *)
Definition js_event_of (ev : event_ref bytes) : js_event :=
  match ev with
  | EvFill e mk tk => JsFill (fe_taker_side e) (fe_quote e) (fe_maker_id e) (fe_base e) mk tk
  | EvOut e cb => JsOut (oe_side e) (oe_id e) (oe_base e) false cb
  end.

(** Total quantity of the orders of [os] with price [p]. *)
Definition at_price {C} (os : list (order C)) (p : N) : N :=
  sumN o_qty (List.filter (fun o => id_price (o_id o) =? p) os).
