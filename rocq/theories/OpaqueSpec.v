(** * OpaqueSpec.v: replacing callback infos everywhere (vocabulary of C60) *)
From Verif Require Import Machine Critbit EventQueue OrderBook Market Spec.

Section OpaqueSpec.
Context {C D : Type} (f : C -> D).

(** The same slab, queue, market, with [f] applied to every callback info. *)
Definition slab_with (s : slab C) : slab D :=
  mk_slab (hdr s) (leaf_nodes s) (inner_nodes s) (map f (callback_infos s)).
Definition queue_with (q : queue C) : queue D :=
  mk_queue (q_head q) (q_count q) (q_seq q) (q_events q) (map f (q_cbs q)).
Definition book_with (b : book C) : book D :=
  mk_book (slab_with (bids b)) (slab_with (asks b)) (queue_with (evq b)).
Definition market_with (m : market C) : market D := mk_market (m_min m) (m_tick m) (book_with (m_book m)).
Definition config_with (c : config C) : config D :=
  mk_config (c_min c) (c_tick c) (f (c_zero c)) (c_bids c) (c_asks c) (c_events c) (c_xbids c) (c_xasks c).
(** The same request. *)
Definition params_with (p : params C) : params D :=
  mk_params (max_base_qty p) (max_quote_qty p) (limit_price p) (p_side p) (match_limit p)
            (f (p_callback p)) (post_only p) (post_allowed p) (stb p).
Definition op_with (o : op C) : op D :=
  match o with
  | NewOrder p => NewOrder (params_with p)
  | CancelOrder id => CancelOrder id
  | MassCancelOrders ids => MassCancelOrders ids
  | ConsumeEvents n => ConsumeEvents n
  end.
(** The same order, event, log entry. *)
Definition order_with (o : order C) : order D := (fst o, f (snd o)).
Definition event_with (e : event_ref C) : event_ref D :=
  match e with EvFill e mk tk => EvFill e (f mk) (f tk) | EvOut e cb => EvOut e (f cb) end.
Definition entry_with (e : entry C) : entry D :=
  mk_entry (op_with (en_op e)) (en_res e) (map event_with (en_events e)).
End OpaqueSpec.
