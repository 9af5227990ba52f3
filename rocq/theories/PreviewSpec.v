(** * PreviewSpec.v: the exchange that a client sees (used by C78)

    Everything here is computed from what the functions of the JavaScript client return:
    no account is decoded in any other way. *)
From Verif Require Import Machine Bytes Critbit EventQueue OrderBook Market Spec ExchangeSpec Layout Ledger JsClient JsLoad.

(** A resting order, from a leaf and its callback info; the time of its arrival is in the
    lower half of the key. *)
Definition seen_order (sd : side) (o : leaf * bytes) : xorder bytes :=
  let low := lf_key (fst o) mod 2 ^ 64 in
  mk_xorder (js_get_price (fst o)) (match sd with Bid => 2 ^ 64 - 1 - low | Ask => low end)
            (lf_qty (fst o)) (snd o).
(** A waiting event; side 0 is [Bid]. *)
Definition seen_notice (e : js_event) : notice bytes :=
  let sd b := if b =? 0 then Bid else Ask in
  match e with
  | JsFill taker quote maker base mk tk => Traded (sd taker) maker base quote mk tk
  | JsOut s id base _ cb => Removed (sd s) id base cb
  end.
(** [peekAt(i)], [peekAt(i + 1)], ..., [n] of them. *)
Fixpoint seen_events (q : js_queue) (i : N) (n : nat) : res (list js_event) :=
  match n with
  | O => Ok []
  | S n =>
      let? e := js_peek_at q i in
      let? es := seen_events q (i + 1) n in
      Ok (e :: es)
  end.

(** A client that looks at the market of account [k]: it retrieves the market, loads both
    slabs and the queue, and lists the bids (highest first), the asks (lowest first) and
    the waiting events.  It gets the market's parameters and an exchange. *)
Definition client_view (l : ledger) (k cs : N) : res (market_state * exchange bytes) :=
  let? jm := js_retrieve l k cs in
  let? jb := js_load_bids l jm in
  let? bids := js_items jb true in
  let? ja := js_load_asks l jm in
  let? asks := js_items ja false in
  let? jq := js_load_queue l (ms_event_queue (jm_state jm)) cs in
  let? count := js_number (jq_count (jq_header jq)) in
  let? events := seen_events jq 0 (N.to_nat count) in
  Ok (jm_state jm,
      mk_exchange (map (seen_order Bid) bids) (map (seen_order Ask) asks) (map seen_notice events)
                  (jq_seq (jq_header jq))).
