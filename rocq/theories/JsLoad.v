(** * JsLoad.v: how the JavaScript client fetches a market

    Models market_state.ts [retrieve], [loadBidsSlab], [loadAsksSlab] and event_queue.ts
    [load]: an account is fetched from a node and its bytes are decoded by the functions
    of JsClient.v.  Each fetch sees the ledger as it is at that moment.

    Simplification: the commitment level only selects which ledger is seen; the answer of
    the node is the account of that ledger. *)
From Verif Require Import Machine Bytes Critbit EventQueue Layout Ledger JsClient.

(** web3.js [connection.getAccountInfo]: null for an account that does not exist (one
    without lamports). *)
Definition js_account_info (l : ledger) (k : N) : option bytes :=
  if a_lamports (l k) =? 0 then None else Some (a_data (l k)).

(** market_state.ts:29-37 [MarketState]: the decoded account (the tag apart) and the size
    of a callback info, which the caller of [retrieve] supplies. *)
Record js_market := mk_js_market { jm_tag : N; jm_state : market_state; jm_cs : N }.

(** market_state.ts:78-86 [deserialize], 94-106 [retrieve]; [throw] is a panic. *)
Definition js_retrieve (l : ledger) (market cs : N) : res js_market :=
  match js_account_info l market with
  | None => Panic PUnwrap
  | Some data =>
      let? x := js_market_deserialize data in Ok (mk_js_market (fst x) (snd x) cs)
  end.
(** market_state.ts:113-119 [loadBidsSlab] *)
Definition js_load_bids (l : ledger) (jm : js_market) : res js_slab :=
  match js_account_info l (ms_bids (jm_state jm)) with
  | None => Panic PUnwrap
  | Some data => js_slab_deserialize data (jm_cs jm)
  end.
(** market_state.ts:126-132 [loadAsksSlab] *)
Definition js_load_asks (l : ledger) (jm : js_market) : res js_slab :=
  match js_account_info l (ms_asks (jm_state jm)) with
  | None => Panic PUnwrap
  | Some data => js_slab_deserialize data (jm_cs jm)
  end.
(** event_queue.ts:190-200 [EventQueue.load] *)
Definition js_load_queue (l : ledger) (address cs : N) : res js_queue :=
  match js_account_info l address with
  | None => Panic PUnwrap
  | Some data => js_queue_parse cs data
  end.
