(** * Market.v: the processors of program/src/processor/*.rs on typed accounts, and
    histories of instructions.

    The account checks, tags and byte layouts around these functions are modelled
    in Ledger.v; here a market is what its four accounts contain. *)
From Verif Require Import Machine Critbit EventQueue OrderBook.

Section Market.
Context {C : Type} (same_id : C -> C -> bool).

(** program/src/state/market_state.rs:17-28 [MarketState] (the parameters; the
    account keys are in Ledger.v) together with the contents of the other accounts. *)
Record market := mk_market {
  m_min : N;        (* min_base_order_size *)
  m_tick : N;       (* tick_size *)
  m_book : book C;
}.
Definition set_m_book (b : book C) (m : market) : market := mk_market (m_min m) (m_tick m) b.
Definition on_book {A} (f : M (book C) A) : M market A := zoom m_book set_m_book f.

(** processor/new_order.rs:132-155 (the part of [process] after the account checks). *)
Definition process_new_order (p : params C) : M market summary :=
  let! m := get in
  if m_tick m =? 0 then panic_with PDivZero
  else if negb (limit_price p mod m_tick m =? 0) then fail InvalidLimitPrice
  else if post_allowed p && (limit_price p <? m_tick m) then fail InvalidLimitPrice
  else on_book (new_order same_id p (m_min m)).

(** processor/cancel_order.rs:95-110. *)
Definition process_cancel_order (id : N) : M market summary :=
  let! r := on_book (on_tree (side_of_id id) (remove_by_key id)) in
  let! lc := lift (ok_or r OrderNotFound) in
  let l := fst lc in
  let! q := lift (ok_or (fp32_mul_floor (lf_qty l) (price_from_key (lf_key l)))
                        NumericalOverflow) in
  ret (mk_summary None (lf_qty l) q 0).

(** processor/mass_cancel_orders.rs:97-116.  The additions are [checked_add] followed
    by [unwrap]. *)
Definition checked_add (a b : N) : option N := to_u64 (a + b).
Fixpoint mass_cancel_loop (ids : list N) (tb tq : N) : M market (N * N) :=
  match ids with
  | [] => ret (tb, tq)
  | id :: ids =>
      let! r := on_book (on_tree (side_of_id id) (remove_by_key id)) in
      let! lc := lift (ok_or r OrderNotFound) in
      let l := fst lc in
      let! tb' := lift (unwrap (checked_add tb (lf_qty l))) in
      let! tq' := lift (unwrap
        (match fp32_mul_floor (lf_qty l) (price_from_key (lf_key l)) with
         | Some n => checked_add n tq
         | None => None
         end)) in
      mass_cancel_loop ids tb' tq'
  end.
Definition process_mass_cancel (ids : list N) : M market summary :=
  let! t := mass_cancel_loop ids 0 0 in
  ret (mk_summary None (fst t) (snd t) 0).

(** processor/consume_events.rs:81-95. *)
Definition process_consume_events (n : N) : M market unit :=
  on_book (on_evq (pop_n n)).

(** The instructions that act on a live market. *)
Inductive op :=
| NewOrder (p : params C)
| CancelOrder (id : N)
| MassCancelOrders (ids : list N)
| ConsumeEvents (n : N).

(** processor.rs:33-75 without account handling: the summary is returned for the
    first three, None for the last. *)
Definition process (o : op) : M market (option summary) :=
  match o with
  | NewOrder p => let! s := process_new_order p in ret (Some s)
  | CancelOrder id => let! s := process_cancel_order id in ret (Some s)
  | MassCancelOrders ids => let! s := process_mass_cancel ids in ret (Some s)
  | ConsumeEvents n => do! process_consume_events n in ret None
  end.

(** Execution of one instruction as a transaction: a failed instruction has no
    effect (Solana runtime rollback). *)
Definition exec (o : op) (m : market) : res (option summary) * market :=
  match process o m with
  | (Ok r, m') => (Ok r, m')
  | (r, _) => (r, m)
  end.

(** A history, and the state it leads to. *)
Fixpoint run (m : market) (ops : list op) : market :=
  match ops with
  | [] => m
  | o :: ops => run (snd (exec o m)) ops
  end.

(** Accounts as left by create_market (processor/create_market.rs:75-118) on zeroed
    accounts with room for [nb] bids, [na] asks and [ne] events; [xb] and [xa] spare
    callback slots may remain at the end of the slab accounts. *)
Record config := mk_config {
  c_min : N; c_tick : N; c_zero : C;
  c_bids : nat; c_asks : nat; c_events : nat; c_xbids : nat; c_xasks : nat;
}.
Definition init_market (c : config) : market :=
  mk_market (c_min c) (c_tick c)
    (mk_book (empty_slab (c_zero c) (c_bids c) (c_xbids c))
             (empty_slab (c_zero c) (c_asks c) (c_xasks c))
             (empty_queue (c_zero c) (c_events c))).

(** What create_market accepts (create_market.rs:88-93, event_queue.rs:214-227), and
    sizes any Solana account (10 MiB) satisfies by far. *)
Definition config_ok (c : config) : Prop :=
  0 < c_min c < p64 /\ 0 < c_tick c < p64 /\
  (1 <= c_bids c)%nat /\ N.of_nat (c_bids c) <= p31 /\
  (1 <= c_asks c)%nat /\ N.of_nat (c_asks c) <= p31 /\
  (5 <= c_events c)%nat /\ N.of_nat (c_events c) <= p31.

(** Instruction parameters have their Rust types (u64, u128). *)
Definition op_typed (o : op) : Prop :=
  match o with
  | NewOrder p =>
      max_base_qty p < p64 /\ max_quote_qty p < p64 /\ limit_price p < p64 /\
      match_limit p < p64
  | CancelOrder id => id < p128
  | MassCancelOrders ids => Forall (fun id => id < p128) ids
  | ConsumeEvents n => n < p64
  end.

End Market.
Global Arguments market : clear implicits.
Global Arguments op : clear implicits.
Global Arguments config : clear implicits.
