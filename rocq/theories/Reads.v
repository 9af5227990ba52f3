(** * Reads.v: further functions on accounts and parameters *)
From Verif Require Import Machine Bytes Critbit EventQueue OrderBook Market Layout Borsh Ledger.

(** utils.rs:39-51 [get_spread]: opens the two accounts ([borrow_mut] panics when they are
    the same) and asks the book; [new_safe(..).unwrap()] panics on a wrong tag. *)
Definition spread_of_accounts (cs : nat) (bids_key asks_key : N) : M ledger (option N * option N) :=
  let! bd := borrow [] bids_key in
  let! ad := borrow [bids_key] asks_key in
  let! bs := lift (unwrap_err (slab_from_buffer cs bd tag_bids)) in
  let! asl := lift (unwrap_err (slab_from_buffer cs ad tag_asks)) in
  lift (get_spread (mk_book bs asl (mk_queue 0 0 0 [] []))).

(** new_order.rs:58-70 [borsh_len] of the parameters: one term per field.  Integers have
    the length of their type, bool and fieldless enums one byte, a byte array its
    length (crate bonfida-utils, trait BorshSize). *)
Definition params_borsh_len (p : params bytes) : nat :=
  8 + 8 + 8 + 1 + 8 + length (p_callback p) + 1 + 1 + 1.
