(** * RepoTests.v: the tests of /repo, replayed on the model

    Not proofs of anything general: these runs compare the model with what the authors of
    the program observe in their own tests.  Each [Example] transcribes one test, assertion
    by assertion.  The two randomized tests of critbit.rs (720-948) compare the slab with a
    map: C01, C02, C07 and C58 prove what they sample.  program/tests/deep_ob.rs and
    js/src/tests do not compile against the pinned sources (they use an older API). *)
From Verif Require Import Machine Bytes Critbit EventQueue OrderBook Market Spec Layout Borsh Ledger LedgerSpec.

Definition t_same (x y : bytes) : bool := bool_decide (x = y).
Definition t_user (x : N) : bytes := replicate 32 x.
Definition t_zeros (n : nat) : bytes := replicate n 0.
Definition alice : bytes := t_user 1.
Definition bob : bytes := t_user 2.

(** ** program/src/state/orderbook.rs:360-1046 *)

(** Lines 374-402 [TestContext]: fresh buffers, initialized and opened. *)
Definition t_context (orders events : nat) : res (book bytes) :=
  let? len := slab_allocation_size 32 orders in
  let? ab := slab_initialize (t_zeros len) (t_zeros len) in
  let? b := slab_from_buffer 32 (snd ab) tag_bids in
  let? a := slab_from_buffer 32 (fst ab) tag_asks in
  let? q := queue_from_buffer 32 (t_zeros (queue_allocation_size 32 events)) tag_uninitialized in
  Ok (mk_book b a (fst q)).

(** A test is a list of calls, each with the assertions that follow it. *)
Definition t_order (base quote price : N) (sd : side) (limit : N) (who : bytes) (allowed : bool)
    (behavior : self_trade) (min : N) : M (book bytes) summary :=
  new_order t_same (mk_params base quote price sd limit who false allowed behavior) min.
Definition t_sum (s : summary) : bool * N * N * N :=
  (match posted_order_id s with Some _ => true | None => false end,
   total_base_qty s, total_quote_qty s, total_base_qty_posted s).
Definition t_count (b : book bytes) : N := q_count (evq b).
Definition t_pop (n : N) : M (book bytes) unit := on_evq (pop_n n).
Definition t_id (s : summary) : N := default 0 (posted_order_id s).
Definition t_read {A} (f : book bytes -> A) : M (book bytes) A := fun b => (Ok (f b), b).
(** [unwrap_err] *)
Definition t_err {A} (m : M (book bytes) A) : M (book bytes) (option error) :=
  fun b => match m b with (Err e, b') => (Ok (Some e), b') | (_, b') => (Ok None, b') end.
(** The result of a test in a fresh context. *)
Definition t_run {A} (orders events : nat) (m : M (book bytes) A) : res A :=
  let? b := t_context orders events in fst (m b).
(** [10 << 32] *)
Definition usd (x : N) : N := N.shiftl x 32.

(** Lines 404-693 [test_ob_0] *)
Definition test_ob_0 : M (book bytes) _ :=
  let! _ := t_order 10 10 (usd 10) Ask 0 (t_user 0) false DecrementTake 10 in
  let! c1 := t_read t_count in
  let! s1 := t_order 2000000 10000000 (usd 10) Bid 10 alice true DecrementTake 10 in
  let! s2 := t_order 3000000 1000000000 (usd 20) Ask 10 bob true DecrementTake 10 in
  let! s3 := t_order 500000 1000000000 (usd 15) Bid 10 bob true DecrementTake 10 in
  let! sp1 := t_read get_spread in
  let! s4 := t_order 750000 1000000000 (usd 14) Ask 10 alice true DecrementTake 10 in
  let! sp2 := t_read get_spread in
  let! c2 := t_read t_count in
  let! e1 := t_read (fun b => queue_iter (evq b)) in
  do! t_pop 2 in
  let! c3 := t_read t_count in
  let! r := t_err (t_order 50000 1000000000 (usd 15) Bid 10 alice true AbortTransaction 10) in
  let! c4 := t_read t_count in
  let! s5 := t_order 50000 1000000000 (usd 15) Bid 10 alice true CancelProvide 10 in
  let! c5 := t_read t_count in
  let! e2 := t_read (fun b => queue_iter (evq b)) in
  do! t_pop 1 in
  let! _ := t_order 1 10 1 Ask 10 (t_user 0) false DecrementTake 10 in
  let! c6 := t_read t_count in
  ret (c1, map t_sum [s1; s2; s3; s4; s5], [sp1; sp2], (c2, e1), (c3, r, c4), (c5, e2), c6, (t_id s3, t_id s4)).
Example test_ob_0_passes : exists bob_order_id_0 alice_order_id_0,
  t_run 1000 1000 test_ob_0 =
    Ok (0,
         [(true, 1000000, 10000000, 1000000); (true, 3000000, 60000000, 3000000); (true, 500000, 7500000, 500000);
          (true, 750000, 500000 * 15 + 250000 * 14, 250000); (true, 50000, 50000 * 15, 50000)],
         [Ok (Some (usd 15), Some (usd 20)); Ok (Some (usd 10), Some (usd 14))],
         (2, Ok [EvFill (mk_fill_event tag_fill (side_u8 Ask) 0 (500000 * 15) bob_order_id_0 500000) bob alice;
                 EvOut (mk_out_event tag_out (side_u8 Bid) 0 bob_order_id_0 0) bob]),
         (0, Some WouldSelfTrade, 0),
         (1, Ok [EvOut (mk_out_event tag_out (side_u8 Ask) 0 alice_order_id_0 250000) alice]),
         0, (bob_order_id_0, alice_order_id_0)).
Proof. do 2 eexists. vm_compute. reflexivity. Qed.

(** Lines 695-840 [test_ob_booting_ask] and 900-1046 [test_ob_booting_bid] *)
Definition test_ob_booting (sd : side) (p1 p2 p3 p4 : N) : M (book bytes) _ :=
  let! s1 := t_order 3000000 1000000000 (usd p1) sd 10 alice true DecrementTake 10 in
  let! c1 := t_read t_count in
  let! s2 := t_order 6000000 1000000000 (usd p2) sd 10 alice true DecrementTake 10 in
  let! c2 := t_read t_count in
  let! s3 := t_order 1000000 1000000000 (usd p3) sd 10 alice true DecrementTake 10 in
  let! c3 := t_read t_count in
  let! e := t_read (fun b => queue_iter (evq b)) in
  do! t_pop 1 in
  let! s4 := t_order 1000000 1000000000 (usd p4) sd 10 alice true DecrementTake 10 in
  let! c4 := t_read t_count in
  ret (map t_sum [s1; s2; s3; s4], [c1; c2; c3; c4], e, t_id s2).
Example test_ob_booting_ask_passes : exists order_id_to_be_booted,
  t_run 2 1000 (test_ob_booting Ask 20 40 10 50) =
    Ok ([(true, 3000000, 60000000, 3000000); (true, 6000000, 240000000, 6000000);
          (true, 1000000, 10000000, 1000000); (false, 0, 0, 0)], [0; 0; 1; 0],
         Ok [EvOut (mk_out_event tag_out (side_u8 Ask) 0 order_id_to_be_booted 6000000) alice],
         order_id_to_be_booted).
Proof. eexists. vm_compute. reflexivity. Qed.
Example test_ob_booting_bid_passes : exists order_id_to_be_booted,
  t_run 2 1000 (test_ob_booting Bid 20 10 40 5) =
    Ok ([(true, 3000000, 60000000, 3000000); (true, 6000000, 60000000, 6000000);
          (true, 1000000, 40000000, 1000000); (false, 0, 0, 0)], [0; 0; 1; 0],
         Ok [EvOut (mk_out_event tag_out (side_u8 Bid) 0 order_id_to_be_booted 6000000) alice],
         order_id_to_be_booted).
Proof. eexists. vm_compute. reflexivity. Qed.

(** Lines 842-898 [test_ob_small_prices] *)
Definition test_ob_small_prices : M (book bytes) _ :=
  let! s1 := t_order 2000000 10000000 (2 ^ 30) Bid 10 alice true DecrementTake 10 in
  let! c1 := t_read t_count in
  let! _ := t_order 3 1000000 (2 ^ 28) Ask 10 (t_user 0) false DecrementTake 10 in
  let! c2 := t_read t_count in
  ret (t_sum s1, c1, c2).
Example test_ob_small_prices_passes :
  t_run 2 1000 test_ob_small_prices = Ok ((true, 2000000, 500000, 2000000), 0, 0).
Proof. vm_compute. reflexivity. Qed.

(** ** program/src/state/event_queue.rs:325-474 [test_event_queue_0] *)
(** The events of the test: [seq_gen] counts up by five for a fill, by three for an out. *)
Fixpoint t_events (n : nat) (i seq : N) : list (event_ref bytes) :=
  match n with
  | O => []
  | S n =>
      if negb (i mod 7 =? 3)
      then EvFill (mk_fill_event tag_fill (side_u8 Ask) 0 seq (seq + 1) (seq + 2))
             (t_user ((seq + 3) mod 256)) (t_user ((seq + 4) mod 256)) :: t_events n (i + 1) (seq + 5)
      else EvOut (mk_out_event tag_out (side_u8 Ask) 0 (seq + 1) seq) (t_user ((seq + 2) mod 256)) ::
             t_events n (i + 1) (seq + 3)
  end.
Fixpoint t_push (evs : list (event_ref bytes)) : M (queue bytes) unit :=
  match evs with
  | [] => ret tt
  | EvFill e mk tk :: evs => do! push_back (fill_to_generic e) (Some mk) (Some tk) in t_push evs
  | EvOut e cb :: evs => do! push_back (out_to_generic e) (Some cb) None in t_push evs
  end.
Definition t_extra : fill_event := mk_fill_event tag_fill (side_u8 Ask) 0 472 473 474.
Example test_event_queue_0_passes :
  let buffer := t_zeros (queue_allocation_size 32 100) in
  is_ok (queue_from_buffer 32 buffer tag_event_queue) = false /\
  is_ok (queue_check_size 32 (t_zeros 10)) = false /\ is_ok (queue_check_size 32 (t_zeros 1000)) = false /\
  (let? qb := queue_from_buffer 32 buffer tag_uninitialized in
   let '(r, q) := t_push (t_events 100 0 0) (fst qb) in
   let? _ := r in
   Ok (is_ok (fst (push_back (fill_to_generic t_extra) None None q)), peek_at q 100, queue_iter q,
       map (fun i => peek_at q (N.of_nat i)) (seq 0 100))) =
    Ok (false, Ok None, Ok (t_events 100 0 0), map (fun e => Ok (Some e)) (t_events 100 0 0)) /\
  length (t_events 100 0 0) = 100%nat.
Proof. by vm_compute. Qed.

(** ** program/src/state/market_state.rs:59-65 [market_cast] *)
(** The test asserts an error, and that the error is [InvalidAccountData].  It is an error,
    but since [from_buffer] returns [AccountTagMismatch] the second assertion fails: this
    test does not pass on the pinned sources. *)
Example market_cast_fails :
  market_from_buffer (t_zeros (market_state_len + 8)) tag_market = Err AccountTagMismatch /\
  ao_code AccountTagMismatch <> None /\ ao_code PE_InvalidAccountData = None.
Proof. by vm_compute. Qed.

(** ** program/tests/functional.rs:28-265 and program/tests/common/utils.rs:14-112 *)
(** Accounts: market 1, queue 2, bids 3, asks 4, register 5, reward target 6 (of another
    program, one byte); rent is enough for every account. *)
Definition t_pid : N := 9.
Definition t_rent (lamports : N) (len : nat) : bool := negb (lamports =? 0).
Definition t_a : accounts := mk_accounts 1 2 3 4.
Definition t_ledger (slab_len : nat) : ledger := fun k =>
  if k =? 1 then mk_account t_pid 1000000 (t_zeros (market_state_len + 8))
  else if k =? 2 then mk_account t_pid 1000000 (t_zeros (queue_allocation_size 32 1000))
  else if k =? 3 then mk_account t_pid 1000000 (t_zeros slab_len)
  else if k =? 4 then mk_account t_pid 1000000 (t_zeros slab_len)
  else if k =? 5 then mk_account t_pid 1000000 (t_zeros 42)
  else if k =? 6 then mk_account 0 1000000000 [0]
  else mk_account 0 0 [].
Definition t_send (i : instruction) : M ledger (option summary) :=
  fun l => execute 32 t_same t_rent t_pid (i_metas i) (i_data i) l.
(** [transfer] of lamports from the payer to the market. *)
Definition t_transfer (n : N) : M ledger unit :=
  modify (fun l => set_account 1 (mk_account (a_owner (l 1)) (a_lamports (l 1) + n) (a_data (l 1))) l).
(** Reading the register as [Option<OrderSummary>]. *)
Definition t_register : M ledger (option summary) :=
  fun l => (match rd_register (a_data (l 5)) with Some (s, _) => Ok s | _ => Panic PUnwrap end, l).
Definition t_functional : M ledger _ :=
  let! _ := t_send (build_create_market t_a 5 (mk_create_params 10 1)) in
  do! t_transfer 1000 in
  let! s1 := t_send (build_new_order t_a 5
    (mk_params 100000 100000 (usd 1000) Bid 3 (t_user 7) false true CancelProvide)) in
  do! t_transfer 1001 in
  let! s2 := t_send (build_new_order t_a 5
    (mk_params 110000 1000000 (usd 1000) Ask 3 (t_user 8) false true CancelProvide)) in
  let! s := t_register in
  let! s := lift (unwrap s) in
  let! id := lift (unwrap (posted_order_id s)) in
  let! s3 := t_send (build_cancel_order t_a 5 id) in
  let! _ := t_send (build_consume_events 1 2 5 10) in
  let! _ := t_send (build_close_market t_a 6 5) in
  ret (s1, s2, s, s3).
Definition t_end : res (option (summary * summary * summary * summary) * list N) :=
  let? len := slab_allocation_size 32 1000 in
  match t_functional (t_ledger len) with
  | (Ok (Some s1, Some s2, s, Some s3), l) => Ok (Some (s1, s2, s, s3), map (fun k => a_lamports (l k)) [1; 2; 3; 4; 6])
  | (Ok _, _) => Ok (None, [])
  | (Err e, _) => Err e | (Panic x, _) => Panic x | (Diverge, _) => Diverge
  end.
Example functional_passes :
  let bid := usd 1000 * p64 + (p64 - 1) in let ask := usd 1000 * p64 + 1 in
  t_end = Ok (Some (mk_summary (Some bid) 100 100000 100, mk_summary (Some ask) 1000 1000000 900,
                    mk_summary (Some ask) 1000 1000000 900, mk_summary None 900 900000 0),
              [0; 0; 0; 0; 1004002001]).
Proof. cbv zeta. vm_compute. reflexivity. Qed.
