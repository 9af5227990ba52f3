# Design: a Rocq model of agnostic-orderbook

## 1. Shape of the development

All Coq sources are in `rocq/theories` (logical name `Verif`), in dependency order in
`rocq/_CoqProject`. Four kinds of files:

**Model** (what the code does; every definition cites the file and lines it models)

| file | models |
|---|---|
| `Machine.v` | vocabulary: results (`Ok`, `Err`, `Panic`, `Diverge`), a state monad that keeps the mutated state on failure, checked fixed-width arithmetic, arrays with bounds checks; `program/src/error.rs`; the external `fp_math` |
| `Bytes.v` | little-endian byte strings |
| `Critbit.v` | `program/src/state/critbit.rs`: the slab (arrays, allocator, crit-bit tree, iterator) |
| `Check.v` | `critbit.rs` `check_invariants` (a test-only function) |
| `EventQueue.v` | `program/src/state/event_queue.rs`: ring buffer, events, iterator |
| `OrderBook.v` | `program/src/state/orderbook.rs`, `utils.rs`, helpers of `state.rs`: the matching engine |
| `Market.v` | the processors on typed accounts, initial markets, `exec` (rollback) |
| `Layout.v` | the byte layouts of the four accounts, `from_buffer`, `initialize`, allocation sizes |
| `Host.v` | alignment conditions of the casts; the code for other targets (`cfg(not(target_os = "solana"))`) |
| `Borsh.v` | Borsh encodings of parameters and of the order summary |
| `Ledger.v` | accounts, owners, lamports, account checks, the six processors on raw accounts, dispatcher, entrypoint, runtime checks, the instruction builders |
| `Errors.v` | `error.rs`: the conversion to `ProgramError` |
| `Access.v` | signatures: the runtime's rule, the builders' flags, the documented authority |
| `SplitSpec.v` | continuing an order: its rest, its deals, when it may have been cut short |
| `CatchProofs.v` | the followed side is the side now; orders of two moments that cross | C100 |
| `CatchSpec.v` | following a loaded side through later entries of the log | C100 |
| `VolumeProofs.v` | the sums of one instruction and of many; counting ids | C99 |
| `VolumeSpec.v` | sums over a log: posted, traded, given back, cancelled, left | C99 |
| `MoveProofs.v` | best prices before and after an instruction; order of the trades | C98 |
| `MoveSpec.v` | instructions that take nothing from a side | C98 |
| `FrontProofs.v` | with fewer orders in front a trade reaches further | C97 |
| `StayProofs.v` | an order posted again stands behind those it stood behind before | C97 |
| `FrontSpec.v` | what a new order sees of a resting order; as attractive as another | C97 |
| `SellProofs.v` | what a seller sells who withdraws own orders on the way | C89, C97 |
| `WaitProofs.v` | a side that nobody joins can only shrink | C96 |
| `WaitSpec.v` | a stretch of the log in which nobody joins a side | C96 |
| `InterleaveProofs.v` | the runs of the two sides, separately; posting before taking | C95 |
| `InterleaveSpec.v` | orders that only take; the part of a log about one side | C95 |
| `TakeProofs.v` | how matching ends; the two parts together | C94 |
| `TakeSpec.v` | the taking and the posting part of an order | C94 |
| `ShareProofs.v` | fills as the first units of a list of ids and sizes; the line with the order's own fills | C93 |
| `OfferProofs.v` | ladders with steps left out; sorted lists; rounding of slices | C92 |
| `OfferSpec.v` | two books, one with more orders; exact value of trades | C92 |
| `ProvideProofs.v` | trading without the orders that are withdrawn; cancelling several orders; markets with the same view | C91 |
| `ProvideSpec.v` | the own orders that a new order withdraws; the other events | C91 |
| `ReachProofs.v` | orders behind the reach are left alone and have no influence | C90 |
| `ReachSpec.v` | the orders within reach of a new order; two markets answer it alike | C90 |
| `LadderProofs.v` | an order trades the slices of its ladder; ladders of price levels | C89 |
| `LadderSpec.v` | the orders of the other side as a list of quantities and prices, its slices and their value | C89 |
| `StuckProofs.v` | what such an order does to the market; progress without them | C88 |
| `StuckSpec.v` | orders worth less than one quote unit, first order of a side, eviction | C88 |
| `BestProofs.v` | the walk down the best orders is the best choice | C87 |
| `BestSpec.v` | other ways to take the same quantity, and their value | C87 |
| `PartsProofs.v` | the price of walking down a side; splitting | C86 |
| `PartsSpec.v` | one-sided series of orders, what they trade, orders removed with a remainder | C86 |
| `CountProofs.v` | the counter changes nothing; bounds | C85 |
| `Count.v` | the program with a counter of its work | critbit.rs, orderbook.rs, processor/*.rs |
| `ReleaseWorld.v` | histories of a ledger where the release build is deployed | C84 |
| `ReleaseFacts.v` | where the checked build cannot overflow | C84 |
| `ReleaseProofs.v` | the two builds agree unless the checked one overflows | C84 |
| `Release.v` | the program built without overflow checks | critbit.rs, event_queue.rs, orderbook.rs, processor/*.rs, entrypoint.rs |
| `BooksProofs.v` | building any fitting book; nothing else arises | C83 |
| `BooksSpec.v` | specification: books that fit a market | C83 |
| `CheckSpec.v` | specification: a slab that reads as a sorted list of orders | C58 |
| `CheckSound.v` | what the self-check establishes | C58 |
| `PiecesProofs.v` | an order's effect apart from room; composition over pieces | C82 |
| `PiecesSpec.v` | specification: a client that sends an order in pieces | C82 |
| `SizesSpec.v` | a market with larger accounts; a history that never runs out of room (C81) | on configurations and logs |
| `DelaySpec.v` | which requests do not concern an order (C80) | on the model's requests and ids |
| `NamesSpec.v` | other arrival numbers for the same orders (C79) | on the exchange of C72 |
| `PreviewSpec.v` | the exchange that a client sees (C78) |
| `AloneSpec.v` | what a group buys from and sells to the others, from the events |
| `Reads.v` | `utils.rs` `get_spread` on accounts, `borsh_len` of the parameters |
| `JsClient.v` | `js/src`: slab.ts, event_queue.ts, market_state.ts, utils.ts, raw_instructions.ts |
| `JsLoad.v` | `js/src`: `retrieve`, `loadBidsSlab`, `loadAsksSlab`, `EventQueue.load` as fetches from a ledger |
| `JsBindings.v` | `js/src/bindings.ts`; transactions and the system program's CreateAccount |
| `Wasm.v` | `js/wasm/src/lib.rs` and what it uses of `js/wasm/src/critbit.rs` |
| `WasmTree.v` | the rest of `js/wasm/src/critbit.rs` |

**Specification** (what the English says, without the model's helpers): `Spec.v` (orders,
resting orders in priority order, emitted events, histories, replay, amounts),
`DataSpec.v` (finite maps, FIFO lists), `LedgerSpec.v` (who owns what, traces of a ledger),
`ClientSpec.v` (level-2 books, what a client should read), `MoreSpec.v` (schedules, views), `ReadSpec.v` (depth), `OpaqueSpec.v` (replacing callback infos), `CompareSpec.v` (two requests on one market), `WasmTreeSpec.v` (the older slab with its free slots), `WasmSpec.v` (accounts of the older layout), `CustodySpec.v` (what the caller reads and pays), `PlaceSpec.v` (the line in front of an order), `ExchangeSpec.v` (the rules of the exchange), `FailSpec.v` (what can be wrong with an instruction), `ScheduleSpec.v` (conflicts and schedules).

**Validation of the model**: `RepoTests.v` replays the repository's own tests (the unit tests of `orderbook.rs`,
`event_queue.rs`, `market_state.rs` and `program/tests/functional.rs`) on the model, assertion by assertion.

**Properties**: `PropsData.v` (C01-C10), `PropsOrder.v` (C13-C18, C22-C28, C38, C47),
`PropsMarket.v` (C11, C12, C19-C21, C29-C32, C39, C40, C46, C48), `PropsUtils.v` (C37),
`PropsLayout.v` (C41-C44), `PropsLedger.v` (C33-C36, C45, C51, C52), `PropsClient.v`
(C49, C50, C53, C54), `PropsMore.v` (C30, C55-C58), `PropsReads.v` (C44, C46, C48, C59), `PropsOpaque.v` (C60), `PropsCompare.v` (C61-C63), `PropsBindings.v` (C64), `PropsWasm.v` (C65), `PropsWasmTree.v` (C70), `PropsCustody.v` (C66, C67), `PropsHost.v` (C68), `PropsLoad.v` (C69), `PropsMass.v` (C31, failures), `PropsPlace.v` (C71), `PropsExchange.v` (C72), `PropsFail.v` (C73), `PropsSchedule.v` (C74), `PropsAccess.v` (C75), `PropsSplit.v` (C76), `PropsAlone.v` (C77), `PropsPreview.v` (C78), `PropsNames.v` (C79), `PropsDelay.v` (C80), `PropsSizes.v` (C81), `PropsPieces.v` (C82), `PropsCheck.v` (C58, converse), `PropsBooks.v` (C83), `PropsRelease.v` (C84), `PropsWork.v` (C85), `PropsParts.v` (C86), `PropsBest.v` (C87), `PropsStuck.v` (C88), `PropsLadder.v` (C89), `PropsReach.v` (C90), `PropsProvide.v` (C91), `PropsOffer.v` (C92), `PropsShare.v` (C93), `PropsTake.v` (C94), `PropsInterleave.v` (C95), `PropsWait.v` (C96), `PropsFront.v` (C97), `PropsMove.v` (C98), `PropsVolume.v` (C99), `PropsCatch.v` (C100) and the later `Props*.v` listed in section 3. Each theorem is followed by
`Print Assumptions` and by an `Example` with a concrete, non-trivial case that meets its
hypotheses (for the ledger files the examples are at the end).

**Proofs**: all other files.

Properties that turned out false as first written are kept in view: the theorem with the
suffix `_refuted` exhibits the counterexample, and the property is stated with the exact
condition under which it holds.

## 2. Modelling decisions

* **Numbers.** Machine integers are `N`. Additions, subtractions and multiplications which
  Rust performs without a check are *checked* in the model: they panic. Shifts by
  128 or more panic as well. `Release.v` is a second model with the wrapping arithmetic of
  the release profile; C84 proves that the two agree wherever the checked one does not
  overflow, and that it never does on reachable markets. Where an overflow can happen in
  a helper outside the program (`round_price` for asks) both profiles are modelled.
* **Arrays.** Slices are lists; an index out of bounds is a panic.
* **Loops.** Tree walks use fuel 129 (keys have 128 bits); running out is the separate
  outcome `Diverge`, which theorems exclude (C06). The matching loop is bounded by
  `match_limit`, as in the code; the loop over a queue by its count.
* **Errors.** A model function returns the outcome *and* the state as mutated before the
  failure. Rollback is the Solana runtime's job and is modelled by `exec` (typed) and
  `execute` (ledger), which drop the mutated state.
* **Callback info.** An arbitrary type `C` with an arbitrary identity test, as the Rust
  trait `CallbackInfo`. The byte layer instantiates it with byte strings of a fixed length.
* **Views into buffers.** In Rust, slab and queue are bytemuck casts of the account's
  bytes. In the model a buffer is decoded, the typed code runs, the value is written back;
  `LayoutProofs.v` proves the two directions inverse, `LedgerProofs.v` that the accounts
  after each processor hold exactly the typed result (C51).
* **fp_math** of `bonfida-utils` is not in /repo; it is modelled from its published
  source: 128-bit intermediate results, `None` when the result does not fit 64 bits.
* **Histories.** `history c log m`: a market created with configuration `c` processed the
  instructions of `log` (failed ones too) and is now `m`. Ids use bit 63 of the sequence
  number for the side, so histories have fewer than 2^63 instructions; this is the only
  bound and it is a hypothesis that every real chain meets.

## 3. Properties: what is modelled and how each is proved

* **C01 An order slab behaves as a finite map from order ids to orders.** Slab as arrays; a ghost binary tree tied to the arrays by a representation predicate, ghost free lists as chains; crit-bit insertion and removal proved on the ghost tree with prefix lemmas on 128-bit keys; induction over operation sequences against a finite map. *Theorems:* `C01_slab_is_a_map`, `C01_slab_progress`.
* **C02 find_min and find_max return the extreme orders.** Leftmost and rightmost leaf of the ghost tree, in-order keys sorted. *Theorems:* `C02_find_min_max`.
* **C03 Slab iteration is complete, duplicate free and sorted.** The iterator's stack is a forest whose flattening is what is left to yield. *Theorems:* `C03_iteration`.
* **C04 Slab capacity is exact and never leaks.** The allocator's accounting: used slots, free list and bump index partition the array. *Theorems:* `C04_capacity`.
* **C05 Removing an absent order reports absence.** Exact characterization of absent removal; the panic with one order and a stale slot 0 is exhibited. *Theorems:* `C05_absent_removal`, `C05_absent_removal_refuted`. The unconditional claim is refuted (C05_absent_removal_refuted): the code panics in the stale slot case. C05_absent_removal gives the exact condition.
* **C06 Slab walks terminate within 129 node visits.** Height of a well-formed tree is at most 128, so no walk runs out of fuel. *Theorems:* `C06_walks_are_short`. Fuel counts node visits; the removal walk starts below the root.
* **C07 find_by_key is exact.** Descent in the ghost tree. *Theorems:* `C07_find_by_key`.
* **C08 The event queue is a FIFO.** The queue's content is `count` slots from `head` modulo the capacity; refinement to lists. *Theorems:* `C08_queue_is_fifo`.
* **C09 A full event queue refuses events without damage.** Same invariant, full queue. *Theorems:* `C09_full_queue`.
* **C10 Events are read back exactly as written.** Decode of encode for the two event structs; references with callback infos. *Theorems:* `C10_fill_round_trip`, `C10_out_round_trip`, `C08_queue_is_fifo`. The padding bytes are read back too; the tag is the one of the event kind.
* **C11 Order ids are unique for the whole life of a market.** Invariant: ids ever posted carry distinct sequence numbers below the counter. *Theorems:* `C11_ids_unique`, `C11_gone_forever`, `C11_resting_posted`.
* **C12 An order id encodes its price and its side.** Bit-level lemmas on price and (complemented) sequence number. *Theorems:* `C12_id_encodes`, `C12_on_its_side`.
* **C13 Price-time priority.** `new_order` refines a small matching engine on sorted lists (`Engine.v`, proved equal in `EngineProofs.v`); the theorems speak of books, events and summaries only. *Theorems:* `C13_priority`, `C13_untouched_behind`, `C13_event_sources`, `C13_time`. Priority at each event, untouched orders behind, and posting time agrees with the order of ids.
* **C14 Limit price is respected.** Loop invariant of the engine. *Theorems:* `C14_limit_price`.
* **C15 Quantity limits are respected.** Loop invariant of the engine. *Theorems:* `C15_quantity_limits`.
* **C16 The order summary agrees with the events and the posted order.** Loop invariant: totals against fills and posted remainder. *Theorems:* `C16_summary`.
* **C17 Fill prices are exact up to one unit, in the maker's favour.** Each fill event against the price of its maker; parties and sides. *Theorems:* `C17_fill_amounts`, `C17_fill_parties`.
* **C18 Maker quantities are conserved by matching.** Loop invariant: each maker's quantity before is filled plus remaining plus returned by Out events. *Theorems:* `C18_conservation`, `C18_opposite_replay`, `C18_untouched`, `C18_no_new_opposite`, `C18_leaves_iff_out`.
* **C19 The book is never crossed.** Invariant of histories. *Theorems:* `C19_never_crossed`.
* **C20 No dust orders.** Invariant of histories. *Theorems:* `C20_no_dust`, `C20_order_value`.
* **C21 Resting prices are positive multiples of the tick size.** Invariant of histories; the price check before matching. *Theorems:* `C21_resting_tick`, `C21_price_check`.
* **C22 post_only orders never trade.** Case analysis of `new_order`. *Theorems:* `C22_post_only`, `C22_post_only_crossing`, `C22_crossing_fails_refuted`. The documented failure of a crossing post_only order is refuted; the code succeeds without effect.
* **C23 Orders that may not post leave the own side untouched.** Case analysis of `new_order`. *Theorems:* `C23_post_not_allowed`.
* **C24 match_limit bounds the work.** Loop invariant with the counter. *Theorems:* `C24_match_limit`, `C24_match_limit_zero`.
* **C25 Self-trade protection.** The three self-trade behaviours; which events they can emit. *Theorems:* `C25_no_self_fill`, `C25_abort_transaction`, `C25_abort_failure`, `C25_cancel_provide`, `C25_cancel_provide_removed`, `C25_decrement_take`, `C25_decrement_never_aborts`, `C25_out_reasons`.
* **C26 Eviction from a full side.** The posting step: eviction of the worst order only for a better one, and when a remainder is posted. *Theorems:* `C26_eviction`, `C26_posting_condition`, `C26_traded`.
* **C27 new_order never fails numerically and never panics.** Every outcome of `new_order` on reachable markets is Ok or a listed error. *Theorems:* `C27_outcomes`.
* **C28 Room in the event queue is enough for success.** Events counted against orders met; the bound 2n+1 is refuted, 3n+1 proved. *Theorems:* `C28_queue_room`, `C28_queue_room_book`, `C28_event_count`, `C28_two_events_per_order_refuted`. The bound of two events per opposite order is refuted (an ask can fill one bid twice); three per order plus one is proved.
* **C29 Cancel removes exactly one order and reports what was left.** Slab theorems lifted to the processor. *Theorems:* `C29_cancel`.
* **C30 Cancelling an order that is not in the book fails without effect.** Slab theorems; the stale key was an inserted key (`StaleProofs.v`). *Theorems:* `C30_cancel_absent`, `C30_order_not_found_refuted`, `C30_never_posted`, `C30_panic_was_posted`. OrderNotFound except in the stale slot case, which is reachable (C30_order_not_found_refuted) but only for ids that were posted before (C30_panic_was_posted).
* **C31 Mass cancel is an all-or-nothing sequence of cancels.** Induction over the ids; equivalence with single cancellations. *Theorems:* `C31_mass_cancel`, `C31_mass_cancel_sequence`, `C31_failure`, `C31_first_failure`, `C31_never_posted`. Includes the case where the totals overflow u64: the code panics, without effect. C31_failure and C31_first_failure say exactly which id decides a failure and that its result is the one a single cancellation returns.
* **C32 consume_events pops exactly the oldest events.** Queue refinement. *Theorems:* `C32_consume`.
* **C33 A market closes only when empty and stays closed.** Ledger model; invariant of ledgers that occur (`wf_ledger`). *Theorems:* `C33_close_iff`, `C33_close_active`, `C33_close_needs_empty`, `C33_is_empty`, `C33_close_disables`, `C33_no_market`, `C33_no_role`, `C33_stays_closed`, `C33_register_refuted`. Proved for the processors and for everything that can happen on the ledger except overwriting by the program itself. A transaction naming an account of the closed market as register resets its tag (C33_register_refuted).
* **C34 Closing moves all lamports to the target and preserves the total.** Ledger model. *Theorems:* `C34_close`, `C34_other_instructions`, `C34_execute_total`.
* **C35 Markets are initialized once and with sound parameters.** Ledger model, exact acceptance condition. *Theorems:* `C35_create_iff`, `C35_create_effect`, `C35_create_opens`, `C35_once`, `C35_fresh`. create_market checks only the first byte of the slab accounts and not their size; C35_fresh shows that accounts never written by the program are zeroed.
* **C36 Instructions only touch the accounts recorded in the market.** Ledger model: inversion of every processor. *Theorems:* `C36_checked`, `C36_close_checked`, `C36_records_unique`, `C36_frame`, `C36_market_constant`.
* **C37 round_price rounds to the tick on the right side.** Arithmetic, both build profiles. *Theorems:* `C37_round_bid`, `C37_round_ask`, `C37_round_fails`, `C37_round_ask_wraps`, `C37_round_idempotent`, `C37_round_ask_refuted`.
* **C38 A posted order is immediately and exactly in the book.** The engine's posting step, then slab iteration and lookup. *Theorems:* `C38_posted_visible`.
* **C39 The event stream and summaries reconstruct the book.** Induction over histories: the book is the replay of posted orders and events. *Theorems:* `C39_replay`, `C40_order_life`.
* **C40 Lifetime solvency of resting bids and asks.** Per-order ledger over a whole history; total escrow covers all fills and refunds. *Theorems:* `C40_order_life`, `C40_solvency`.
* **C41 Slab account layout.** Byte encoders and decoders, round trips, allocation sizes. *Theorems:* `C41_allocation_size`, `C41_open`, `C41_wrong_tag`, `C41_write_read`.
* **C42 Event queue account layout.** Same for the queue. *Theorems:* `C42_allocation_size`, `C42_accepted_sizes`, `C42_open`, `C42_wrong_tag`, `C42_write_read`.
* **C43 The returned summary survives the register.** Register encoding. *Theorems:* `C43_round_trip`, `C43_injective`, `C43_length`, `C43_documented_size_short`.
* **C44 Instruction parameters survive serialization.** Borsh readers invert writers and accept nothing else. *Theorems:* `C44_create`, `C44_new_order`, `C44_consume`, `C44_cancel`, `C44_mass_cancel`, `C44_borsh_len`.
* **C45 Instruction builders produce the instruction they name.** Builders composed with dispatcher and runtime; the mass-cancel builder's wrong tag is exhibited. *Theorems:* `C45_create_market`, `C45_new_order`, `C45_cancel_order`, `C45_consume_events`, `C45_close_market`, `C45_mass_cancel_refuted`, `C45_mass_cancel_fixed`, `C45_metas_create`, `C45_metas_trade`, `C45_metas_close`, `C45_read_only`, `C45_read_only_consume`. Proved for five builders; refuted for mass_cancel_orders, whose instruction always fails.
* **C46 Best prices reported are the best prices.** Best bid and ask against the resting lists. *Theorems:* `C46_spread`, `C46_accounts`, `C46_wrong_accounts`.
* **C47 Matching is maximal.** When matching stops: nothing matchable is left or a limit is reached. *Theorems:* `C47_matching_is_maximal`.
* **C48 Failed instructions have no effect.** `exec`; plus the structures' own unchanged-on-error lemmas, and the processors without rollback. *Theorems:* `C48_execute`, `C48_failed_no_effect`, `C48_raw_cancel`, `C48_raw_bad_price`, `C48_raw_consume`, `C48_raw_mass_cancel`, `C48_rollback_needed`, `C04_capacity`, `C09_full_queue`. C48_failed_no_effect and C48_execute are about the program under the runtime's rollback; the C48_raw_* theorems and C48_rollback_needed are about the program alone. C04_capacity and C09_full_queue cover the error paths of slab insertion and queue push.
* **C49 The JavaScript client reads the same book.** The client's traversals over the bytes of a slab account (`JsProofs.v`). *Theorems:* `C49_deserialize`, `C49_items`, `C49_min_max`, `C49_by_key`, `C49_l2_depth`, `C49_price`, `C49_price_from_key`, `C49_allocation_size`, `C49_order_capacity_refuted`, `C49_extra_bytes_refuted`. Proved for accounts of the computed size; refuted when the account has extra bytes. Offsets are computed in IEEE doubles as the client does. C49_order_capacity_refuted: the field orderCapacity is n - 1 for an account that holds n orders.
* **C50 The JavaScript client reads the same events.** The client's event parsing (`JsQueueProofs.v`). *Theorems:* `C50_parse`, `C50_peek`, `C50_parse_fill`, `C50_allocation_size`, `C50_header_refuted`, `C50_parse_fill_refuted`, `C50_limit_zero_refuted`, `C50_peek_beyond_refuted`. peekAt proved for i < count; parseFill proved for head = 0; the other cases are refuted with witnesses.
* **C51 Accounts on chain follow the market model.** Simulation: raw accounts follow the typed model, per instruction, per history and per transaction. *Theorems:* `C51_answer`, `C51_history`, `C51_execute`.
* **C52 Markets do not interfere.** Invariant of ledgers: live markets have disjoint accounts; frame of every instruction. *Theorems:* `C52_disjoint`, `C52_recorded`, `C52_isolated`, `C52_same_market`, `C52_register_refuted`. Proved for the processors; refuted for transactions that name an account of another market as register.
* **C53 The JavaScript client's market state and instructions.** Market account parsing; data and accounts of the client's instructions against the dispatcher. *Theorems:* `C53_market_state`, `C53_tags_refuted`, `C53_cancel`, `C53_mass_cancel`, `C53_consume`, `C53_metas_consume`, `C53_no_register_refuted`, `C53_read_only_refuted`, `C53_create_refuted`, `C53_new_order_refuted`, `C53_data`, `C53_close_refuted`. Market state and the effect of cancel, mass cancel, consume proved; refuted for the instructions that can never succeed.
* **C54 Every waiting event is well formed.** Invariant of histories over waiting events. *Theorems:* `C54_pending_sane`.
* **C55 Every market can be emptied and closed.** Induction over the orders with C29, then C32 and C33 on the ledger. *Theorems:* `C55_wind_down`, `C55_can_close`. Histories of fewer than 2^63 instructions. On the ledger, the target must be able to hold the lamports (sum below 2^64).
* **C56 Trading does not depend on when events are consumed.** A relation between runs that differ only in the prefix of the queue, preserved step by step (`CrankProofs.v`). *Theorems:* `C56_consume_first`, `C56_schedule_free`. Histories in which no instruction was refused with EventQueueFull.
* **C57 What a market answers depends only on what can be read from it.** The book's lists determine the engine's result; two representations of the same lists. *Theorems:* `C57_view_step`.
* **C58 The slab's structural self-check never fails, and passing it means something.** The check follows the ghost tree; masks by bit extensionality; conversely a passing check rebuilds the ghost tree, on which the reads are already proved. *Theorems:* `C58_sound`, `C58_ends`, `C58_every_slab`, `C58_every_market`. check_invariants is compiled for tests only; its model is Check.v. C58_sound is the converse: a slab that passes reads as a sorted list. The example shows the check's two blind spots: a lone order's slot and the free slots.
* **C59 The reported tree depth is the tree's depth, and it is bounded.** Model get_depth with its explicit stack (Critbit.v). Invariant: the stack holds subtrees of the ghost tree; the running maximum is the height of what was visited. Height < number of leaves <= 2^height, and every inner node adds a bit to the prefix, so at most 128 levels.. *Theorems:* `C59_every_slab`, `C59_every_market`. Depth is specified by paths from the root (ReadSpec.v), independently of the explicit stack of get_depth.
* **C60 Callback information is opaque to the order book.** Every function of the model is shown, by following its structure, to commute with applying f to all callback infos (a homomorphism between the state monads over C and over D, OpaqueProofs.v); no invariant is needed.. *Theorems:* `C60_opaque`, `C60_opaque_raw`, `C60_history`, `C60_decrement_take_blind`, `C60_comparison_needed`. Holds of arbitrary states, not only reachable ones. C60_comparison_needed shows that the hypothesis on f cannot be dropped.
* **C61 Loosening a request only extends what it does.** Two runs of the matching loop (Engine.v) on the same list of orders: the stricter run stops at a step where the other continues, by induction on the steps; for amounts, an invariant relating the two remaining budgets.. *Theorems:* `C61_tighter_prefix`, `C61_tighter_accepted`, `C61_less_base`, `C61_less_funds_bid`, `C61_ask_quote_refuted`, `C61_quote_traded`, `C61_base_traded`. C61_ask_quote_refuted records that the symmetric claim for sellers and max_quote_qty is false of the code, with a concrete market.
* **C62 Posting and then cancelling leaves no trace.** On ordered lists, deleting a fresh id after inserting it gives the list back; new_order's cases (C26, C38) and cancel_order's (C29) supply the rest.. *Theorems:* `C62_post_cancel`, `C62_no_trace`. reachable of the intermediate market is a hypothesis only to exclude a history of 2^63 instructions.
* **C63 The order of two cancellations does not matter.** Cancel_order acts on the abstract lists by deletion, and deletions commute; the answers are read from lists the other cancellation does not change.. *Theorems:* `C63_cancels_commute`, `C63_mass_cancel_any_order`. same_answer identifies the two failures of an absent id (OrderNotFound, and the index panic of finding 1).
* **C64 The client's createMarket prepares the right accounts.** Models bindings.ts, the system program's CreateAccount and transactions (JsBindings.v); the sizes agree by C49/C50's size theorems, and C35's characterisation of create_market applies to the ledger after the four creations.. *Theorems:* `C64_accounts_fit`, `C64_transaction_refuted`. C64_transaction_refuted: the transaction as built always fails (see C53_create_refuted). The system program's CreateAccount and transactions are modelled in JsBindings.v.
* **C65 What the WebAssembly reader returns.** Models js/wasm (Wasm.v); WasmSpec.v says what bytes an account of the older layout has. Induction on the tree: the search stack is consumed subtree by subtree, so the loop is a fold over the orders in reading order; the fold is the list of levels cut at depth (WasmProofs.v).. *Theorems:* `C65_min_max`, `C65_l2_depth`, `C65_current_accounts_refused`, `C65_last_level_refuted`. C65_last_level_refuted: the claim that every returned level is a total is false of the code. Loops are modelled with fuel; the theorems give the answer for all sufficiently large fuel. Total quantity < 2^64 is assumed, as u64 sums wrap in release mode.
* **C66 Every event is delivered exactly once, in order.** CustodySpec.v defines what a consumer reads (the first n waiting events) along a run. Per instruction: handled ++ waiting after = waiting before ++ produced (new orders append, consumption drops a prefix, others leave the queue alone); induction on the history.. *Theorems:* `C66_exactly_once`, `C66_every_history`, `C66_drain`. delivery (CustodySpec.v) runs a history and records the events read from the front of the queue before each successful consumption; C66_every_history says that every history is one.
* **C67 A caller that follows summaries and events stays solvent.** CustodySpec.v defines the token flows of a caller. For any weight of ids, the weighted size of a side changes by what is posted minus what events and cancellations take (from life_step and step_effect, summed over orders, with sums over orders and over events exchanged). Weight 1 on asks gives the base equation; weight price on bids gives the quote inequality, each amount's rounding error being bounded by 2^32 - gcd(tick, 2^32). Induction on the history.. *Theorems:* `C67_base`, `C67_quote`, `C67_solvent`, `C67_no_dust`, `C67_settled`, `C67_every_history`, `C67_mass_cancel_summary`. custody (CustodySpec.v) runs a history with the balances of a caller; flows use requests, answers, queue events and, for mass cancellations that mix sides (whose summary adds base units of both sides), the sizes readable from the book.
* **C68 Accounts open wherever the loader puts them; the off-chain build reads the same data.** Host.v repeats the from_buffer functions with the address of the data and the alignment checks of the casts. Each is the function without addresses behind the checks; offsets are multiples of 8, which settles the chain; 40 + 24n modulo 16 settles the other builds. Words: division by 2^64 and le_dec of a concatenation.. *Theorems:* `C68_slab`, `C68_on_chain_slab`, `C68_on_chain_queue`, `C68_on_chain_market`, `C68_misplaced`, `C68_off_chain_slab`, `C68_off_chain_refuted`, `C68_words`, `C68_words_back`, `C68_words_same`, `C68_same_leaf`, `C68_same_fill`, `C68_same_out`, `C68_same_bytes`. Addresses are parameters of the functions of Host.v; that the loader puts account data at multiples of 8 is a hypothesis (the loader is not part of the repository). Off chain the theorem gives the exact addresses at which a slab opens; C68_off_chain_refuted records that none suits two consecutive capacities where u128 is aligned on 16.
* **C69 Loading a market through the client.** JsLoad.v models the four fetching functions on a ledger. C51 gives the market at both moments; a step lemma shows that sizes and the first 8 bytes of a live market's accounts never change, which gives the hypotheses of C49, C50 and C53 at the moment of loading. The torn read is a concrete trace.. *Theorems:* `C69_load`, `C69_closed`, `C69_unchecked_refuted`, `C69_torn_refuted`. A fetch returns the account of the ledger at that moment (JsLoad.v); the RPC node, commitment levels and network failures are not modelled beyond that. C69_torn_refuted: two fetches at different moments can show a crossed book. C69_unchecked_refuted: retrieve accepts any account of at least 120 bytes.
* **C70 The older program's slab, as the WebAssembly crate writes it.** Models the rest of js/wasm/src/critbit.rs (WasmTree.v). WasmTreeSpec.v states the whole structure: a tree with slot numbers stored in the bytes, the chain of free slots, the slots handed out; together they are all slots below the bump index. Removal is a relation on trees; the walk finds it by induction, the three writes are shown to touch only the slots concerned, and the structure is re-established (WasmTreeProofs.v). Histories by induction.. *Theorems:* `C70_remove`, `C70_remove_absent`, `C70_remove_extreme`, `C70_insert`, `C70_find_by_key`, `C70_find_node_sequence`, `C70_check_invariants`, `C70_slot_size`, `C70_check`, `C70_write_header`, `C70_history`, `C70_set_quantity`. The crate has no insert_leaf: [insert] only allocates a slot, which stays unlinked ('loose'). [find_by_key] and [check_invariants] are compiled for tests only. Fuel as in C65.
* **C71 A resting order keeps its place.** Induction over the instructions after the first moment. One instruction: where an order of the next state comes from (the events applied to the old orders, or a new id with a fresh sequence number), priority at each event (C13) and the life of an order (C40); the sum over the line is compared with the sum of the fills per order.. *Theorems:* `C71_place`, `C71_no_overtaking`, `C71_line`, `C71_turn`, `C71_evicted_last`. The line counts the orders at the same price only; orders at better prices may arrive at any time. An order also leaves the line when it is cancelled or evicted.
* **C72 The program is the exchange that its rules describe.** A reference exchange with its own types (orders by price and time, notices, a clock), refined by the model: per instruction from the effect lemmas of MarketProofs.v, then by induction over histories, then over ledger traces through C51.. *Theorems:* `C72_step`, `C72_history`, `C72_ledger`. The rules (ExchangeSpec.v) use only lists and exact numbers. An unknown id is answered NoSuchOrder whether the program returns OrderNotFound or panics (C05 says when).
* **C73 A refused instruction says why.** Tables of problems with their codes (FailSpec.v), compared with the processors check by check; for the market itself through C72; the set of possible errors by an error-set logic over the whole model (FailErrors.v): each computation with the errors it can end with, for arbitrary account contents.. *Theorems:* `C73_accounts`, `C73_market`, `C73_close_accounts`, `C73_close_market`, `C73_create`, `C73_create_queue_size`, `C73_dispatch`, `C73_only`, `C73_no_data`, `C73_codes`. The tables of what can be wrong are in FailSpec.v. Two refusals can be panics: an unknown id (C05) and mass-cancel totals above 64 bits; an event queue account of a wrong size makes create_market panic (C73_create_queue_size).
* **C74 Transactions that do not share a writable account can run in any order.** A locality predicate over the account model (the outcome and the named accounts afterwards depend on the named accounts; the others and all owners stay), closed under the monad operations and proved for all six processors and the entrypoint, and lifted to lists of instructions with roll-back; then commutation of two transactions, and by induction for every reordering that respects conflicts (ScheduleProofs.v).. *Theorems:* `C74_atomic`, `C74_reads`, `C74_writes`, `C74_commute`, `C74_schedules`, `C74_markets`, `C74_same_market`. Transactions of any number of instructions of this program, through the entrypoint, with the runtime's checks (writable accounts, lamports) and roll-back; the runtime's merging of the writable flags of one transaction is modelled. The accounts may hold anything. Conflicts are read off the account metas only.
* **C75 Who may act on a market.** The documented tables (Access.v) against the model: the answer of any instruction is that of the market (C51) and the runtime accepts the builder's accounts (C45), with nobody signing; the runtime's ownership rule and the owner checks of the processors give the protection that exists.. *Theorems:* `C75_anyone`, `C75_anyone_closes`, `C75_owner_protects`, `C75_owner_needed`, `C75_authority_refuted`. The documented rule is refuted (C75_authority_refuted); C75_anyone and C75_anyone_closes say what holds instead, C75_owner_protects and C75_owner_needed what protection there is. That the program never reads is_signer is by inspection of the sources (Access.v).
* **C76 An order cut short by its match limit can be continued.** By C72 an instruction is a rule on two lists; the matching rule with limit k1+k2 splits into k1 steps and k2 steps on what is left (induction on k1). A first part that dealt with fewer orders than its limit and left nothing acceptable is excluded by counting its events. A pair of markets with equal answers refutes that the summary tells why an order stopped.. *Theorems:* `C76_continue`, `C76_summary_tells_refuted`. Proved through the reference exchange (C72). The events count deals, so "may have been cut short" is read off the events and the book, not off the program's locals. C76_summary_tells_refuted decides the stronger reading of the comment at new_order.rs:39-42.
* **C77 Nobody makes a profit by trading alone with the book.** Invariant over the continuation: an order of somebody else that rests now rested at the start, with the same id and price; the book was uncrossed then (C19), so the best price of the others' bids separates; fills are rounded in the maker's favour (C17); sum over the events.. *Theorems:* `C77_wrong_side`, `C77_no_profit`. Stated on the events of the log alone. C77_wrong_side gives the price; C77_alone_needed shows that the restriction to the group's orders is needed.
* **C78 What a client sees decides what it gets.** Model: PreviewSpec.v composes the client's functions (JsLoad.v, JsClient.v) into a view. Proof: C69 (what is loaded), C51 (bytes follow the market), C72 (the market follows the rules).. *Theorems:* `C78_preview`. client_view (PreviewSpec.v) uses only functions of the client. The preview is for the next instruction on the market; C78_stale shows that it is not for a later one.
* **C79 Order of arrival counts only at the same price.** Model: a renaming of arrival numbers on the exchange of C72 (NamesSpec.v). Proof: every rule commutes with the renaming (the rules compare prices and places, never arrival numbers); joins at different prices commute; lifted to the program by C72.. *Theorems:* `C79_names`, `C79_order`, `C79_arrival`. C79_names is the general statement, C79_order the exchange of two arrivals, C79_arrival both together. NamesSpec.v defines the renaming without reference to the program. C79_same_price shows that at the same price the order of arrival does count.
* **C80 A withdrawal can come early or late.** `DelaySpec.v` says which requests do not concern an order. In the exchange of C72, removing the order commutes with every rule for such requests (`DelayProofs.v`); induction over the sequence, then C72 carries it to markets.. *Theorems:* `C80_delay`, `C80_behind`. C80_delay for whole sequences of requests, C80_behind for one order that reaches the price but stops in front; stated on markets, with the exchange of C72 as what can be observed (`view`). C80_needed shows that the condition on the price cannot be dropped.
* **C81 Account sizes matter only when they run out.** The rules of C72 depend on the sizes only through three comparisons; under `never_short` these have the same outcome. Induction over the history, C72 on both sides.. *Theorems:* `C81_sizes`. C81_sizes compares two markets with different capacities; `never_short` (SizesSpec.v) says that the smaller one has room whenever it needs it. C81_needed shows what happens otherwise.
* **C82 No order is too large for the event queue.** Model the client's loop (`send`) over the market model. By induction over the pieces: trading with limit k1+k2 is trading with k1 and continuing (C76), trading that ended before its limit is the same under any larger limit, and with an emptied queue 2k+1 slots are enough (C28).. *Theorems:* `C82_pieces`, `C82_room`. Proved through the reference exchange (C72) and C28; PiecesSpec.v is the client's loop. The rule with enlarged room plays the unlimited queue; C82_room shows that such a room exists. Iterates C76 over any number of pieces, with consumption in between.
* **C83 Which books can arise.** Specify `fits` over the lists of orders. Soundness: the market invariant plus an invariant of the reference exchange (times distinct, value covered). Completeness: by induction over the number of orders, remove the latest, build the rest, burn arrival numbers, post it.. *Theorems:* `C83_only`, `C83_arises`, `C83_exactly`. C83_only: the invariant; C83_arises: the construction (one order at a time in order of arrival; arrival numbers that no order has are used up by an order that is posted and cancelled at once). The bound 2^61 on arrival numbers in the construction keeps the requests within the 2^63 of a history.
* **C84 Building without overflow checks changes nothing.** A second model with wrapping arithmetic (Release.v). Refinement: each function of it returns what the checked one returns unless that is an overflow panic (congruences for bind, lift, zoom and the matching loop). No overflow: from C27, C29-C32 for markets and C51 for accounts. For whole ledgers: invariant that every recorded market is in a state that the calls so far lead to (one step of the ledger keeps it), so no call overflows and the step is one of the checked build.. *Theorems:* `C84_same`, `C84_market`, `C84_history`, `C84_open`, `C84_create`, `C84_transaction`, `C84_safe`, `C84_ledger`, `C84_world`. C84_same for any ledger; C84_market, C84_history for markets; C84_transaction for whole transactions; C84_open, C84_create and C84_safe. Release.v is a second model of the same code, function by function, with wrapping arithmetic. Covers the on-chain program; utils.rs round_price (C37) and the WebAssembly reader (C65) are treated in their own properties.
* **C85 The work of a request is bounded by what it asks for, not by the size of the market.** The functions again, with a counter (Count.v). Erasure: without the counter they are the functions of the model. Bounds by composition; the matching loop by induction on the match limit and on the free event slots, since every turn that goes on writes at least one event.. *Theorems:* `C85_same`, `C85_work`, `C85_counts`, `C85_any_order`, `C85_ends`. C85_same: the counting program without its counter is the program; C85_work: the bounds; C85_counts: the same from below, so the counter cannot be an empty one; C85_any_order and C85_ends. The count stands for compute units up to a constant factor; the cost of one unit, of opening the accounts and of decoding the instruction is not modelled.
* **C86 Splitting an order does not pay, beyond one quote unit per left-over order.** Over the reference exchange (C72's rules): the price of walking down the best orders. A single order costs exactly the walk; one order of the series and the walk over what it leaves cost at least the walk over the whole, less one unit per order removed with a remainder (induction on the match limit, with the rounding inequalities); then induction on the series.. *Theorems:* `C86_buy`, `C86_sell`, `C86_never_pays_refuted`, `C86_limited_sell_refuted`. C86_buy and C86_sell: the bounds; C86_buy_example and C86_sell_example reach them; C86_never_pays_refuted: the left-over allowance is needed; C86_limited_sell_refuted: the single sell order must not be limited in quote units.
* **C87 Best execution: no other choice among the resting orders would have been better.** Over the reference exchange: the walk down the best orders has the best exact value among all choices of the same quantity (exchange argument by induction on the side, ranked by price); what an order trades is such a walk, except that remainders below the minimum size are dropped, which for an order not limited in quote units only happens at the end; each fill is rounded by less than one unit.. *Theorems:* `C87_best`, `C87_quote`, `C87_limited_sell_refuted`. C87_best and C87_quote; C87_example meets the hypotheses with a way that takes from three orders evenly; C87_limited_sell_refuted: a sell order limited in quote units can do worse.
* **C88 Sales do not get stuck, provided the smallest order is worth a quote unit.** Over the reference exchange: matching stops at an order whose price for the quantity rounds down to zero, before the self-trade test, and counts as crossed (induction on the match limit for the orders in front of it); induction on histories with the priority theorem for what is behind it. Minimum size and tick bound the worth of every resting order from below.. *Theorems:* `C88_blocked`, `C88_until_removed`, `C88_one_unit`, `C88_sound_market`, `C88_progress`, `C88_progress_refuted`. C88_progress with C88_sound_market: the positive claim; C88_blocked, C88_until_removed and C88_one_unit: what happens otherwise; C88_progress_refuted: the claim without its proviso, with C88_example.
* **C89 What an order trades can be worked out from the book beforehand.** Over the reference exchange: induction on the match limit; once a slice is cut short, nothing more can be bought (the next unit costs more than is left, there and at every dearer price). For the levels: neighbouring steps of one price are merged one at a time, each merge changes a total by at most one unit.. *Theorems:* `C89_buy`, `C89_buy_all`, `C89_sell`, `C89_sell_withdrawing`, `C89_client`. LadderSpec.v has the list and the slices. For sellers limited in quote units there is no such formula: C61_ask_quote_refuted and C87_limited_sell_refuted show what happens. C89_sell_example also meets the hypotheses of C89_client.
* **C90 Orders out of reach do not matter.** Over the reference exchange: the orders within the limit are a prefix of the other side; trading with a list followed by orders that cannot be met (by number or by price) leaves those alone.. *Theorems:* `C90_out_of_reach`, `C90_events`, `C90_cancelled`, `C90_posted`. ReachSpec.v defines the reach and what it means to be answered alike. That a full own side matters is C26, that a full queue matters is C28.
* **C91 CancelProvide is the same as cancelling first.** Over the reference exchange: induction on the match limit, own orders that are gone are taken out of the list of makers; the cancellations are C29 one after the other; markets with the same view have the same orders and events.. *Theorems:* `C91_cancel_first`, `C91_same_limit_refuted`. ProvideSpec.v defines the withdrawn orders by their owner and by being gone. C91_same_limit_refuted shows that the reduction of the match limit is needed.
* **C92 More orders on the other side do a new order no harm.** The trades are the first units of a ladder (C89); the ladder of the first market is a sublist of that of the second, both sorted by price; induction on the sublist.. *Theorems:* `C92_price`, `C92_quote`, `C92_amount`, `C92_exact_quote_refuted`, `C92_match_limit_refuted`, `C92_sell_amount_refuted`. OfferSpec.v defines the relation between the books. The three exceptions are theorems ending in _refuted, each with a history.
* **C93 How much of a trade each resting order gets.** The fills are the first units of the list of ids and sizes that are met (from C89 and C92); induction on that list gives each order's share. For the histories: each fill at the price is of the order itself or of one ahead of it, as an order ahead of a filled one is gone (C71); induction on the steps.. *Theorems:* `C93_share`, `C93_waiting`, `C93_served`, `C93_limited_sell_refuted`. C93_waiting and C93_served strengthen C71_line and C71_turn: the order's own fills are allowed.
* **C94 An order is the same as taking first and posting the rest afterwards.** On the exchange of C72: matching does not look at post_allowed; it ends with an acceptable order in front, or with its match limit used up, or free to post; a post-only order sees which.. *Theorems:* `C94_take_then_post`, `C94_limit_used`, `C94_taking_accepted`. TakeSpec.v defines the two parts of an order.
* **C95 Orders that only take can be put in any order across the two sides.** On the exchange of C72: an order that does not post reads and changes the other side only, and the clock stands still; the sequence of one side is run by itself, and both runs together fit in the event queue whatever the interleaving.. *Theorems:* `C95_any_interleaving`, `C95_post_then_take`, `C95_take_then_post_refuted`. InterleaveSpec.v defines the part of a log that is about one side.
* **C96 Waiting gets no better price while nobody joins the other side.** From C39 the book is the replay of the log, and without posted orders a replay only removes orders and makes them smaller; then C92.. *Theorems:* `C96_shrinks`, `C96_price`, `C96_quote`, `C96_amount`, `C96_going_second`, `C96_newcomer_refuted`. WaitSpec.v says what it means that nobody joins a side in a stretch of the log.
* **C97 A better place or price never costs a resting order trades.** From C93 the order gets what is left of the trade after those in front; from C89 what is traded is the largest amount that limit, ladder and quote units allow (for sellers: the new closed form with withdrawn orders), and with fewer orders in front that reaches at least as far.. *Theorems:* `C97_better_place`, `C97_staying`, `C97_limited_sell_refuted`. FrontSpec.v says what a new order sees of a resting order and when one is as attractive as another.
* **C98 How instructions move the best prices.** From C13 (each event is about the best order at that moment), C18, C26 and C38 for one instruction; by induction over the log for sequences; from C71 and C11 for two trades (an order with a better price that was already there would have had to go first).. *Theorems:* `C98_new_order`, `C98_trades_between`, `C98_trades_in_order`, `C98_nobody_joins`, `C98_nothing_taken`, `C98_better_is_newer`. best_price and better_price are those of C46 and C13; MoveSpec.v says which instructions take nothing from a side.
* **C99 Every order and every base unit is accounted for.** Each instruction by C16, C18, C29 and C31 (the weighted sum of a side changes by what is posted, traded, given back and cancelled), then induction over the log; the ids by counting, for each posted id, the three ends of C40.. *Theorems:* `C99_every_order`, `C99_leaves_once`, `C99_volume`, `C99_ordered`, `C99_level`, `C99_turnover`. All sums are over the log: instructions, their answers and the events they emitted (VolumeSpec.v).
* **C100 A client can load a side of the book at any moment and follow it from there.** Induction over the later log with the one-step replay of C39; a crossing pair cannot rest together (C19), so one is gone and the other is new.. *Theorems:* `C100_follow`, `C100_crossed_means`, `C100_quiet`, `C100_torn_refuted`, `C100_twice_refuted`. C100_torn_refuted and C100_twice_refuted are concrete histories showing that the two restrictions are needed.

Every property is expressed in the model; none is marked not applicable. Two things a
property might be expected to say and does not: nothing is proved about compute units (C85 bounds the
number of loop turns, tree nodes and events, not the price of each) or heap use on chain, and nothing about who may sign (the program checks no signature; C36
and C52 state what is checked).

## 4. What the development found

Behaviour of the code that the theorems record (each has a theorem or example):

1. Cancelling an id that is no longer resting can panic instead of returning
   OrderNotFound: exactly when the tree holds one order and the id equals the stale key in
   slot 0 (C05, C30). Only ids that were posted before can do it.
2. The Rust builder `mass_cancel_orders` writes the tag of CloseMarket: the instruction it
   builds always fails (C45).
3. `round_price` for asks overflows near 2^64: panic in debug, wrap in release (C37).
4. A crossing post-only order is answered Ok with nothing posted; `match_limit = 0` never
   posts (C22, C24).
5. One resting bid can be filled twice by one ask (rounding), so queue room for two events
   per order does not suffice (C28).
6. `create_market` checks neither slab sizes nor that accounts are zeroed, nor the owner of
   the market account; `close_market` checks the market's owner only (C35, C36). The
   entrypoint does not check the register account, so a register inside a market corrupts
   it (C33, C52: `_refuted` theorems).
7. The JavaScript client: `createMarket` and `newOrder` build instructions the program
   refuses; `parseFill` starts at slot 0 whatever the head; a limit of 0 means no limit;
   `peekAt` does not check the count; `EventOut.delete` reads a padding byte;
   `parseEventQueueHeader` throws unless given exactly the header; the last account of each
   instruction is taken as the register, so `closeMarket` pays the authority (C49, C50, C53).
8. `ORDER_SUMMARY_SIZE` is 41 while a summary with a posted id takes 42 bytes with its
   Option byte (C43).
9. A seller who raises max_quote_qty can sell much less (C61_ask_quote_refuted): amounts
   are filled price by price, and a bid whose remainder falls below the minimum size is
   removed, which opens the next price to the smaller budget only.
10. `find_l2_depth` of `js/wasm` stops as soon as the last requested level has its first
   order, so the size of that level is too small when several orders share its price
   (C65_last_level_refuted); and `js/wasm` refuses every account of the present program,
   whose tags are not among the five it knows (C65_current_accounts_refused).
11. The summary of a mass cancellation adds the base units of both sides, so a caller
   cannot tell from it alone what to refund when ids of both sides are cancelled (C67).
12. Off chain, where u128 is aligned on 16 bytes (recent compilers on x86-64, aarch64), a
   slab of even capacity cannot be opened at a 16-byte aligned address: the inner nodes
   start at 40 + 24 n and the library panics (C68_off_chain_slab).
13. The client loads bids and asks with two fetches; when the book moves in between they
   can look crossed (C69_torn_refuted). `retrieve` does not check the account's tag
   (C69_unchecked_refuted).
14. The unit test `market_cast` (market_state.rs:59-65) expects InvalidAccountData from
   `from_buffer`, which returns AccountTagMismatch: the test fails on the pinned sources
   (`RepoTests.v`, market_cast_fails). `program/tests/deep_ob.rs` and `js/src/tests` use an
   older interface.
15. AoError's SlabOutOfSpace never reaches a client: a full side evicts or posts nothing
   (C26, C73_only).
16. No instruction checks a signature, although the documentation of the instructions and
   of the client names a caller authority that must sign: with the program deployed on its
   own, anybody can cancel anybody's orders and close an empty market in favour of any
   account (C75). The entrypoint calls itself a test program; programs built on the library
   own the market accounts and have to check themselves.
17. The comment on `match_limit` (new_order.rs:39-42) says a caller can detect a partial
   fill from the order summary. It can see that less than asked was dealt, but not that the
   match limit was the reason: `C76_summary_tells_refuted` shows one request with one
   summary on two markets, cut short on one and not on the other. Sending the rest again
   is safe either way when it was cut short (C76_continue).
18. The client's field `orderCapacity` (slab.ts:175) is one less than the number of orders
    that fit: the computation leaves out the leaf that is accounted for separately
    (`C49_order_capacity_refuted`). Nothing in the client uses the field.
19. A remainder below the minimum size is removed from the book before its part of the
    price is rounded. Cutting an order so that it leaves such remainders therefore saves up
    to one quote unit for each of them (`C86_never_pays_refuted`), and never more (C86).
    A sell order that runs into its own quote limit can trade with one buy order in several
    pieces, each rounded down, and get less than the same quantity sold without that limit
    (`C86_limited_sell_refuted`: 4 instead of 5 quote units for 3 units at 1.75).
20. The same removal can make a sell order that is limited in quote units trade at worse
    prices than it needs to: its last piece at the best price leaves a remainder below the
    minimum size, which is removed from the book, and what is left of the quote limit is
    filled from the next buy order (`C87_limited_sell_refuted`: 4 units for an exact value
    of 5.5, although 4 units were wanted at 1.75).
21. A sell order that would trade for zero quote units stops matching and counts as
    crossed. A buy order whose remaining quantity is worth less than one quote unit
    therefore stops all sales at or below its price: nobody can sell to it, to anything
    behind it, or post below it, until it is cancelled or evicted (C88_blocked,
    C88_until_removed). It costs one quote unit to place (C88_one_unit), and an ordinary
    order can become one by partial fills. `create_market` accepts parameters that allow
    it; min_base_order_size * tick_size >= 2^32 excludes it (C88_sound_market).
22. The documentation says that with CancelProvide matching essentially bypasses own
    orders. Each withdrawal counts against the match limit, so the order can trade less
    than if the own orders had been cancelled first (C91_same_limit_refuted).
23. More orders on the other side can hurt a taker a little: one more fill rounds once
    more (C92_exact_quote_refuted), and with a small match limit an order in front that is
    smaller than the next one reduces what is traded (C92_match_limit_refuted).
24. A sell order limited in quote units does not always exhaust a resting order before it
    goes on to the next: what the rounding leaves of its quote limit can pay for units of
    the order behind, once the rest of the first has been removed as too small
    (`C93_limited_sell_refuted`).

## 5. Testing the theorems against wrong programs

`seeded/run.py` takes a list of edits, applies each to a scratch copy, rebuilds, and
reports which proofs fail and which property theorems depend on them (a proof that fails
is replaced there, in the scratch copy only, so that everything downstream is still
checked). `seeded/LOG.jsonl` has one line per edit. Edits of the matching
engine are made in the program and in the engine it refines alike (otherwise the
refinement proof fails first and shows nothing about the properties).

A proof can stop working although the statement is still true, so a second tool,
`seeded/falsify.py` with `seeded/falsify.txt`, ignores proofs: it transcribes the conclusions
of the market, slab and queue theorems as boolean functions and evaluates them on
pseudo-random runs of the edited program. A theorem it names is false of the wrong
program. Run on the unedited program it names nothing. Where the log says "statement
false on a run", the list comes from this tool. It led to C31_failure: a mass cancel that
panicked on a missing order was not noticed before. It also runs the exchange of `ExchangeSpec.v`
beside the edited program and compares answers and states after every request (C72).

## 6. Trusted base

* The Coq 8.16.1 kernel; `vcheck` also runs `coqchk`. `vm_compute` is used in examples,
  refutations and a few closed side conditions.
* Libraries: the Coq standard library and std++. No axioms of either are used by our
  theorems: `Print Assumptions` of every theorem in `MANIFEST.json` prints "Closed under
  the global context". (`coqchk` lists seven constants of the standard library's
  `Coq.ssr.ssrunder` module, loaded by std++ and used by nothing here.)
* No axioms, admitted proofs, unchecked flags, functors or plugins of our own.
* The translation by hand from Rust and TypeScript to Gallina, and the modelling decisions
  of section 2. In particular: `fp_math`, Borsh, bytemuck, num-derive and the Solana account model,
  rent and rollback are models of external code.
* The specification files (`*Spec.v`) and the statements in `Props*.v`.

## 7. What is modelled and what is not

Modelled, function by function: all of `program/src` except the items below; all of
`js/src` except the items below.

Not modelled:

* `program/src/utils.rs` `invariant` (unused in the program); `lib.rs` (declarations, the
  test of the sizes of structs is C41/C42); `error.rs` messages and `processor.rs` /
  `entrypoint.rs` logging (`msg!`).
* `critbit.rs` `Node`'s `Debug`-style helpers and the tests; of the test-only code
  `check_invariants` is modelled (`Check.v`) and `traverse` (it defines `resting`).
* The loader that places account data in memory (C68 assumes multiples of 8), compute
  limits (C85 bounds a count of steps), heap limits, `RefCell` borrow conflicts other than the ones that duplicate
  accounts cause.
* `program/benches`, `js/src/tests`; of `program/tests`, `functional.rs` is replayed in
  `RepoTests.v`, and `deep_ob.rs` is not (it is written against an older interface:
  `SlabRef`, `EventQueueHeader::initialize`, callback information as a `Vec`).
* `js/src`: the RPC connection itself (a fetch returns the account of some ledger).  The
  `getL2Depth` of `slab.ts` that calls the WebAssembly crate is commented out in the
  repository.  Where the client divides, its numbers are doubles (`js_round`,
  without overflow and subnormal numbers); elsewhere they are integers.
* `js/wasm/src/critbit.rs`: the `Display`/`Debug` derivations; every function is modelled.
