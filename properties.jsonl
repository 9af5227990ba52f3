{"id": "C01", "title": "An order slab behaves as a finite map from order ids to orders", "statement": "Starting from an empty (zeroed) slab, after any sequence of leaf insertions, callback-info writes and removals, the orders the slab reports are exactly those of a finite map on which the same operations were performed: inserting a fresh id adds exactly that order, inserting an existing id replaces it and returns the old order, removing a present id removes exactly it and returns its id, quantity and callback info, and every other order (id, quantity, callback info) is untouched. The reported order count always equals the number of orders.", "quantifier": "every sequence of insert/remove operations, every 128-bit id, every quantity and callback info, every slab capacity", "why_tests_cant": "The crit-bit tree lives in two arrays with two intrusive free lists; corruption depends on the bit patterns of all keys and on the whole allocation history, which randomized tests only sample.", "anchors": ["program/src/state/critbit.rs:Slab::insert_leaf", "program/src/state/critbit.rs:Slab::remove_by_key", "program/src/state/critbit.rs:Slab::allocate_leaf", "program/src/state/critbit.rs:Slab::free_leaf", "program/src/state/critbit.rs:Slab::allocate_inner_node", "program/src/state/critbit.rs:Slab::free_inner_node"]}
{"id": "C02", "title": "find_min and find_max return the extreme orders", "statement": "On every reachable slab, find_min (find_max) returns None exactly when the slab is empty, and otherwise a handle whose leaf holds the smallest (largest) order id of all the slab's orders.", "quantifier": "every reachable slab", "why_tests_cant": "Requires the order invariant of the tree for every key set and history.", "anchors": ["program/src/state/critbit.rs:Slab::find_min", "program/src/state/critbit.rs:Slab::find_max", "program/src/state/critbit.rs:Slab::find_min_max"]}
{"id": "C03", "title": "Slab iteration is complete, duplicate free and sorted", "statement": "On every reachable slab the ascending iterator yields every order exactly once in strictly increasing order id (hence price) order, and the descending iterator yields the reverse sequence.", "quantifier": "every reachable slab, both directions", "why_tests_cant": "Completeness over all tree shapes cannot be sampled.", "anchors": ["program/src/state/critbit.rs:Slab::into_iter", "program/src/state/critbit.rs:SlabIterator::next"]}
{"id": "C04", "title": "Slab capacity is exact and never leaks", "statement": "On every reachable slab built over n leaf slots, inserting a fresh id succeeds if and only if fewer than n orders are present; otherwise it returns SlabOutOfSpace and changes nothing. It never panics (the inner-node allocation after a successful leaf allocation cannot fail). Slots released by removal are always reusable.", "quantifier": "every history of insertions and removals, every capacity n >= 1", "why_tests_cant": "A leak shows up only after particular long histories; a bound on free-list behaviour needs induction.", "anchors": ["program/src/state/critbit.rs:Slab::insert_leaf", "program/src/state/critbit.rs:Slab::allocate_leaf", "program/src/state/critbit.rs:Slab::allocate_inner_node"]}
{"id": "C05", "title": "Removing an absent order reports absence", "statement": "remove_by_key on an id that is not in the slab returns None and leaves the slab unchanged. (False of the code as it stands in one case: when the slab holds exactly one order, stored at a non-zero handle, and the stale key left in slot 0 equals the requested id, the call panics with an out-of-bounds index. The exact condition is stated and both sides proved.)", "quantifier": "every reachable slab, every 128-bit id", "why_tests_cant": "The failing case needs a particular history (two posts, cancel the first, cancel it again).", "anchors": ["program/src/state/critbit.rs:Slab::remove_by_key"]}
{"id": "C06", "title": "Slab walks terminate within 129 node visits", "statement": "On every reachable slab of any capacity, every descent performed by insertion, removal, key lookup, minimum and maximum search visits at most 128 inner nodes and one leaf.", "quantifier": "every reachable slab, every search key", "why_tests_cant": "Worst-case depth depends on adversarial key sets.", "anchors": ["program/src/state/critbit.rs:Slab::insert_leaf", "program/src/state/critbit.rs:Slab::remove_by_key", "program/src/state/critbit.rs:Slab::find_min_max", "program/src/state/critbit.rs:Slab::find_by_key"]}
{"id": "C07", "title": "find_by_key is exact", "statement": "On every reachable slab find_by_key returns a handle iff an order with that id is present, and the handle designates that order.", "quantifier": "every reachable slab, every 128-bit key", "why_tests_cant": "Universal over keys and histories.", "anchors": ["program/src/state/critbit.rs:Slab::find_by_key", "program/src/state/critbit.rs:InnerNode::walk_down"]}
{"id": "C08", "title": "The event queue is a FIFO", "statement": "From any initialized queue, for every sequence of pushes and pops, iterating the queue yields exactly the pushed and not yet popped events in push order; pop_n(n) drops the min(n, length) oldest events; peek_at(i) is the i-th pending event or None when i >= length; len and is_empty agree. Wrap-around of the ring buffer is invisible.", "quantifier": "every sequence of push/pop operations, every capacity, every event content", "why_tests_cant": "Wrap-around positions x histories are unbounded.", "anchors": ["program/src/state/event_queue.rs:EventQueue::push_back", "program/src/state/event_queue.rs:EventQueue::pop_n", "program/src/state/event_queue.rs:EventQueue::peek_at", "program/src/state/event_queue.rs:QueueIterator::next"]}
{"id": "C09", "title": "A full event queue refuses events without damage", "statement": "push_back fails exactly when the number of pending events equals the capacity; then no pending event, count or sequence number changes.", "quantifier": "every reachable queue", "why_tests_cant": "Boundary at every wrap-around position.", "anchors": ["program/src/state/event_queue.rs:EventQueue::push_back", "program/src/state/event_queue.rs:EventQueue::full"]}
{"id": "C10", "title": "Events are read back exactly as written", "statement": "A Fill event pushed with maker and taker callback infos is read back as a Fill with identical side, sizes, maker order id and callback infos; an Out event (stored through the reinterpretation of its bytes as a generic event) is read back as an Out with identical side, order id, base size and callback info. Stale data in a reused slot never shows.", "quantifier": "every event content, every slot, every previous slot content", "why_tests_cant": "Universal over 40-byte contents and slot reuse.", "anchors": ["program/src/state/event_queue.rs:Event::to_generic", "program/src/state/event_queue.rs:EventQueue::get_event", "program/src/state/event_queue.rs:FillEvent", "program/src/state/event_queue.rs:OutEvent"]}
{"id": "C11", "title": "Order ids are unique for the whole life of a market", "statement": "Any two orders ever posted on a market (on either side) have different order ids, and an id never reappears after its order left the book.", "quantifier": "every history of fewer than 2^63 instructions", "why_tests_cant": "Requires reasoning over the complete history.", "anchors": ["program/src/state/event_queue.rs:EventQueue::gen_order_id", "program/src/state/event_queue.rs:EventQueue::gen_seq_num", "program/src/state/orderbook.rs:OrderBookState::new_order"]}
{"id": "C12", "title": "An order id encodes its price and its side", "statement": "For every order ever posted, the price decoded from its id is the limit price it was posted with and the side decoded from its id is the side it was posted on; every resting order is found on the side its id says.", "quantifier": "every price, side and sequence number below 2^63; every history of fewer than 2^63 instructions", "why_tests_cant": "Bit-level encoding over the whole 64-bit range.", "anchors": ["program/src/state/event_queue.rs:EventQueue::gen_order_id", "program/src/state/critbit.rs:LeafNode::price_from_key", "program/src/state.rs:get_side_from_order_id"]}
{"id": "C13", "title": "Price-time priority", "statement": "Every order matched (or cancelled through self-trade) by a new order was, at that moment, the best opposite order: no opposite order with a better price, and none with the same price posted earlier, was in the book. Consequently every opposite order left untouched is behind all orders that were matched.", "quantifier": "every reachable market, every new order", "why_tests_cant": "Needs the tree order, the id encoding and the loop invariant for all books.", "anchors": ["program/src/state/orderbook.rs:OrderBookState::new_order", "program/src/state/orderbook.rs:OrderBookState::find_bbo"]}
{"id": "C14", "title": "Limit price is respected", "statement": "Every fill produced by a bid is at a maker price at most its limit price; every fill produced by an ask is at a maker price at least its limit price.", "quantifier": "every reachable market, every new order", "why_tests_cant": "For all books and orders.", "anchors": ["program/src/state/orderbook.rs:OrderBookState::new_order"]}
{"id": "C15", "title": "Quantity limits are respected", "statement": "The order summary of a new order never exceeds its limits: total_base_qty <= max_base_qty, total_quote_qty <= max_quote_qty, and total_base_qty_posted <= total_base_qty.", "quantifier": "every reachable market, every u64 quantities and prices", "why_tests_cant": "Fixed-point rounding over all 64-bit values.", "anchors": ["program/src/state/orderbook.rs:OrderBookState::new_order"]}
{"id": "C16", "title": "The order summary agrees with the events and the posted order", "statement": "total_base_qty equals the sum of the base sizes of the fills emitted by this instruction plus total_base_qty_posted; total_quote_qty equals the sum of the quote sizes of those fills plus the quote value of the posted quantity at the limit price (rounded up for a bid, down for an ask); when nothing is posted total_base_qty_posted is 0.", "quantifier": "every reachable market, every new order", "why_tests_cant": "Sum over unboundedly many fills.", "anchors": ["program/src/state/orderbook.rs:OrderBookState::new_order", "program/src/state/orderbook.rs:OrderSummary"]}
{"id": "C17", "title": "Fill prices are exact up to one unit, in the maker's favour", "statement": "Each fill has base size > 0, quote size > 0 and its quote size is base*price/2^32 rounded up when the taker is a bid and rounded down when the taker is an ask, with the maker order's own price.", "quantifier": "every reachable market, every new order", "why_tests_cant": "Rounding over all 64-bit values.", "anchors": ["program/src/state/orderbook.rs:OrderBookState::new_order", "bonfida-utils:fp_math (external)"]}
{"id": "C18", "title": "Maker quantities are conserved by matching", "statement": "For every opposite order, its quantity before a new order equals its quantity after (0 if it left the book) plus the base sizes of its fills plus the base size of its Out event, if any; an order not mentioned by any event is unchanged (quantity and callback info).", "quantifier": "every reachable market, every new order", "why_tests_cant": "Over all books and any number of matches.", "anchors": ["program/src/state/orderbook.rs:OrderBookState::new_order"]}
{"id": "C19", "title": "The book is never crossed", "statement": "In every reachable market every resting bid price is strictly below every resting ask price.", "quantifier": "every history of fewer than 2^63 instructions", "why_tests_cant": "Invariant over all histories.", "anchors": ["program/src/state/orderbook.rs:OrderBookState::new_order", "program/src/state/orderbook.rs:OrderBookState::get_spread"]}
{"id": "C20", "title": "No dust orders", "statement": "In every reachable market every resting order has a quantity of at least min_base_order_size (hence positive).", "quantifier": "every history", "why_tests_cant": "Invariant over all histories, including partial fills.", "anchors": ["program/src/state/orderbook.rs:OrderBookState::new_order", "program/src/processor/create_market.rs:process"]}
{"id": "C21", "title": "Resting prices are positive multiples of the tick size", "statement": "In every reachable market every resting order's price is a positive multiple of the market's tick size; new_order rejects any limit price that is not a multiple of the tick (InvalidLimitPrice), and rejects prices below one tick when posting is allowed.", "quantifier": "every history", "why_tests_cant": "Invariant over all histories.", "anchors": ["program/src/processor/new_order.rs:process"]}
{"id": "C22", "title": "post_only orders never trade", "statement": "A new order with post_only set never emits an event about an opposite order, never changes the opposite side of the book, and is posted only if it does not cross the spread. (The documentation says that a crossing post_only order fails: the code instead returns success with nothing posted; stated and proved as it is.)", "quantifier": "every reachable market, every post_only order", "why_tests_cant": "All books.", "anchors": ["program/src/state/orderbook.rs:OrderBookState::new_order", "program/src/processor/new_order.rs:Params::post_only"]}
{"id": "C23", "title": "Orders that may not post leave the own side untouched", "statement": "A new order with post_allowed = false never changes its own side of the book and never returns a posted order id.", "quantifier": "every reachable market", "why_tests_cant": "All books.", "anchors": ["program/src/state/orderbook.rs:OrderBookState::new_order", "program/src/processor/new_order.rs:Params::post_allowed"]}
{"id": "C24", "title": "match_limit bounds the work", "statement": "A new order matches or cancels at most match_limit opposite orders, emits at most 2*match_limit + 1 events, and with match_limit = 0 neither matches nor posts anything.", "quantifier": "every reachable market, every match_limit", "why_tests_cant": "Unbounded match_limit and book sizes.", "anchors": ["program/src/state/orderbook.rs:OrderBookState::new_order", "program/src/processor/new_order.rs:Params::match_limit"]}
{"id": "C25", "title": "Self-trade protection", "statement": "With CancelProvide or AbortTransaction no emitted fill has the same callback id on the maker and taker sides. With AbortTransaction the instruction fails with WouldSelfTrade, without effect, if an own order would be matched. With CancelProvide own orders that would be matched are removed from the book with an Out event carrying their full remaining quantity.  With DecrementTake matching ignores identities.", "quantifier": "every reachable market, every callback-id equality", "why_tests_cant": "All books and orders.", "anchors": ["program/src/state/orderbook.rs:OrderBookState::new_order", "program/src/state.rs:SelfTradeBehavior"]}
{"id": "C26", "title": "Eviction from a full side", "statement": "When the own side is full, a new order is posted only by evicting the least aggressive resting order of that side (worst price, then latest), only if that order's price is strictly worse than the new limit price, and the eviction emits an Out event with the evicted order's remaining quantity and callback info; otherwise nothing is posted and the side is unchanged. When the side is not full nothing is evicted. An order that has traded is never kept out by a full side: whenever what is left of it may be posted at all, it evicts.", "quantifier": "every reachable market with a full side", "why_tests_cant": "All full books.", "anchors": ["program/src/state/orderbook.rs:OrderBookState::new_order"]}
{"id": "C27", "title": "new_order never fails numerically and never panics", "statement": "On every reachable market new_order (through the processor) never panics, never overflows or underflows any machine integer and never returns NumericalOverflow: it returns a summary, or InvalidLimitPrice, WouldSelfTrade or EventQueueFull.", "quantifier": "every history of fewer than 2^63 instructions, every u64 parameter value", "why_tests_cant": "64-bit corner cases of fixed-point arithmetic over every book.", "anchors": ["program/src/state/orderbook.rs:OrderBookState::new_order", "bonfida-utils:fp_math (external)"]}
{"id": "C28", "title": "Room in the event queue is enough for success", "statement": "If the event queue has at least 2*match_limit + 1 free slots, or at least 3*(number of opposite orders) + 1, new_order does not fail with EventQueueFull. When it does fail, no account changes. (Two slots per opposite order plus one are not enough: an ask can fill the same bid twice because quote amounts are rounded down; a witness is given.)", "quantifier": "every reachable market", "why_tests_cant": "All books.", "anchors": ["program/src/state/orderbook.rs:OrderBookState::new_order", "program/src/state/event_queue.rs:EventQueue::push_back"]}
{"id": "C29", "title": "Cancel removes exactly one order and reports what was left", "statement": "Cancelling a resting order succeeds, removes exactly that order, leaves every other order, the event queue and the sequence number untouched, and returns total_base_qty equal to its remaining quantity and total_quote_qty equal to quantity*price/2^32 rounded down. It never fails with NumericalOverflow.", "quantifier": "every reachable market, every resting order", "why_tests_cant": "All books.", "anchors": ["program/src/processor/cancel_order.rs:process", "program/src/state/critbit.rs:Slab::remove_by_key"]}
{"id": "C30", "title": "Cancelling an order that is not in the book fails without effect", "statement": "Cancelling any id that is not resting fails and changes nothing; the failure is OrderNotFound except in the stale-slot situation of C05 where the program panics. That panic needs an id that was posted before: an id that was never posted always gives OrderNotFound.", "quantifier": "every reachable market, every history leading to it, every 128-bit id", "why_tests_cant": "All ids and histories.", "anchors": ["program/src/processor/cancel_order.rs:process"]}
{"id": "C31", "title": "Mass cancel is an all-or-nothing sequence of cancels", "statement": "mass_cancel_orders on a list of ids either removes exactly all of them (they must be distinct and resting), with base and quote totals equal to the sums of the individual cancellation summaries, or fails and changes nothing.", "quantifier": "every reachable market, every list of ids", "why_tests_cant": "Unbounded lists.", "anchors": ["program/src/processor/mass_cancel_orders.rs:process"]}
{"id": "C32", "title": "consume_events pops exactly the oldest events", "statement": "consume_events(n) removes the min(n, pending) oldest events and changes nothing else (books, sequence number, other events).", "quantifier": "every reachable market, every u64 n", "why_tests_cant": "All ring positions.", "anchors": ["program/src/processor/consume_events.rs:process", "program/src/state/event_queue.rs:EventQueue::pop_n"]}
{"id": "C33", "title": "A market closes only when empty and stays closed", "statement": "close_market succeeds only when both sides are empty and no event is pending. After it succeeded, every further instruction on these accounts fails, including create_market, and their contents stay as they are. (This ends when the runtime removes an emptied account or the surrounding program overwrites it; and one case is false of the code as it stands: a transaction that names an account of the closed market as register, since the register is written without a check, can reset its tag, after which the market can be created again; a witness is given.)", "quantifier": "every reachable market, every later instruction sequence", "why_tests_cant": "All later histories.", "anchors": ["program/src/processor/close_market.rs:process", "program/src/state/market_state.rs:MarketState::from_buffer"]}
{"id": "C34", "title": "Closing moves all lamports to the target and preserves the total", "statement": "A successful close_market leaves zero lamports in the market, event queue, bids and asks accounts and adds exactly their sum to the target account; all other balances are unchanged.", "quantifier": "every ledger", "why_tests_cant": "All balances.", "anchors": ["program/src/processor/close_market.rs:process"]}
{"id": "C35", "title": "Markets are initialized once and with sound parameters", "statement": "create_market succeeds only with non-zero min_base_order_size and tick_size, with an event queue account of a valid size holding at least 5 events, on four distinct accounts all tagged uninitialized, the queue and books owned by the program; afterwards the market records exactly the given accounts and parameters, the books and queue are empty, and it cannot be created again.", "quantifier": "every parameter values, account sizes and ledgers", "why_tests_cant": "All sizes and states.", "anchors": ["program/src/processor/create_market.rs:process", "program/src/state/event_queue.rs:EventQueue::check_buffer_size", "program/src/state/critbit.rs:Slab::initialize"]}
{"id": "C36", "title": "Instructions only touch the accounts recorded in the market", "statement": "A successful new_order, cancel_order, mass_cancel_orders, consume_events or close_market was given exactly the event queue, bids and asks accounts recorded by create_market and a market account owned by the program; no other account's data changes.", "quantifier": "every ledger, account list and instruction", "why_tests_cant": "All account substitutions.", "anchors": ["program/src/utils.rs:check_account_key", "program/src/utils.rs:check_account_owner", "program/src/processor/new_order.rs:check_accounts"]}
{"id": "C37", "title": "round_price rounds to the tick on the right side", "statement": "round_price returns a multiple of the tick; for a bid the largest multiple not above the price, for an ask the smallest multiple not below it; it is idempotent. (For an ask with price > 2^64 - tick the code overflows: the exact failure set is characterized.)", "quantifier": "every u64 price and tick", "why_tests_cant": "2^128 inputs.", "anchors": ["program/src/utils.rs:round_price"]}
{"id": "C38", "title": "A posted order is immediately and exactly in the book", "statement": "When the summary has a posted order id, the own side of the book contains exactly one more order than after any eviction: that id, with quantity total_base_qty_posted and the submitted callback info; when it has none, the own side is unchanged.", "quantifier": "every reachable market, every new order", "why_tests_cant": "All books.", "anchors": ["program/src/state/orderbook.rs:OrderBookState::new_order"]}
{"id": "C39", "title": "The event stream and summaries reconstruct the book", "statement": "For every history, replaying the summaries of successful new orders (posted orders), successful cancellations and the emitted events (fill: decrement the maker; out: delete the order) from the empty book yields exactly the current book. In particular an order leaves the book only by its own cancellation or together with exactly one Out event.", "quantifier": "every history of fewer than 2^63 instructions", "why_tests_cant": "Whole-history equality.", "anchors": ["program/src/state/orderbook.rs:OrderBookState::new_order", "program/src/state/event_queue.rs:EventQueue", "program/src/processor/cancel_order.rs"]}
{"id": "C40", "title": "Lifetime solvency of resting bids and asks", "statement": "Over the whole life of an order: the base sizes of its fills plus what remains (in the book, cancelled, or reported in its Out event) equals the quantity posted; for a bid the sum of the quote sizes of its fills plus the quote returned on cancellation never exceeds the quote amount accounted for when it was posted; for an ask the quote sizes of its fills are at least its filled base times its price.", "quantifier": "every history, every order", "why_tests_cant": "Whole-history sums with rounding.", "anchors": ["program/src/state/orderbook.rs:OrderBookState::new_order", "program/src/processor/cancel_order.rs"]}
{"id": "C41", "title": "Slab account layout", "statement": "An account of compute_allocation_size(n) bytes (n >= 1) gives a slab with exactly n leaf slots, n-1 inner nodes and n callback infos whose regions partition the buffer; conversely the views never overlap and stay in bounds. Writing a slab through the view and reading it back gives the same slab.", "quantifier": "every n and callback-info size, every content", "why_tests_cant": "All sizes and contents.", "anchors": ["program/src/state/critbit.rs:Slab::compute_allocation_size", "program/src/state/critbit.rs:Slab::from_buffer"]}
{"id": "C42", "title": "Event queue account layout", "statement": "An account accepted by check_buffer_size gives a queue with capacity >= 5 whose regions exactly partition the buffer; compute_allocation_size(n) is accepted iff n >= 5 and gives capacity n. Writing through the view and reading back gives the same queue.", "quantifier": "every n, callback-info size and content", "why_tests_cant": "All sizes and contents.", "anchors": ["program/src/state/event_queue.rs:EventQueue::compute_allocation_size", "program/src/state/event_queue.rs:EventQueue::check_buffer_size", "program/src/state/event_queue.rs:EventQueue::from_buffer"]}
{"id": "C43", "title": "The returned summary survives the register", "statement": "The bytes written to the register account by the entrypoint decode back to the same optional order summary whatever bytes follow; they take 1, 26 or 42 bytes; a register of ORDER_SUMMARY_SIZE (41) bytes is too small for a posted order.", "quantifier": "every summary, every previous register content", "why_tests_cant": "All contents.", "anchors": ["program/src/entrypoint.rs:process_instruction", "program/src/state/orderbook.rs:OrderSummary", "program/src/state/orderbook.rs:ORDER_SUMMARY_SIZE"]}
{"id": "C44", "title": "Instruction parameters survive serialization", "statement": "For each instruction the serialized parameters decode to the same parameters; trailing or missing bytes are rejected with InvalidInstructionData; the length the new_order parameters announce is the length of their encoding.", "quantifier": "every parameter value", "why_tests_cant": "All contents.", "anchors": ["program/src/processor.rs:process_instruction", "program/src/processor/new_order.rs:Params", "program/src/processor/mass_cancel_orders.rs:Params"]}
{"id": "C45", "title": "Instruction builders produce the instruction they name", "statement": "The data built by each public instruction builder is dispatched by the processor to the processor function of the same name. (False for mass_cancel_orders, which is built with the tag of close_market.) The accounts the program writes are marked writable, so what the program accepts the runtime accepts too; and the market account, which trading, cancelling and consuming only read, is not.", "quantifier": "every parameter value, and every choice of accounts", "why_tests_cant": "A universal statement over six builders; the refuted one has no test.", "anchors": ["program/src/instruction.rs:mass_cancel_orders", "program/src/processor.rs:process_instruction"]}
{"id": "C46", "title": "Best prices reported are the best prices", "statement": "get_spread, on an opened market or on its two slab accounts, returns the highest resting bid price and the lowest resting ask price (None for an empty side); accounts passed in the wrong order, or the same account twice, are refused.", "quantifier": "every reachable market", "why_tests_cant": "All books.", "anchors": ["program/src/state/orderbook.rs:OrderBookState::get_spread", "program/src/utils.rs:get_spread"]}
{"id": "C47", "title": "Matching is maximal", "statement": "If a new order without post_only stops before match_limit interactions, then either no opposite order crosses its limit, or its base quantity is used up, or its remaining quote buys no whole base unit at the best price, or that trade's quote amount would round to zero.", "quantifier": "every reachable market, every new order", "why_tests_cant": "All books and quantities.", "anchors": ["program/src/state/orderbook.rs:OrderBookState::new_order"]}
{"id": "C48", "title": "Failed instructions have no effect", "statement": "If an instruction fails or panics, no account changes (transaction rollback is the runtime's; the model makes it explicit). Without the rollback, a failing cancellation and an order refused for its price change nothing, consuming events never fails, and a failing mass cancellation has cancelled the ids named first and nothing else; a new order that fails while matching (queue full, self-trade abort) and a failing mass cancellation do leave changes, so they rely on the rollback.", "quantifier": "every instruction and reachable market", "why_tests_cant": "All error points.", "anchors": ["program/src/state/orderbook.rs:OrderBookState::new_order", "program/src/state/critbit.rs:Slab::insert_leaf"]}
{"id": "C49", "title": "The JavaScript client reads the same book", "statement": "On the bytes of the slab account of every reachable market, the client's deserialize succeeds and items, getMinMaxNodes, getNodeByKey and getL2DepthJS return the resting orders by increasing or decreasing id, the first orders, the order with the key or nothing, and the aggregated quantities of the first price levels. (For accounts of exactly the computed size; with extra bytes, which the program accepts, the client reads the wrong offsets: refuted with a witness; and the field orderCapacity is one less than the number of orders that fit: refuted.)", "quantifier": "every reachable slab, both directions, every depth", "why_tests_cant": "All books.", "anchors": ["js/src/slab.ts:Slab.items", "js/src/slab.ts:Slab.getNodeByKey", "js/src/slab.ts:Slab.getL2DepthJS", "js/src/slab.ts:Slab.getMinMaxNodes", "js/src/slab.ts:Slab.deserialize", "js/src/slab.ts:Slab.orderCapacity"]}
{"id": "C50", "title": "The JavaScript client reads the same events", "statement": "parse succeeds, peekAt(i) returns the i-th pending event for i < count, and parseFill returns the pending fill events. (parseFill ignores the head of the ring and is wrong after any pop, treats limit 0 as no limit, peekAt returns stale events beyond the count, and parseEventQueueHeader always throws on an account: refuted with witnesses; parseFill proved when head = 0.)", "quantifier": "every reachable event queue", "why_tests_cant": "All ring positions.", "anchors": ["js/src/event_queue.ts:EventQueue.peekAt", "js/src/event_queue.ts:EventQueue.parseFill"]}
{"id": "C51", "title": "Accounts on chain follow the market model", "statement": "From the moment a market is created on zeroed accounts until it is closed, whatever other instructions, transfers and writes happen in between, the bytes of its four accounts are those of the market obtained by applying the successful instructions that named it, in order, to an empty market; each of them answered what that market answers. All properties of order placement, matching, cancellation and event consumption therefore hold of the accounts.", "quantifier": "every ledger that can occur, every interleaving of instructions on any number of markets with transfers, account creations and deletions, every parameter value", "why_tests_cant": "It ranges over all interleavings and all byte contents.", "anchors": ["program/src/processor.rs:process_instruction", "program/src/processor/create_market.rs:process", "program/src/processor/new_order.rs:process", "program/src/processor/cancel_order.rs:process", "program/src/processor/consume_events.rs:process", "program/src/state/critbit.rs:Slab::from_buffer", "program/src/state/event_queue.rs:EventQueue::from_buffer"]}
{"id": "C52", "title": "Markets do not interfere", "statement": "Two live markets never share an account, and a successful instruction on one market leaves owner and data of the accounts of every other live market unchanged and does not debit them. (Holds for the processors. A transaction through the library's entrypoint can name an account of another market as register, which is overwritten without a check; refuted with a witness.)", "quantifier": "every ledger that can occur, every instruction and account list", "why_tests_cant": "All account lists, including aliased ones, and all reachable ledgers.", "anchors": ["program/src/processor/create_market.rs:process", "program/src/utils.rs:check_account_key", "program/src/entrypoint.rs:process_instruction"]}
{"id": "C53", "title": "The JavaScript client's market state and instructions", "statement": "The client reads from the market account the keys, minimum size and tick size that the program stored. The instructions it builds do what their name says. (The first holds. Cancel, mass cancel and consume instructions decode to the intended operation, but their last account is taken as the answer register: refuted for wallets and for read-only accounts. createMarket, newOrder and closeMarket can never succeed: refuted for all inputs. The client's account tags are stale.)", "quantifier": "every ledger, every account list, every parameter value", "why_tests_cant": "That an instruction can never succeed is a claim about all ledgers.", "anchors": ["js/src/market_state.ts:MarketState.deserialize", "js/src/raw_instructions.ts:newOrderInstruction", "js/src/raw_instructions.ts:cancelOrderInstruction", "js/src/raw_instructions.ts:closeMarketInstruction", "program/src/entrypoint.rs:process_instruction"]}
{"id": "C54", "title": "Every waiting event is well formed", "statement": "Every event waiting in the queue of a market has the tag byte of its kind (0 for a fill, 1 for an Out), a side byte of 0 for a bid or 1 for an ask, and zero padding, is about an order whose price is a positive multiple of the tick size and whose id says its side; and every fill has a taker on the opposite side, positive base and quote sizes, and the quote amount of its base size at the maker's price.", "quantifier": "every reachable market, every waiting event", "why_tests_cant": "All histories.", "anchors": ["program/src/state/event_queue.rs:FillEvent", "program/src/state/event_queue.rs:OutEvent", "program/src/state/orderbook.rs:OrderBookState::new_order"]}
{"id": "C55", "title": "Every market can be emptied and closed", "statement": "From every market that can be reached, cancelling all its orders, in whatever order, succeeds and each cancellation returns the order's whole remainder; consuming the waiting events then succeeds and leaves the book and the queue empty; and close_market then succeeds, disables the four accounts and moves all their lamports to the target. No history can lock a market up.", "quantifier": "every history of a market, every enumeration of its orders, every ledger that holds the market, every lamports target outside the market", "why_tests_cant": "A liveness claim about every reachable state: a test empties the markets it happened to build.", "anchors": ["program/src/processor/cancel_order.rs:process", "program/src/processor/consume_events.rs:process", "program/src/processor/close_market.rs:process"]}
{"id": "C56", "title": "Trading does not depend on when events are consumed", "statement": "Consuming events before an instruction does not change that instruction's answer, the events it emits or the book it leaves, unless the queue was too full for it. Two markets of the same configuration given the same trading instructions have the same answers, emitted events and books whenever their events are consumed, as long as neither answered EventQueueFull, and their waiting events differ only by how many were consumed.", "quantifier": "every pair of histories with the same trading instructions, every interleaving of ConsumeEvents", "why_tests_cant": "All schedules of the crank; the ring buffer's head and the reuse of its slots differ in each.", "anchors": ["program/src/processor/consume_events.rs:process", "program/src/state/event_queue.rs:EventQueue::push_back", "program/src/state/orderbook.rs:OrderBookState::new_order"]}
{"id": "C57", "title": "What a market answers depends only on what can be read from it", "statement": "Two markets of the same configuration that show the same orders, the same waiting events and the same sequence number answer every instruction alike, emit the same events, and again show the same afterwards, whatever their accounts look like inside (slot order, free lists, stale bytes). The one visible difference: an absent id may be refused by OrderNotFound in one and by the panic of C30 in the other.", "quantifier": "every pair of reachable markets with the same contents, every instruction", "why_tests_cant": "Relates pairs of arbitrary histories; internal layouts are unbounded in number.", "anchors": ["program/src/state/critbit.rs:Slab", "program/src/state/event_queue.rs:EventQueue", "program/src/processor/new_order.rs:process"]}
{"id": "C58", "title": "The slab's structural self-check never fails, and passing it means something", "statement": "check_invariants, the test-only function that walks a slab and asserts the tree's prefix lengths, critical bits, prefixes and node counts, passes on every slab that can arise from any sequence of operations, and on both slabs of every reachable market. Conversely, whatever is stored in a slab: if the check passes (and a lone order's slot lies inside the slab, which the check does not look at), then the slab reads as a list of orders sorted by id, without duplicates and as long as its header says: every search by id, the traversal, both iterations, the minimum and the maximum answer as that list would. The check ends on every slab, even a cyclic one.", "quantifier": "every slab reached by any operations, any capacity; every reachable market; every slab whose fields have their types, however it came about", "why_tests_cant": "The tests call it after randomly generated operations; here it is for all of them.", "anchors": ["program/src/state/critbit.rs:Slab::check_invariants"]}
{"id": "C59", "title": "The reported tree depth is the tree's depth, and it is bounded", "statement": "get_depth terminates on every slab and returns the number of nodes on the longest path from the root to an order (0 without orders). With n >= 1 orders the result d satisfies d <= 129, d <= n and n <= 2^(d-1), whatever the order ids.", "quantifier": "every history of slab operations, every reachable market and side", "why_tests_cant": "Depth depends on all ids present; the bound and the termination of the explicit stack need induction over every tree.", "anchors": ["program/src/state/critbit.rs:Slab::get_depth", "program/src/state/critbit.rs:Slab::insert_leaf"]}
{"id": "C60", "title": "Callback information is opaque to the order book", "statement": "Replace every callback info, in the accounts and in the requests, by another one such that the owner comparison (the id of the callback info) comes out the same for every pair. Then every instruction returns exactly the same result (error, panic or summary, order ids included), and the resting orders, the waiting and the emitted events are the same with only the callback infos replaced; this holds over whole histories, and also for the states a failing processor leaves before rollback. With DecrementTake orders only, even the comparison has no influence: results do not depend on callback infos at all. For the other self-trade behaviours it does matter.", "quantifier": "every pair of callback types, every mapping between them that respects the comparison, every market state (reachable or not), every instruction and history", "why_tests_cant": "Relates executions on arbitrary pairs of callback contents and types; a test compares a few byte strings.", "anchors": ["program/src/state/orderbook.rs:CallbackInfo", "program/src/state/orderbook.rs:OrderBookState::new_order", "program/src/state/critbit.rs:Slab::remove_by_key", "program/src/state/event_queue.rs:EventQueue::push_back"]}
{"id": "C61", "title": "Loosening a request only extends what it does", "statement": "On the same market, consider two new_order requests of the same trader and kind. If they differ only in that the first has a stricter limit price or a smaller match limit, then the events the first one emits about the orders it meets are a prefix of those the second emits; and if it does not post and its price is a valid tick, it is accepted whenever the second is. If the first asks for less base (everything else equal) it never trades more base, and it either trades all it asked for or its trades are a prefix of the other's. A bid that offers less base and less quote never buys more. The corresponding claim for asks and max_quote_qty is false: raising it by 1 can reduce the base sold. Whoever asks for more of everything, or of some things and no less of the others (base, quote, price, matches), never trades for less quote, buyer or seller, and never for less base either, except that a seller who raises max_quote_qty may sell less base.", "quantifier": "all reachable markets, all pairs of requests in the stated relation, every self-trade behaviour and callback comparison", "why_tests_cant": "The claim relates two executions on every reachable book; rounding, minimum-size removals and self-trade behaviours interact, and the refuted variant shows how a plausible monotonicity fails only for special amounts.", "anchors": ["program/src/state/orderbook.rs:OrderBookState::new_order", "program/src/processor/new_order.rs:process"]}
{"id": "C62", "title": "Posting and then cancelling leaves no trace", "statement": "If new_order posts an order and cancel_order is then called with the returned id, the cancellation succeeds, returns exactly the posted base quantity and its quote value rounded down, and undoes the posting alone: the order's own side is what the emitted events made of it (an eviction stays), the opposite side and the event queue are untouched. If the request neither traded nor evicted, the order book and the events are those from before the request, and the returned totals equal the announced ones, except that a bid's quote may be 1 less (its posting rounds up).", "quantifier": "all reachable markets, all requests that post an order", "why_tests_cant": "It must hold for every tree shape the insertion and removal can produce and every amount; the rounding asymmetry shows only for prices and quantities whose product is not a multiple of 2^32.", "anchors": ["program/src/state/orderbook.rs:OrderBookState::new_order", "program/src/processor/cancel_order.rs:process", "program/src/state/critbit.rs:Slab::insert_leaf", "program/src/state/critbit.rs:Slab::remove_by_key"]}
{"id": "C63", "title": "The order of two cancellations does not matter", "statement": "Cancelling two different ids, whether or not they are resting, gives each cancellation the same answer and leads to the same resting orders, pending events and next order id, whichever comes first. The order of the ids in one mass cancellation does not matter either: in any order it is accepted with the same totals and the same effect, or refused without effect.", "quantifier": "all reachable markets, all pairs of distinct 128-bit ids, present or absent, on either side", "why_tests_cant": "The two schedules leave different tree layouts and free lists; that no later observation depends on it must be proved for every tree shape.", "anchors": ["program/src/processor/cancel_order.rs:process", "program/src/state/critbit.rs:Slab::remove_by_key"]}
{"id": "C64", "title": "The client's createMarket prepares the right accounts", "statement": "The four accounts that the JavaScript createMarket transaction creates (event queue, bids, asks, market) have sizes, owners and balances with which the program's create_market succeeds, and the market so created is empty and holds exactly the order and event capacities asked for; only the payer is charged, exactly the four rents. The transaction as built nevertheless always fails, because its last instruction lacks an account, and then leaves no account behind and costs no rent.", "quantifier": "all capacities (orders >= 1, events >= 5) within Solana's account size limit, all callback info lengths >= 1, all keys, payers, market parameters and ledgers in which the new keys are unused", "why_tests_cant": "The client computes sizes with formulas independent of the program's; agreement for a few capacities does not show it for all, and a mismatch of a few bytes silently changes the capacity.", "anchors": ["js/src/bindings.ts:createMarket", "js/src/slab.ts:Slab.computeAllocationSize", "js/src/event_queue.ts:EventQueue.computeAllocationSize", "program/src/processor/create_market.rs:process"]}
{"id": "C65", "title": "What the WebAssembly reader returns", "statement": "On a well-formed slab account of the layout it is written for, find_min and find_max return the slots of the resting orders with the lowest and highest id (nothing on an empty book), and find_l2_depth returns the first depth price levels in price order, lowest or highest first, flattened as size, price, where every level before the last requested one has the total quantity of the orders at that price; none of them fails or loops. The last requested level is not a total: it holds the quantity of the first order read at that price only. On the bids and asks accounts of the present program every call fails.", "quantifier": "all accounts of the older layout holding any number of orders in any tree shape and slot placement, all depths below 2^27, both directions, all callback lengths and slot sizes; all markets of the present program for the refusal", "why_tests_cant": "The answer depends on the shape of the tree and on how orders share prices; the crate has no tests, and a truncated last level looks like a plausible size.", "anchors": ["js/wasm/src/lib.rs:find_min", "js/wasm/src/lib.rs:find_max", "js/wasm/src/lib.rs:find_l2_depth", "js/wasm/src/critbit.rs:Slab::find_l2_depth", "js/wasm/src/critbit.rs:Slab::get_node"]}
{"id": "C66", "title": "Every event is delivered exactly once, in order", "statement": "A caller that reads the first n events of the queue before each successful consume_events(n) sees every event the order book ever produced exactly once, in the order of production: the events handled so far followed by those still waiting are exactly the events produced so far, whatever other instructions (failed ones included) happen in between. One request for enough events hands over all that was produced.", "quantifier": "all histories of instructions of any length below 2^63, all batch sizes, all interleavings of producers and consumers, all queue capacities", "why_tests_cant": "Loss, duplication or reordering depends on how the ring buffer wraps and how production and consumption interleave over an unbounded history.", "anchors": ["program/src/state/event_queue.rs:EventQueue::push_back", "program/src/state/event_queue.rs:EventQueue::pop_n", "program/src/state/event_queue.rs:EventQueue::iter", "program/src/processor/consume_events.rs:process", "program/src/processor/new_order.rs:process"]}
{"id": "C67", "title": "A caller that follows summaries and events stays solvent", "statement": "A caller that takes tokens as the order summaries say, pays takers at once, pays makers and owners when it consumes fill and out events, and refunds cancellations as the summaries say, always holds exactly the base units of the resting asks and of the waiting events, and at least the quote units of the resting bids and of the waiting events; so it can always consume all events and refund all orders. Its quote surplus is at most one unit per rounded amount (posting, filling, removing or cancelling a bid), scaled down by the tick size, and is zero when prices are whole numbers. When book and queue are empty no base unit is left over or missing.", "quantifier": "all histories of instructions of any length below 2^63, all orders, prices, self-trade behaviors, evictions, dust removals, cancellations and consumption schedules", "why_tests_cant": "The rounding direction of each amount has to fit all others over every interleaving; a deficit of one unit shows only in particular combinations of partial fills, evictions and cancellations.", "anchors": ["program/src/state/orderbook.rs:OrderBookState::new_order", "program/src/state/orderbook.rs:OrderSummary", "program/src/state/event_queue.rs:FillEvent", "program/src/state/event_queue.rs:OutEvent", "program/src/processor/cancel_order.rs:process", "program/src/processor/mass_cancel_orders.rs:process", "program/src/processor/consume_events.rs:process"]}
{"id": "C68", "title": "Accounts open wherever the loader puts them; the off-chain build reads the same data", "statement": "On chain, where account data is at a multiple of 8 bytes and 128-bit integers need 8-byte alignment, opening a market, event queue or slab account never fails because of where it is in memory, whatever its content and length. Data elsewhere opens as no account. The build for other targets, which keeps order ids as two 64-bit words, reads the same ids, quantities and events from the same bytes and writes the same bytes, and two ids are equal exactly when their words are. Where 128-bit integers need 16-byte alignment, a slab of capacity n opens exactly at addresses that are 0 (n odd) or 8 (n even) modulo 16, and the library panics elsewhere: no address suits two consecutive capacities.", "quantifier": "all addresses, all account contents and lengths, all capacities, all callback info sizes and alignments up to 8, all order ids", "why_tests_cant": "Tests run on one target with buffers at the addresses the allocator happens to return; the casts must succeed for every capacity at every address the loader may use, and a failing combination shows only for particular capacities.", "anchors": ["program/src/state/critbit.rs:Slab::from_buffer", "program/src/state/critbit.rs:LeafNode::order_id", "program/src/state/event_queue.rs:EventQueue::from_buffer", "program/src/state/event_queue.rs:FillEvent", "program/src/state/market_state.rs:MarketState::from_buffer", "program/src/state/orderbook.rs:OrderBookState::new_order"]}
{"id": "C69", "title": "Loading a market through the client", "statement": "A client that retrieves a market and some time later loads its bids, its asks or its event queue gets, as long as the market was not closed in between, exactly what the instructions on that market up to the moment of loading lead to: the resting orders of the side with their callback infos in order and the waiting events oldest first, whatever else happened on the ledger. Both sides loaded from one state of the ledger never cross; loaded at two different moments they can. Once the market is closed, retrieving and loading throw. The client does not check that the account it retrieves is a market.", "quantifier": "all ledgers and their histories (any markets, calls, callers and outside writes), all moments of retrieving and loading, all capacities and callback info sizes", "why_tests_cant": "Fetches interleave with everything that happens on chain; that the addresses and sizes read at one moment still describe the accounts read later has to hold for every history in between.", "anchors": ["js/src/market_state.ts:MarketState.retrieve", "js/src/market_state.ts:MarketState.loadBidsSlab", "js/src/market_state.ts:MarketState.loadAsksSlab", "js/src/event_queue.ts:EventQueue.load", "js/src/slab.ts:Slab.deserialize"]}
{"id": "C70", "title": "The older program's slab, as the WebAssembly crate writes it", "statement": "On a well-formed slab account of the older layout: removing the id of a resting order returns that order and leaves exactly the others, in order, and its slot (with the slot of the inner node it needed) becomes free; removing any other id returns nothing, changes nothing and never fails; remove_min and remove_max remove the orders with the lowest and highest id; taking a slot hands out the slot released last, else the first slot never used, and fails without effect exactly when the account is full, and never touches an order; find_by_key finds exactly the resting ids; find_node_sequence lists the first orders from either end; the crate's own invariant check accepts the account; writing the header makes the account readable with the current orders. Changing the quantity of an order and writing it back where it was found changes that quantity and nothing else. No sequence of these operations fails or damages the account.", "quantifier": "all accounts of the older layout, any number of orders, tree shape, slot placement and free list; all ids, all nodes that fit a slot, all sequences of operations", "why_tests_cant": "The crate has no tests, and the structure after a removal depends on the tree shape, the slot placement and the history of the free list.", "anchors": ["js/wasm/src/critbit.rs:Slab::remove_by_key", "js/wasm/src/critbit.rs:Slab::remove_min", "js/wasm/src/critbit.rs:Slab::insert", "js/wasm/src/critbit.rs:Slab::remove", "js/wasm/src/critbit.rs:Slab::find_node_sequence", "js/wasm/src/critbit.rs:Slab::write_header", "js/wasm/src/critbit.rs:Slab::check_invariants", "js/wasm/src/critbit.rs:LeafNode::set_base_quantity"]}
{"id": "C71", "title": "A resting order keeps its place", "statement": "Between two moments at which an order rests, whatever instructions were processed: its owner information is unchanged and its size has not grown; every order ahead of it at the later moment either has a strictly better price or was already there at the earlier moment, at least as large. No order trades while an order that was ahead of it still rests. As long as nothing happens to an order, every trade against its side is with an order ahead of it, and the base quantity in front of it at its price falls at least by what trades at that price; so once more has traded at its price than was in front of it, the order has traded too, unless it was removed. When an order is pushed out of a full side, all orders that were behind it are already gone.", "quantifier": "all markets, all histories before and between the two moments (any mix of new orders, cancellations, mass cancellations, event consumption, failed instructions), all pairs of resting orders, both sides", "why_tests_cant": "It is a statement about arbitrary histories between two moments; a test follows one history.", "anchors": ["program/src/state/orderbook.rs:OrderBookState::new_order", "program/src/state/event_queue.rs:EventQueue::gen_order_id", "program/src/state/critbit.rs:Slab::find_min_max", "program/src/state/critbit.rs:Slab::insert_leaf"]}
{"id": "C72", "title": "The program is the exchange that its rules describe", "statement": "There is a short set of rules for an exchange: orders ranked by price and then by arrival, trading at the resting order's price from the best order on, rounding, limits, self-trade handling, minimum size, joining the book, pushing out the last order of a full side, cancellation, consumption of notices. Every request made to a market is answered exactly as these rules say (with the same ids, quantities and refusals) and leaves the orders, the waiting events and the counter that the rules lead to; so running the rules on all requests of a history from an empty exchange predicts every answer and everything that can be read from the market's accounts.", "quantifier": "all markets, all histories of requests of any kind, including refused ones; on the ledger all sequences of instructions on any accounts between which the market's own are found", "why_tests_cant": "It equates the program with a reference on every input and state; tests compare a few runs.", "anchors": ["program/src/state/orderbook.rs:OrderBookState::new_order", "program/src/processor.rs:Processor::process_instruction", "program/src/processor/cancel_order.rs:process", "program/src/processor/mass_cancel_orders.rs:process", "program/src/processor/consume_events.rs:process"]}
{"id": "C73", "title": "A refused instruction says why", "statement": "When an instruction is refused, the error code the client gets names the first thing that is wrong, in a fixed order: too few accounts, undecodable data, an account of another program, a market account with the wrong tag, an account that is not the one recorded in the market, and then what the rules of the exchange refuse (limit price off the tick, self-trade, no room for events, unknown id), a market that is still in use (closing), parameters or accounts that cannot become a market (creating). Each instruction has a short list of errors it can ever end with, whatever bytes the accounts hold, and different failures have different codes. In particular a full book is never reported as an error.", "quantifier": "all ledgers and all lists of accounts (for the order of the checks: market accounts of the right length), all instruction data, all histories of the market", "why_tests_cant": "The order of the checks and the completeness of the error list range over all combinations of wrong accounts and over all, even corrupted, account contents.", "anchors": ["program/src/error.rs:AoError", "program/src/processor.rs:Processor::process_instruction", "program/src/processor/new_order.rs:Accounts::perform_checks", "program/src/processor/new_order.rs:check_accounts", "program/src/processor/create_market.rs:process", "program/src/processor/close_market.rs:process", "program/src/state/market_state.rs:MarketState::from_buffer"]}
{"id": "C74", "title": "Transactions that do not share a writable account can run in any order", "statement": "A transaction (one or more instructions, executed in sequence, with the runtime's checks) has all its effects or none. Its answers, and what it leaves in the accounts it names, depend only on the accounts it names, and it changes only accounts that it names and marks writable. So two transactions, neither of which may write an account the other names, give the same answers and the same ledger in either order; and any two schedules of the same transactions that keep the order of conflicting ones give every transaction the same answers and end with the same ledger. Transactions built for two different markets never conflict unless they share a register account; transactions on one market always do.", "quantifier": "all ledgers (for the two markets: all that can occur), all transactions of any number of instructions with any accounts, flags and data, all schedules of any length and all their reorderings", "why_tests_cant": "All interleavings of all sets of transactions on all account contents.", "anchors": ["program/src/entrypoint.rs:process_instruction", "program/src/processor.rs:Processor::process_instruction", "program/src/processor/new_order.rs:process", "program/src/processor/consume_events.rs:process", "program/src/processor/close_market.rs:process", "program/src/instruction.rs:new_order"]}
{"id": "C75", "title": "Who may act on a market", "statement": "Documented: every instruction on a market must be signed by its caller authority. (False of the code: no signature is checked. In every ledger that can occur, an instruction signed by nobody does on any live market whatever its rules allow: it places orders, cancels anybody's resting order, drops pending events; and anybody can close an empty market and choose the account that receives its lamports. Refuted with a witness.) What does hold: the program never changes the data of an account owned by another program or takes lamports from it, and no instruction other than create_market succeeds on a market account owned by another program; so a market is protected exactly when the program that owns its accounts does its own checks.", "quantifier": "every ledger that can occur, every market, every instruction and every set of signers", "why_tests_cant": "Absence of an access check shows only against all callers; the protection by ownership ranges over all instructions and account lists.", "anchors": ["program/src/instruction.rs:AgnosticOrderbookInstruction", "program/src/entrypoint.rs:process_instruction", "program/src/processor/new_order.rs:Accounts::perform_checks", "program/src/processor/close_market.rs:process", "js/src/bindings.ts:createMarket"]}
{"id": "C76", "title": "An order cut short by its match limit can be continued", "statement": "When an order is accepted with match limit k1 and its limit may have cut it short (it dealt with k1 resting orders, or leaves an order within its price limit), sending right after it the remaining base and quote, computed from the summary, with match limit k2 has the same effect as the one order with match limit k1+k2: the same posted order id and size, totals that add up, the same book, the same events in the same order. If the second part is refused, the one order would have been refused for the same reason. The first part posted nothing. (The documentation says a caller can detect the partial fill from the summary: the summary shows that less than asked was dealt, not that the match limit was the reason. Refuted with two markets, one request and one summary.)", "quantifier": "every reachable market, every order, every pair of match limits", "why_tests_cant": "The two executions are compared for all books, all orders, all self-trade behaviours and all split points.", "anchors": ["program/src/processor/new_order.rs:Params::match_limit", "program/src/state/orderbook.rs:OrderBookState::new_order", "program/src/state/orderbook.rs:OrderSummary"]}
{"id": "C77", "title": "Nobody makes a profit by trading alone with the book", "statement": "Take any market and any further sequence of instructions in which all new orders are placed by one group of participants (on both sides, taking, resting, cancelling, trading among themselves; cancellations and event consumption may be anybody's). There is one price such that everything the group buys from the others' resting orders costs more than it and everything the group sells to them brings at most it. So if the group sold them no more base than it bought from them, it received no more quote than it paid, and strictly less if it traded with them at all: neither the rounding of amounts nor dust removal, self-trade handling, eviction or splitting an order can be exploited.", "quantifier": "every market history, every continuation in which only the group places orders, every group", "why_tests_cant": "Ranges over all strategies of arbitrary length against all books; a rounding leak may need a particular combination of sizes and prices.", "anchors": ["program/src/state/orderbook.rs:OrderBookState::new_order", "program/src/state/orderbook.rs:OrderBookState::get_spread", "program/src/state/orderbook.rs:fp32_mul_ceil", "program/src/state/orderbook.rs:fp32_mul_floor"]}
{"id": "C78", "title": "What a client sees decides what it gets", "statement": "Take a live market created in accounts of the computed sizes, after anything has happened on the ledger. A client that retrieves it and lists bids, asks and waiting events through the client library gets its parameters and the complete state of an exchange. Running the published rules (those of C72) on what it sees predicts, for every request of any kind, the exact answer the program gives if the request is the next one on this market, ids, amounts and refusals included, and exactly what the client sees afterwards.", "quantifier": "every ledger history from the creation of the market on, every request", "why_tests_cant": "All histories and all requests; it ties the client's decoding, the account bytes, the processors and the matching engine together.", "anchors": ["js/src/market_state.ts:MarketState.retrieve", "js/src/market_state.ts:MarketState.loadBidsSlab", "js/src/slab.ts:Slab.items", "js/src/event_queue.ts:EventQueue.peekAt", "program/src/processor.rs:process_instruction", "program/src/state/orderbook.rs:OrderBookState::new_order"]}
{"id": "C79", "title": "Order of arrival counts only at the same price", "statement": "Two new orders that join the book one after the other, without a trade and without pushing an order out, and not both at the same price of the same side, could have been sent in the other order: both are accepted, with the same amounts, and the book is the same but for the two arrival numbers inside their ids. From then on nobody can tell the difference: every later sequence of requests, with those two ids renamed, has the same answers, and leaves the same orders at the same places and the same events. More generally, two markets that differ only in the arrival numbers of their orders answer alike for ever: the place in the queue is all that counts.", "quantifier": "every reachable market, every two such orders, every later sequence of requests; every renaming of the arrival numbers given out so far", "why_tests_cant": "A statement about pairs of histories of any length and every renaming.", "anchors": ["program/src/state/orderbook.rs:OrderBookState::new_order", "program/src/state/event_queue.rs:EventQueue::gen_order_id", "program/src/state/critbit.rs:Slab::insert_leaf"]}
{"id": "C80", "title": "A withdrawal can come early or late", "statement": "Take an order resting in the book. Whether it is cancelled at once, or only after any number of other requests that do not concern it, makes no difference: the cancellation returns the same amounts, the other requests have the same answers and ids, and the market ends with the same orders, waiting events and next id. Requests that do not concern it are new orders of its own side (as long as that side has room for them), new orders of the other side whose limit price does not reach it, cancellations of other orders and consumption of events. The same holds for a new order of the other side that does reach its price but, when done, has left some other order in front of it. (Otherwise it can matter, even if the two do not trade: a post-only order that is turned away because of the resting order joins the book once that is withdrawn.)", "quantifier": "all markets that can occur, all resting orders, all sequences of other requests of any length", "why_tests_cant": "All interleavings of a cancellation with all sequences of other requests on all books.", "anchors": ["program/src/processor/cancel_order.rs:process", "program/src/processor/new_order.rs:process", "program/src/state/orderbook.rs:OrderBookState::new_order"]}
{"id": "C81", "title": "Account sizes matter only when they run out", "statement": "Take a market in whose history no order that might join a side finds that side full and no instruction fails because the event queue is full. A market created with the same tick and smallest order but larger bids, asks or event queue accounts (and any spare bytes at their end) gives the same answers and order ids to the same instructions and ends with the same resting orders, the same waiting events and the same next id. (When a side is full it does matter: the order pushed out in the smaller market stays in the larger one.)", "quantifier": "all pairs of account sizes that can be created, all histories of any length that never run out of room in the smaller market", "why_tests_cant": "A comparison of two markets over all histories and all pairs of sizes; the trees and queues of the two markets are laid out differently.", "anchors": ["program/src/state/critbit.rs:Slab::from_buffer", "program/src/state/event_queue.rs:EventQueue::from_buffer", "program/src/state/orderbook.rs:OrderBookState::new_order", "program/src/processor/create_market.rs:process"]}
{"id": "C82", "title": "No order is too large for the event queue", "statement": "Whatever the size of the event queue, an order that would cause more events than fit can be executed in pieces: consume the waiting events, send the order with a match limit k such that 2k+1 events fit the queue (k = 2 always does), and, if it dealt with k orders, go on with what the summary leaves. No piece is refused for lack of room. If the order with the sum of the match limits would be accepted with unlimited room for events (that is: its price is valid and it does not abort on an own order), then all pieces are accepted, and together they exchange and post the same amounts under the same order id, produce the same events in the same order, and leave the same orders and the same next id.", "quantifier": "all reachable markets and queue sizes, all orders, all splits of the match limit into pieces that fit", "why_tests_cant": "Where a piece stops (between fills of one order, at dust, at an own order, at the rounding of the remaining quote) depends on book, order and split; progress must hold for every book.", "anchors": ["program/src/processor/new_order.rs:process", "program/src/processor/consume_events.rs:process", "program/src/state/orderbook.rs:OrderBookState::new_order", "program/src/state/event_queue.rs:EventQueue::push_back"]}
{"id": "C83", "title": "Which books can arise", "statement": "Whatever requests a market has processed, its two books fit: no side holds more orders than its account has room for; every order has a positive 64-bit price that is a multiple of the tick size, at least the minimum base order size, and a size times price that the largest quote amount covers; each side is in price-time order; no two orders of the market have the same arrival number; every bid is below every ask. Conversely every such pair of books (with arrival numbers below 2^61) is produced by some sequence of new-order and cancel requests, with an empty event queue.", "quantifier": "all markets, all histories of requests, all pairs of order lists of any length, callback contents and sizes", "why_tests_cant": "Both directions range over all books: that nothing else arises needs an invariant over all histories, and that everything that fits does arise (so that no further restriction could be relied on) needs a construction for every book.", "anchors": ["program/src/state/orderbook.rs:OrderBookState::new_order", "program/src/processor/new_order.rs:process", "program/src/processor/cancel_order.rs:process", "program/src/state/critbit.rs:Slab::insert_leaf"]}
{"id": "C84", "title": "Building without overflow checks changes nothing", "statement": "The program built without integer overflow checks (the release profile: additions and subtractions wrap around, shift distances are taken modulo 128) answers every transaction as the program built with them, with the same effect, except where the checked one stops with an overflow. On a market in a state it can reach no request overflows, so there the two builds always agree; they agree on every creation, and on every transaction whatever its accounts and data, if the account it names as market is either no live market or one in a state it can reach (and the balances paid out when closing fit in 64 bits). An account opens in one build exactly when it opens in the other, with the same contents. Over whole histories of a ledger, from the deployment on, with any number of markets, instructions of anyone and writes of others, the two builds allow the same sequences of steps with the same answers, if markets are created on zeroed accounts with the sizes of a slab; so every ledger and market that occurs under the release build is one the other properties speak of.", "quantifier": "all ledgers, all account lists, all instruction data, all market configurations and histories of fewer than 2^63 requests", "why_tests_cant": "Tests run the checked profile, what is deployed is the other one: that no addition, subtraction or shift in any reachable state leaves its range is a statement about all states, and only the absence of all overflows makes test results carry over.", "anchors": ["program/Cargo.toml", "program/src/state/critbit.rs:Slab", "program/src/state/event_queue.rs:EventQueue", "program/src/state/orderbook.rs:OrderBookState", "program/src/processor.rs:Processor::process_instruction", "program/src/processor/close_market.rs:process"]}
{"id": "C85", "title": "The work of a request is bounded by what it asks for, not by the size of the market", "statement": "Count the tree nodes visited, the turns of the matching and mass-cancel loops and the events written while a request is processed. For a new order the count is at most 262 * (min(match limit, free event slots) + 1) + 518, for a cancellation at most 130, for a mass cancellation at most 131 per id given, and consuming events takes no loop at all; the bounds do not depend on how many orders rest in the books or how large the books are, and hold whether the request succeeds or fails. The count is no less than the number of events written, and than two for every id of a mass cancellation that succeeds. In particular no order costs more than one that fills the event queue, and every request ends.", "quantifier": "all market configurations, all reachable market states, all requests", "why_tests_cant": "A compute budget is exceeded by the worst book and the worst order, not by the ones a test sets up; deep trees, long price levels and refused orders all have to be covered, and termination is a statement about all executions.", "anchors": ["program/src/state/critbit.rs:Slab::insert_leaf", "program/src/state/critbit.rs:Slab::remove_by_key", "program/src/state/critbit.rs:Slab::find_min_max", "program/src/state/orderbook.rs:OrderBookState::new_order", "program/src/processor/new_order.rs:process", "program/src/processor/cancel_order.rs:process", "program/src/processor/mass_cancel_orders.rs:process", "program/src/processor/consume_events.rs:process"]}
{"id": "C86", "title": "Splitting an order does not pay, beyond one quote unit per left-over order", "statement": "Take a market and compare two ways of buying the same number of base units from it: one buy order, or any series of buy orders, of anyone, at any limits, with events consumed in between and refused orders among them. The single order pays at most what the series pays, plus one quote unit for each sell order that the series made leave the book with something left of it (a remainder below the minimum size, or the taker's own order). Likewise a series of sell orders brings at most what a single order, not limited in its quote units, brings for the same base units, plus one quote unit for each buy order that the series made leave the book with something left. The bounds are reached; without the allowance for left-over orders, or for a sell order that is limited in its quote units, the claim is false.", "quantifier": "all market configurations, all histories before, all one-sided series of requests of any length, all single orders that trade the same base quantity (not with CancelProvide)", "why_tests_cant": "Whether cutting an order into parts can ever exploit the rounding is a statement about all books, all ways of cutting and all interleavings; a test tries a few.", "anchors": ["program/src/state/orderbook.rs:OrderBookState::new_order", "program/src/processor/new_order.rs:process", "program/src/processor/consume_events.rs:process"]}
{"id": "C87", "title": "Best execution: no other choice among the resting orders would have been better", "statement": "Take an accepted order and the base quantity it traded. Consider any other way of taking that quantity from the orders resting on the other side, from each at most what it has (and nothing from the sender's own orders when those are to be withdrawn). A buy order trades at an exact value (quantity times price, summed) that is at most that of the other way; a sell order that is not limited in its quote units trades at an exact value that is at least that of the other way. The quote units moved differ from the exact value by less than one unit per fill, in the resting orders' favour. For a sell order that is limited in its quote units the claim is false.", "quantifier": "all market configurations, all histories, all accepted orders, all ways to choose the same quantity from the resting orders", "why_tests_cant": "That the orders chosen are the best choice is a comparison with every other choice, over every book; a test compares with one expected outcome.", "anchors": ["program/src/state/orderbook.rs:OrderBookState::new_order", "program/src/processor/new_order.rs:process"]}
{"id": "C88", "title": "Sales do not get stuck, provided the smallest order is worth a quote unit", "statement": "An order that accepts the price of the first order of the other side, and that has or can pay for at least one quote unit's worth, deals with that first order (fills it, or withdraws it if it is the sender's own), unless that first order is a buy order whose remaining quantity is worth less than one quote unit. Such a buy order stops all sales at or below its price: every sell order that accepts it is answered with an empty summary and neither trades, nor posts, nor withdraws anything; and it stays, with nothing behind it ever filled, until it is cancelled or evicted. Anyone can bring this about for one quote unit at any price between the two sides at which the minimum size is worth less than one quote unit. In a market whose minimum size is worth at least one quote unit at the smallest price (min_base_order_size * tick_size >= 2^32) it cannot arise.", "quantifier": "all market configurations, all histories before and after, all orders of anyone", "why_tests_cant": "That nothing ever gets past a small order is a statement about all later histories; that no market with sound parameters gets stuck is about all markets. A test tries a few prices and sizes.", "anchors": ["program/src/state/orderbook.rs:OrderBookState::new_order", "program/src/processor/new_order.rs:process", "program/src/processor/create_market.rs:process"]}
{"id": "C89", "title": "What an order trades can be worked out from the book beforehand", "statement": "Write down the orders of the other side within the limit price, best first, as many as the match limit allows and without own orders that are withdrawn. An accepted buy order gets exactly the first N units of this list, slice by slice and each slice at its own price rounded up to a whole quote unit, where N is the largest number that is at most max_base_qty, at most what the list has, and whose total cost is at most max_quote_qty; with enough quote units N is what was wanted or all there is. A sell order that is not limited in quote units (and meets no own order to withdraw) sells to the first max_base_qty units of the list, each slice rounded down, up to the first slice worth less than one quote unit. If it meets own orders that it withdraws, they take no part in the trade, but one for which the rest to be sold would be worth less than one quote unit ends it. A client that works out the same from the price levels of getL2DepthJS is right up to one quote unit for each fill beyond the first at the same price.", "quantifier": "all reachable markets, all new orders that are accepted, all depths asked of the client", "why_tests_cant": "The closed form has to hold for every book, every limit and every rounding of every slice, including the case where quote units run out in the middle of a slice.", "anchors": ["program/src/state/orderbook.rs:OrderBookState::new_order", "js/src/slab.ts:getL2DepthJS", "program/src/processor/new_order.rs:process"]}
{"id": "C90", "title": "Orders out of reach do not matter", "statement": "The orders within reach of a new order are those of the other side within its limit price, best first, as many as its match limit allows to meet. Two markets with the same tick and smallest order in which the same orders are within reach answer the new order alike, whatever else their books hold: it is refused for the same reason or accepted with the same amounts, trades and withdrawals, and a posted order of the same size and price; the other side ends with the same orders in front, followed by the orders out of reach, which are untouched. (If the order may join the book, its own side must have room in both; a full event queue may refuse it in either.) So it makes no difference whether somebody cancels an order out of its reach just before, or posts one at a price that it does not accept.", "quantifier": "all pairs of reachable markets of possibly different account sizes, all new orders of any kind", "why_tests_cant": "The rest of the two books is arbitrary; a test can only compare a few pairs of books.", "anchors": ["program/src/state/orderbook.rs:OrderBookState::new_order", "program/src/processor/new_order.rs:process", "program/src/processor/cancel_order.rs:process"]}
{"id": "C91", "title": "CancelProvide is the same as cancelling first", "statement": "Take an accepted new order with self-trade behavior CancelProvide, and the orders of its owner on the other side that are gone afterwards. Cancelling these one by one beforehand succeeds, and sending the order then, with a match limit reduced by their number, has the same answer (posted id included), the same trades and the same final book on both sides; the events are the same except that those about the withdrawn orders are missing. (The documentation says that matching essentially bypasses such orders. With the same match limit that is false: each withdrawal counts against it, so the order can trade less than if the own orders had been cancelled.)", "quantifier": "all histories of a market, all new orders with CancelProvide, any number of withdrawn orders", "why_tests_cant": "Own and foreign orders can alternate in every way, partial fills and zero-value stops included; the equality has to hold for all of them.", "anchors": ["program/src/state/orderbook.rs:OrderBookState::new_order", "program/src/state.rs:SelfTradeBehavior", "program/src/processor/cancel_order.rs:process"]}
{"id": "C92", "title": "More orders on the other side do a new order no harm", "statement": "Send the same order to two markets, the second of which has every order of the other side that the first has (same id and owner, at least the same quantity), and possibly more. For every base quantity that is traded in both, the first so many units have in the second market an exact value (quantity times price) that is at most that of the first market for a buy order, and at least that for a sell order that is not limited in quote units; in quote units the difference to the trader's disadvantage is at most one for each fill beyond the first. A buy order that may meet all sellers and has enough quote units buys at least as much base in the second market. (Without these exceptions the claims are false: one more fill can cost one more quote unit, a match limit can be used up by small orders, and a sell order can sell fewer units, though for more, when the last of them is worth less than a quote unit.)", "quantifier": "all pairs of market histories whose books are so related, all new orders, all quantities", "why_tests_cant": "It compares two executions over all pairs of books; a test compares a few.", "anchors": ["program/src/state/orderbook.rs:OrderBookState::new_order"]}
{"id": "C93", "title": "How much of a trade each resting order gets", "statement": "Of the base units that an accepted new order trades, a resting order it does not withdraw gets what is left after those in front of it, up to its own size: the smaller of its size and the traded base minus the total size of the orders that the new order meets before it and does not withdraw (not so for a sell order that is limited in quote units: it can leave the rest of a resting order, which is then removed as too small, and go on to the next). Between two moments at which an order rests it has lost exactly what it traded, and all else that traded at its price was waiting in front of it at the earlier moment: the traded quantity at its price plus what is still in front of it is at most what was in front of it plus what it traded itself. So once its size and the line in front of it have traded at its price, the order does not rest any more.", "quantifier": "all histories of a market, all new orders, all resting orders, all later histories", "why_tests_cant": "The formula has to hold for every arrangement of orders, withdrawals and partial fills in front of the order.", "anchors": ["program/src/state/orderbook.rs:OrderBookState::new_order"]}
{"id": "C94", "title": "An order is the same as taking first and posting the rest afterwards", "statement": "Instead of one order that may join the book, send it first with post_allowed = false, and then what its summary leaves, as a post-only order. If the first part did not use up its match limit, both together have the effect of the one order: the same order id, the same posted size, totals that add up, the same book and the same events; and if the second part is refused, the one order would have been refused for the same reason, without effect. If the match limit was used up, the one order does just what the first part does: it posts nothing, even when no order of the other side is left. Whenever the one order is accepted, so is the first part, and it takes all that the one order takes.", "quantifier": "all histories of a market, all new orders of any kind and self-trade behavior, any match limit of the second part but 0", "why_tests_cant": "The equality has to hold for every book, every way in which the matching loop can end, and every state of the own side and the event queue.", "anchors": ["program/src/state/orderbook.rs:OrderBookState::new_order", "program/src/processor/new_order.rs:process"]}
{"id": "C95", "title": "Orders that only take can be put in any order across the two sides", "statement": "Consider orders with post_allowed = false. If all of a sequence of them are accepted, then in every other sequence that keeps the order among the bids and the order among the asks all are accepted too, each with the same summary and the same events, and the book is the same in the end: whoever arranges the transactions gains nothing by mixing the two sides differently. Likewise, when a post-only order has joined the book and an order that only takes follows on the same side, the taker could as well have come first: same answers, same events, same book. The converse is refuted: a taker can clear the way for a post-only order that could not have joined the book before it.", "quantifier": "all histories of a market, all sequences of orders that only take, of any kind, limits and self-trade behavior, and all their interleavings", "why_tests_cant": "It compares all interleavings of arbitrarily long sequences of orders, on all books.", "anchors": ["program/src/state/orderbook.rs:OrderBookState::new_order", "program/src/processor/new_order.rs:process"]}
{"id": "C96", "title": "Waiting gets no better price while nobody joins the other side", "statement": "Send an order now, or later after any instructions of anybody that leave no new order on the other side (orders that trade, orders that join the sender's own side, cancellations, consumed events, failed instructions). In between, the other side can only shrink: each order that rests there later rested there before, with the same id and owner and at least that quantity. For every base quantity that is traded in both cases, the first so many units have later an exact value (quantity times price) that is at least that of now for a buy order, and at most that for a sell order that is not limited in quote units; in quote units waiting gains at most one for each fill beyond the first. A buy order that may meet all sellers and has enough quote units buys no more by waiting. In particular, to come second to any other order of the same side gets no better price. When an order has joined the other side the claim is refuted.", "quantifier": "all histories of a market, all continuations in which nobody joins the other side, all orders and quantities", "why_tests_cant": "It compares the outcome of an order at two points of arbitrary histories with arbitrary instructions in between.", "anchors": ["program/src/state/orderbook.rs:OrderBookState::new_order", "program/src/processor/new_order.rs:process", "program/src/processor/cancel_order.rs:process", "program/src/processor/mass_cancel_orders.rs:process"]}
{"id": "C97", "title": "A better place or price never costs a resting order trades", "statement": "Let the same new order come to two markets that hold an order of the same owner, in the second at least as large, at a price at least as good for the new order, and behind only some of the orders that are in front of it in the first (compared by quantity, price and owner; what is behind, and the other side of the book, may differ in any way). Then in the second market that order trades at least as much base with the new order. So improving the price or arriving earlier never costs a maker part of the next trade. A sell order that is limited in quote units is excepted, and for it the claim is refuted: it sells fewer units to a better bid. Staying is never worse than coming again: when the owner of an order cancels it and posts another, no larger and at no better price, the new one trades no more with the next new order than the old one would have (with the same exception).", "quantifier": "all pairs of market histories (with the same or different configurations), all new orders, all pairs of resting orders so related", "why_tests_cant": "It compares two executions over all pairs of books, with any number of orders in front.", "anchors": ["program/src/state/orderbook.rs:OrderBookState::new_order"]}
{"id": "C98", "title": "How instructions move the best prices", "statement": "A new order never improves the best price of the other side and never worsens the best price of its own side, which stays or becomes the price of the new order (also when it pushes another order out of a full side). All its trades are at prices between the best price of the other side before and after, each no better for it than the one before. Over any number of instructions, the best price of a side never improves while nobody joins it, and never worsens while nothing is taken or cancelled from it. When a trade is at a better price than a trade of an earlier instruction with the same side, it is with an order that was posted in between.", "quantifier": "all market histories, all new orders, all sequences of instructions, all pairs of trades", "why_tests_cant": "The claims compare any two moments, or any two trades, of an arbitrary history.", "anchors": ["program/src/state/orderbook.rs:OrderBookState::new_order", "program/src/state/orderbook.rs:OrderBookState::get_spread"]}
{"id": "C99", "title": "Every order and every base unit is accounted for", "statement": "After any history, the ids of the orders ever posted are exactly the ids in the book, the ids removed by an Out event and the ids cancelled, each counted once: no order leaves twice and none disappears silently. Between any two moments, the base units that were in the book plus those posted equal those traded, given back with an Out, cancelled (as the answers to the cancellations say) and still in the book; the base totals answered to new orders add up to the units traded plus those posted. On one side at one price, no more is traded, given back and left than was there and was posted there, and just as much if nothing was cancelled there. The quote units exchanged there are the base units traded times the price, rounded by less than one unit per trade: up when the resting orders sell, down when they buy.", "quantifier": "all market histories, all sequences of instructions from any reachable market, both sides, all prices", "why_tests_cant": "The sums range over arbitrary histories; a unit could be lost or counted twice in some rare combination of match, dust removal, eviction and cancellation.", "anchors": ["program/src/state/orderbook.rs:OrderBookState::new_order", "program/src/processor/cancel_order.rs:process", "program/src/processor/mass_cancel_orders.rs:process", "program/src/state/event_queue.rs:EventQueue::push_back"]}
{"id": "C100", "title": "A client can load a side of the book at any moment and follow it from there", "statement": "A side of the book loaded at any moment, with the later entries of the log (events, cancellations, posted orders) applied to it, is exactly that side now. Each entry must be applied once: applying one that the loaded side already contains gives wrong quantities. If the two sides are loaded at different moments and an order of the one loaded earlier crosses an order of the one loaded later, then the earlier one has left the book and the later one was posted in between; so nothing crosses if nobody joined the side loaded later. Without that, the two sides can appear crossed.", "quantifier": "all market histories, all later sequences of instructions, both sides, all orders loaded", "why_tests_cant": "The moment of loading and the instructions that run between the two loads are arbitrary.", "anchors": ["js/src/market_state.ts:loadBidsSlab", "js/src/market_state.ts:loadAsksSlab", "js/src/event_queue.ts:EventQueue.load", "program/src/state/orderbook.rs:OrderBookState::new_order"]}
