{
 "claims": [
  {
   "property": "C01",
   "status": "proved",
   "theorems": [
    "C01_slab_is_a_map",
    "C01_slab_progress"
   ],
   "note": ""
  },
  {
   "property": "C02",
   "status": "proved",
   "theorems": [
    "C02_find_min_max"
   ],
   "note": ""
  },
  {
   "property": "C03",
   "status": "proved",
   "theorems": [
    "C03_iteration"
   ],
   "note": ""
  },
  {
   "property": "C04",
   "status": "proved",
   "theorems": [
    "C04_capacity"
   ],
   "note": ""
  },
  {
   "property": "C05",
   "status": "proved",
   "theorems": [
    "C05_absent_removal",
    "C05_absent_removal_refuted"
   ],
   "note": "The unconditional claim is refuted (C05_absent_removal_refuted): the code panics in the stale slot case. C05_absent_removal gives the exact condition."
  },
  {
   "property": "C06",
   "status": "proved",
   "theorems": [
    "C06_walks_are_short"
   ],
   "note": "Fuel counts node visits; the removal walk starts below the root."
  },
  {
   "property": "C07",
   "status": "proved",
   "theorems": [
    "C07_find_by_key"
   ],
   "note": ""
  },
  {
   "property": "C08",
   "status": "proved",
   "theorems": [
    "C08_queue_is_fifo"
   ],
   "note": ""
  },
  {
   "property": "C09",
   "status": "proved",
   "theorems": [
    "C09_full_queue"
   ],
   "note": ""
  },
  {
   "property": "C10",
   "status": "proved",
   "theorems": [
    "C10_fill_round_trip",
    "C10_out_round_trip",
    "C08_queue_is_fifo"
   ],
   "note": "The padding bytes are read back too; the tag is the one of the event kind."
  },
  {
   "property": "C11",
   "status": "proved",
   "theorems": [
    "C11_ids_unique",
    "C11_gone_forever",
    "C11_resting_posted"
   ],
   "note": ""
  },
  {
   "property": "C12",
   "status": "proved",
   "theorems": [
    "C12_id_encodes",
    "C12_on_its_side"
   ],
   "note": ""
  },
  {
   "property": "C13",
   "status": "proved",
   "theorems": [
    "C13_priority",
    "C13_untouched_behind",
    "C13_event_sources",
    "C13_time"
   ],
   "note": "Priority at each event, untouched orders behind, and posting time agrees with the order of ids."
  },
  {
   "property": "C14",
   "status": "proved",
   "theorems": [
    "C14_limit_price"
   ],
   "note": ""
  },
  {
   "property": "C15",
   "status": "proved",
   "theorems": [
    "C15_quantity_limits"
   ],
   "note": ""
  },
  {
   "property": "C16",
   "status": "proved",
   "theorems": [
    "C16_summary"
   ],
   "note": ""
  },
  {
   "property": "C17",
   "status": "proved",
   "theorems": [
    "C17_fill_amounts",
    "C17_fill_parties"
   ],
   "note": ""
  },
  {
   "property": "C18",
   "status": "proved",
   "theorems": [
    "C18_conservation",
    "C18_opposite_replay",
    "C18_untouched",
    "C18_no_new_opposite",
    "C18_leaves_iff_out"
   ],
   "note": ""
  },
  {
   "property": "C19",
   "status": "proved",
   "theorems": [
    "C19_never_crossed"
   ],
   "note": ""
  },
  {
   "property": "C20",
   "status": "proved",
   "theorems": [
    "C20_no_dust",
    "C20_order_value"
   ],
   "note": ""
  },
  {
   "property": "C21",
   "status": "proved",
   "theorems": [
    "C21_resting_tick",
    "C21_price_check"
   ],
   "note": ""
  },
  {
   "property": "C22",
   "status": "proved",
   "theorems": [
    "C22_post_only",
    "C22_post_only_crossing",
    "C22_crossing_fails_refuted"
   ],
   "note": "The documented failure of a crossing post_only order is refuted; the code succeeds without effect."
  },
  {
   "property": "C23",
   "status": "proved",
   "theorems": [
    "C23_post_not_allowed"
   ],
   "note": ""
  },
  {
   "property": "C24",
   "status": "proved",
   "theorems": [
    "C24_match_limit",
    "C24_match_limit_zero"
   ],
   "note": ""
  },
  {
   "property": "C25",
   "status": "proved",
   "theorems": [
    "C25_no_self_fill",
    "C25_abort_transaction",
    "C25_abort_failure",
    "C25_cancel_provide",
    "C25_cancel_provide_removed",
    "C25_decrement_take",
    "C25_decrement_never_aborts",
    "C25_out_reasons"
   ],
   "note": ""
  },
  {
   "property": "C26",
   "status": "proved",
   "theorems": [
    "C26_eviction",
    "C26_posting_condition",
    "C26_traded"
   ],
   "note": ""
  },
  {
   "property": "C27",
   "status": "proved",
   "theorems": [
    "C27_outcomes"
   ],
   "note": ""
  },
  {
   "property": "C28",
   "status": "proved",
   "theorems": [
    "C28_queue_room",
    "C28_queue_room_book",
    "C28_event_count",
    "C28_two_events_per_order_refuted"
   ],
   "note": "The bound of two events per opposite order is refuted (an ask can fill one bid twice); three per order plus one is proved."
  },
  {
   "property": "C29",
   "status": "proved",
   "theorems": [
    "C29_cancel"
   ],
   "note": ""
  },
  {
   "property": "C30",
   "status": "proved",
   "theorems": [
    "C30_cancel_absent",
    "C30_order_not_found_refuted",
    "C30_never_posted",
    "C30_panic_was_posted"
   ],
   "note": "OrderNotFound except in the stale slot case, which is reachable (C30_order_not_found_refuted) but only for ids that were posted before (C30_panic_was_posted)."
  },
  {
   "property": "C31",
   "status": "proved",
   "theorems": [
    "C31_mass_cancel",
    "C31_mass_cancel_sequence",
    "C31_failure",
    "C31_first_failure",
    "C31_never_posted"
   ],
   "note": "Includes the case where the totals overflow u64: the code panics, without effect. C31_failure and C31_first_failure say exactly which id decides a failure and that its result is the one a single cancellation returns."
  },
  {
   "property": "C32",
   "status": "proved",
   "theorems": [
    "C32_consume"
   ],
   "note": ""
  },
  {
   "property": "C33",
   "status": "proved",
   "theorems": [
    "C33_close_iff",
    "C33_close_active",
    "C33_close_needs_empty",
    "C33_is_empty",
    "C33_close_disables",
    "C33_no_market",
    "C33_no_role",
    "C33_stays_closed",
    "C33_register_refuted"
   ],
   "note": "Proved for the processors and for everything that can happen on the ledger except overwriting by the program itself. A transaction naming an account of the closed market as register resets its tag (C33_register_refuted)."
  },
  {
   "property": "C34",
   "status": "proved",
   "theorems": [
    "C34_close",
    "C34_other_instructions",
    "C34_execute_total"
   ],
   "note": ""
  },
  {
   "property": "C35",
   "status": "proved",
   "theorems": [
    "C35_create_iff",
    "C35_create_effect",
    "C35_create_opens",
    "C35_once",
    "C35_fresh"
   ],
   "note": "create_market checks only the first byte of the slab accounts and not their size; C35_fresh shows that accounts never written by the program are zeroed."
  },
  {
   "property": "C36",
   "status": "proved",
   "theorems": [
    "C36_checked",
    "C36_close_checked",
    "C36_records_unique",
    "C36_frame",
    "C36_market_constant"
   ],
   "note": ""
  },
  {
   "property": "C37",
   "status": "proved",
   "theorems": [
    "C37_round_bid",
    "C37_round_ask",
    "C37_round_fails",
    "C37_round_ask_wraps",
    "C37_round_idempotent",
    "C37_round_ask_refuted"
   ],
   "note": ""
  },
  {
   "property": "C38",
   "status": "proved",
   "theorems": [
    "C38_posted_visible"
   ],
   "note": ""
  },
  {
   "property": "C39",
   "status": "proved",
   "theorems": [
    "C39_replay",
    "C40_order_life"
   ],
   "note": ""
  },
  {
   "property": "C40",
   "status": "proved",
   "theorems": [
    "C40_order_life",
    "C40_solvency"
   ],
   "note": ""
  },
  {
   "property": "C41",
   "status": "proved",
   "theorems": [
    "C41_allocation_size",
    "C41_open",
    "C41_wrong_tag",
    "C41_write_read"
   ],
   "note": ""
  },
  {
   "property": "C42",
   "status": "proved",
   "theorems": [
    "C42_allocation_size",
    "C42_accepted_sizes",
    "C42_open",
    "C42_wrong_tag",
    "C42_write_read"
   ],
   "note": ""
  },
  {
   "property": "C43",
   "status": "proved",
   "theorems": [
    "C43_round_trip",
    "C43_injective",
    "C43_length",
    "C43_documented_size_short"
   ],
   "note": ""
  },
  {
   "property": "C44",
   "status": "proved",
   "theorems": [
    "C44_create",
    "C44_new_order",
    "C44_consume",
    "C44_cancel",
    "C44_mass_cancel",
    "C44_borsh_len"
   ],
   "note": ""
  },
  {
   "property": "C45",
   "status": "proved",
   "theorems": [
    "C45_create_market",
    "C45_new_order",
    "C45_cancel_order",
    "C45_consume_events",
    "C45_close_market",
    "C45_mass_cancel_refuted",
    "C45_mass_cancel_fixed",
    "C45_metas_create",
    "C45_metas_trade",
    "C45_metas_close",
    "C45_read_only",
    "C45_read_only_consume"
   ],
   "note": "Proved for five builders; refuted for mass_cancel_orders, whose instruction always fails."
  },
  {
   "property": "C46",
   "status": "proved",
   "theorems": [
    "C46_spread",
    "C46_accounts",
    "C46_wrong_accounts"
   ],
   "note": ""
  },
  {
   "property": "C47",
   "status": "proved",
   "theorems": [
    "C47_matching_is_maximal"
   ],
   "note": ""
  },
  {
   "property": "C48",
   "status": "proved",
   "theorems": [
    "C48_execute",
    "C48_failed_no_effect",
    "C48_raw_cancel",
    "C48_raw_bad_price",
    "C48_raw_consume",
    "C48_raw_mass_cancel",
    "C48_rollback_needed",
    "C04_capacity",
    "C09_full_queue"
   ],
   "note": "C48_failed_no_effect and C48_execute are about the program under the runtime's rollback; the C48_raw_* theorems and C48_rollback_needed are about the program alone. C04_capacity and C09_full_queue cover the error paths of slab insertion and queue push."
  },
  {
   "property": "C49",
   "status": "proved",
   "theorems": [
    "C49_deserialize",
    "C49_items",
    "C49_min_max",
    "C49_by_key",
    "C49_l2_depth",
    "C49_price",
    "C49_price_from_key",
    "C49_allocation_size",
    "C49_order_capacity_refuted",
    "C49_extra_bytes_refuted"
   ],
   "note": "Proved for accounts of the computed size; refuted when the account has extra bytes. Offsets are computed in IEEE doubles as the client does. C49_order_capacity_refuted: the field orderCapacity is n - 1 for an account that holds n orders."
  },
  {
   "property": "C50",
   "status": "proved",
   "theorems": [
    "C50_parse",
    "C50_peek",
    "C50_parse_fill",
    "C50_allocation_size",
    "C50_header_refuted",
    "C50_parse_fill_refuted",
    "C50_limit_zero_refuted",
    "C50_peek_beyond_refuted"
   ],
   "note": "peekAt proved for i < count; parseFill proved for head = 0; the other cases are refuted with witnesses."
  },
  {
   "property": "C51",
   "status": "proved",
   "theorems": [
    "C51_answer",
    "C51_history",
    "C51_execute"
   ],
   "note": ""
  },
  {
   "property": "C52",
   "status": "proved",
   "theorems": [
    "C52_disjoint",
    "C52_recorded",
    "C52_isolated",
    "C52_same_market",
    "C52_register_refuted"
   ],
   "note": "Proved for the processors; refuted for transactions that name an account of another market as register."
  },
  {
   "property": "C53",
   "status": "proved",
   "theorems": [
    "C53_market_state",
    "C53_tags_refuted",
    "C53_cancel",
    "C53_mass_cancel",
    "C53_consume",
    "C53_metas_consume",
    "C53_no_register_refuted",
    "C53_read_only_refuted",
    "C53_create_refuted",
    "C53_new_order_refuted",
    "C53_data",
    "C53_close_refuted"
   ],
   "note": "Market state and the effect of cancel, mass cancel, consume proved; refuted for the instructions that can never succeed."
  },
  {
   "property": "C54",
   "status": "proved",
   "theorems": [
    "C54_pending_sane"
   ],
   "note": ""
  },
  {
   "property": "C55",
   "status": "proved",
   "theorems": [
    "C55_wind_down",
    "C55_can_close"
   ],
   "note": "Histories of fewer than 2^63 instructions. On the ledger, the target must be able to hold the lamports (sum below 2^64)."
  },
  {
   "property": "C56",
   "status": "proved",
   "theorems": [
    "C56_consume_first",
    "C56_schedule_free"
   ],
   "note": "Histories in which no instruction was refused with EventQueueFull."
  },
  {
   "property": "C57",
   "status": "proved",
   "theorems": [
    "C57_view_step"
   ],
   "note": ""
  },
  {
   "property": "C58",
   "status": "proved",
   "theorems": [
    "C58_sound",
    "C58_ends",
    "C58_every_slab",
    "C58_every_market"
   ],
   "note": "check_invariants is compiled for tests only; its model is Check.v. C58_sound is the converse: a slab that passes reads as a sorted list. The example shows the check's two blind spots: a lone order's slot and the free slots."
  },
  {
   "property": "C59",
   "status": "proved",
   "theorems": [
    "C59_every_slab",
    "C59_every_market"
   ],
   "note": "Depth is specified by paths from the root (ReadSpec.v), independently of the explicit stack of get_depth."
  },
  {
   "property": "C60",
   "status": "proved",
   "theorems": [
    "C60_opaque",
    "C60_opaque_raw",
    "C60_history",
    "C60_decrement_take_blind",
    "C60_comparison_needed"
   ],
   "note": "Holds of arbitrary states, not only reachable ones. C60_comparison_needed shows that the hypothesis on f cannot be dropped."
  },
  {
   "property": "C61",
   "status": "proved",
   "theorems": [
    "C61_tighter_prefix",
    "C61_tighter_accepted",
    "C61_less_base",
    "C61_less_funds_bid",
    "C61_ask_quote_refuted",
    "C61_quote_traded",
    "C61_base_traded"
   ],
   "note": "C61_ask_quote_refuted records that the symmetric claim for sellers and max_quote_qty is false of the code, with a concrete market."
  },
  {
   "property": "C62",
   "status": "proved",
   "theorems": [
    "C62_post_cancel",
    "C62_no_trace"
   ],
   "note": "reachable of the intermediate market is a hypothesis only to exclude a history of 2^63 instructions."
  },
  {
   "property": "C63",
   "status": "proved",
   "theorems": [
    "C63_cancels_commute",
    "C63_mass_cancel_any_order"
   ],
   "note": "same_answer identifies the two failures of an absent id (OrderNotFound, and the index panic of finding 1)."
  },
  {
   "property": "C64",
   "status": "proved",
   "theorems": [
    "C64_accounts_fit",
    "C64_transaction_refuted"
   ],
   "note": "C64_transaction_refuted: the transaction as built always fails (see C53_create_refuted). The system program's CreateAccount and transactions are modelled in JsBindings.v."
  },
  {
   "property": "C65",
   "status": "proved",
   "theorems": [
    "C65_min_max",
    "C65_l2_depth",
    "C65_current_accounts_refused",
    "C65_last_level_refuted"
   ],
   "note": "C65_last_level_refuted: the claim that every returned level is a total is false of the code. Loops are modelled with fuel; the theorems give the answer for all sufficiently large fuel. Total quantity < 2^64 is assumed, as u64 sums wrap in release mode."
  },
  {
   "property": "C66",
   "status": "proved",
   "theorems": [
    "C66_exactly_once",
    "C66_every_history",
    "C66_drain"
   ],
   "note": "delivery (CustodySpec.v) runs a history and records the events read from the front of the queue before each successful consumption; C66_every_history says that every history is one."
  },
  {
   "property": "C67",
   "status": "proved",
   "theorems": [
    "C67_base",
    "C67_quote",
    "C67_solvent",
    "C67_no_dust",
    "C67_settled",
    "C67_every_history",
    "C67_mass_cancel_summary"
   ],
   "note": "custody (CustodySpec.v) runs a history with the balances of a caller; flows use requests, answers, queue events and, for mass cancellations that mix sides (whose summary adds base units of both sides), the sizes readable from the book."
  },
  {
   "property": "C68",
   "status": "proved",
   "theorems": [
    "C68_slab",
    "C68_on_chain_slab",
    "C68_on_chain_queue",
    "C68_on_chain_market",
    "C68_misplaced",
    "C68_off_chain_slab",
    "C68_off_chain_refuted",
    "C68_words",
    "C68_words_back",
    "C68_words_same",
    "C68_same_leaf",
    "C68_same_fill",
    "C68_same_out",
    "C68_same_bytes"
   ],
   "note": "Addresses are parameters of the functions of Host.v; that the loader puts account data at multiples of 8 is a hypothesis (the loader is not part of the repository). Off chain the theorem gives the exact addresses at which a slab opens; C68_off_chain_refuted records that none suits two consecutive capacities where u128 is aligned on 16."
  },
  {
   "property": "C69",
   "status": "proved",
   "theorems": [
    "C69_load",
    "C69_closed",
    "C69_unchecked_refuted",
    "C69_torn_refuted"
   ],
   "note": "A fetch returns the account of the ledger at that moment (JsLoad.v); the RPC node, commitment levels and network failures are not modelled beyond that. C69_torn_refuted: two fetches at different moments can show a crossed book. C69_unchecked_refuted: retrieve accepts any account of at least 120 bytes."
  },
  {
   "property": "C70",
   "status": "proved",
   "theorems": [
    "C70_remove",
    "C70_remove_absent",
    "C70_remove_extreme",
    "C70_insert",
    "C70_find_by_key",
    "C70_find_node_sequence",
    "C70_check_invariants",
    "C70_slot_size",
    "C70_check",
    "C70_write_header",
    "C70_history",
    "C70_set_quantity"
   ],
   "note": "The crate has no insert_leaf: [insert] only allocates a slot, which stays unlinked ('loose'). [find_by_key] and [check_invariants] are compiled for tests only. Fuel as in C65."
  },
  {
   "property": "C71",
   "status": "proved",
   "theorems": [
    "C71_place",
    "C71_no_overtaking",
    "C71_line",
    "C71_turn",
    "C71_evicted_last"
   ],
   "note": "The line counts the orders at the same price only; orders at better prices may arrive at any time. An order also leaves the line when it is cancelled or evicted."
  },
  {
   "property": "C72",
   "status": "proved",
   "theorems": [
    "C72_step",
    "C72_history",
    "C72_ledger"
   ],
   "note": "The rules (ExchangeSpec.v) use only lists and exact numbers. An unknown id is answered NoSuchOrder whether the program returns OrderNotFound or panics (C05 says when)."
  },
  {
   "property": "C73",
   "status": "proved",
   "theorems": [
    "C73_accounts",
    "C73_market",
    "C73_close_accounts",
    "C73_close_market",
    "C73_create",
    "C73_create_queue_size",
    "C73_dispatch",
    "C73_only",
    "C73_no_data",
    "C73_codes"
   ],
   "note": "The tables of what can be wrong are in FailSpec.v. Two refusals can be panics: an unknown id (C05) and mass-cancel totals above 64 bits; an event queue account of a wrong size makes create_market panic (C73_create_queue_size)."
  },
  {
   "property": "C74",
   "status": "proved",
   "theorems": [
    "C74_atomic",
    "C74_reads",
    "C74_writes",
    "C74_commute",
    "C74_schedules",
    "C74_markets",
    "C74_same_market"
   ],
   "note": "Transactions of any number of instructions of this program, through the entrypoint, with the runtime's checks (writable accounts, lamports) and roll-back; the runtime's merging of the writable flags of one transaction is modelled. The accounts may hold anything. Conflicts are read off the account metas only."
  },
  {
   "property": "C75",
   "status": "proved",
   "theorems": [
    "C75_anyone",
    "C75_anyone_closes",
    "C75_owner_protects",
    "C75_owner_needed",
    "C75_authority_refuted"
   ],
   "note": "The documented rule is refuted (C75_authority_refuted); C75_anyone and C75_anyone_closes say what holds instead, C75_owner_protects and C75_owner_needed what protection there is. That the program never reads is_signer is by inspection of the sources (Access.v)."
  },
  {
   "property": "C76",
   "status": "proved",
   "theorems": [
    "C76_continue",
    "C76_summary_tells_refuted"
   ],
   "note": "Proved through the reference exchange (C72). The events count deals, so \"may have been cut short\" is read off the events and the book, not off the program's locals. C76_summary_tells_refuted decides the stronger reading of the comment at new_order.rs:39-42."
  },
  {
   "property": "C77",
   "status": "proved",
   "theorems": [
    "C77_wrong_side",
    "C77_no_profit"
   ],
   "note": "Stated on the events of the log alone. C77_wrong_side gives the price; C77_alone_needed shows that the restriction to the group's orders is needed."
  },
  {
   "property": "C78",
   "status": "proved",
   "theorems": [
    "C78_preview"
   ],
   "note": "client_view (PreviewSpec.v) uses only functions of the client. The preview is for the next instruction on the market; C78_stale shows that it is not for a later one."
  },
  {
   "property": "C79",
   "status": "proved",
   "theorems": [
    "C79_names",
    "C79_order",
    "C79_arrival"
   ],
   "note": "C79_names is the general statement, C79_order the exchange of two arrivals, C79_arrival both together. NamesSpec.v defines the renaming without reference to the program. C79_same_price shows that at the same price the order of arrival does count."
  },
  {
   "property": "C80",
   "status": "proved",
   "theorems": [
    "C80_delay",
    "C80_behind"
   ],
   "note": "C80_delay for whole sequences of requests, C80_behind for one order that reaches the price but stops in front; stated on markets, with the exchange of C72 as what can be observed (`view`). C80_needed shows that the condition on the price cannot be dropped."
  },
  {
   "property": "C81",
   "status": "proved",
   "theorems": [
    "C81_sizes"
   ],
   "note": "C81_sizes compares two markets with different capacities; `never_short` (SizesSpec.v) says that the smaller one has room whenever it needs it. C81_needed shows what happens otherwise."
  },
  {
   "property": "C82",
   "status": "proved",
   "theorems": [
    "C82_pieces",
    "C82_room"
   ],
   "note": "Proved through the reference exchange (C72) and C28; PiecesSpec.v is the client's loop. The rule with enlarged room plays the unlimited queue; C82_room shows that such a room exists. Iterates C76 over any number of pieces, with consumption in between."
  },
  {
   "property": "C83",
   "status": "proved",
   "theorems": [
    "C83_only",
    "C83_arises",
    "C83_exactly"
   ],
   "note": "C83_only: the invariant; C83_arises: the construction (one order at a time in order of arrival; arrival numbers that no order has are used up by an order that is posted and cancelled at once). The bound 2^61 on arrival numbers in the construction keeps the requests within the 2^63 of a history."
  },
  {
   "property": "C84",
   "status": "proved",
   "theorems": [
    "C84_same",
    "C84_market",
    "C84_history",
    "C84_open",
    "C84_create",
    "C84_transaction",
    "C84_safe",
    "C84_ledger",
    "C84_world"
   ],
   "note": "C84_same for any ledger; C84_market, C84_history for markets; C84_transaction for whole transactions; C84_open, C84_create and C84_safe. Release.v is a second model of the same code, function by function, with wrapping arithmetic. Covers the on-chain program; utils.rs round_price (C37) and the WebAssembly reader (C65) are treated in their own properties."
  },
  {
   "property": "C85",
   "status": "proved",
   "theorems": [
    "C85_same",
    "C85_work",
    "C85_counts",
    "C85_any_order",
    "C85_ends"
   ],
   "note": "C85_same: the counting program without its counter is the program; C85_work: the bounds; C85_counts: the same from below, so the counter cannot be an empty one; C85_any_order and C85_ends. The count stands for compute units up to a constant factor; the cost of one unit, of opening the accounts and of decoding the instruction is not modelled."
  },
  {
   "property": "C86",
   "status": "proved",
   "theorems": [
    "C86_buy",
    "C86_sell",
    "C86_never_pays_refuted",
    "C86_limited_sell_refuted"
   ],
   "note": "C86_buy and C86_sell: the bounds; C86_buy_example and C86_sell_example reach them; C86_never_pays_refuted: the left-over allowance is needed; C86_limited_sell_refuted: the single sell order must not be limited in quote units."
  },
  {
   "property": "C87",
   "status": "proved",
   "theorems": [
    "C87_best",
    "C87_quote",
    "C87_limited_sell_refuted"
   ],
   "note": "C87_best and C87_quote; C87_example meets the hypotheses with a way that takes from three orders evenly; C87_limited_sell_refuted: a sell order limited in quote units can do worse."
  },
  {
   "property": "C88",
   "status": "proved",
   "theorems": [
    "C88_blocked",
    "C88_until_removed",
    "C88_one_unit",
    "C88_sound_market",
    "C88_progress",
    "C88_progress_refuted"
   ],
   "note": "C88_progress with C88_sound_market: the positive claim; C88_blocked, C88_until_removed and C88_one_unit: what happens otherwise; C88_progress_refuted: the claim without its proviso, with C88_example."
  },
  {
   "property": "C89",
   "status": "proved",
   "theorems": [
    "C89_buy",
    "C89_buy_all",
    "C89_sell",
    "C89_sell_withdrawing",
    "C89_client"
   ],
   "note": "LadderSpec.v has the list and the slices. For sellers limited in quote units there is no such formula: C61_ask_quote_refuted and C87_limited_sell_refuted show what happens. C89_sell_example also meets the hypotheses of C89_client."
  },
  {
   "property": "C90",
   "status": "proved",
   "theorems": [
    "C90_out_of_reach",
    "C90_events",
    "C90_cancelled",
    "C90_posted"
   ],
   "note": "ReachSpec.v defines the reach and what it means to be answered alike. That a full own side matters is C26, that a full queue matters is C28."
  },
  {
   "property": "C91",
   "status": "proved",
   "theorems": [
    "C91_cancel_first",
    "C91_same_limit_refuted"
   ],
   "note": "ProvideSpec.v defines the withdrawn orders by their owner and by being gone. C91_same_limit_refuted shows that the reduction of the match limit is needed."
  },
  {
   "property": "C92",
   "status": "proved",
   "theorems": [
    "C92_price",
    "C92_quote",
    "C92_amount",
    "C92_exact_quote_refuted",
    "C92_match_limit_refuted",
    "C92_sell_amount_refuted"
   ],
   "note": "OfferSpec.v defines the relation between the books. The three exceptions are theorems ending in _refuted, each with a history."
  },
  {
   "property": "C93",
   "status": "proved",
   "theorems": [
    "C93_share",
    "C93_waiting",
    "C93_served",
    "C93_limited_sell_refuted"
   ],
   "note": "C93_waiting and C93_served strengthen C71_line and C71_turn: the order's own fills are allowed."
  },
  {
   "property": "C94",
   "status": "proved",
   "theorems": [
    "C94_take_then_post",
    "C94_limit_used",
    "C94_taking_accepted"
   ],
   "note": "TakeSpec.v defines the two parts of an order."
  },
  {
   "property": "C95",
   "status": "proved",
   "theorems": [
    "C95_any_interleaving",
    "C95_post_then_take",
    "C95_take_then_post_refuted"
   ],
   "note": "InterleaveSpec.v defines the part of a log that is about one side."
  },
  {
   "property": "C96",
   "status": "proved",
   "theorems": [
    "C96_shrinks",
    "C96_price",
    "C96_quote",
    "C96_amount",
    "C96_going_second",
    "C96_newcomer_refuted"
   ],
   "note": "WaitSpec.v says what it means that nobody joins a side in a stretch of the log."
  },
  {
   "property": "C97",
   "status": "proved",
   "theorems": [
    "C97_better_place",
    "C97_staying",
    "C97_limited_sell_refuted"
   ],
   "note": "FrontSpec.v says what a new order sees of a resting order and when one is as attractive as another."
  },
  {
   "property": "C98",
   "status": "proved",
   "theorems": [
    "C98_new_order",
    "C98_trades_between",
    "C98_trades_in_order",
    "C98_nobody_joins",
    "C98_nothing_taken",
    "C98_better_is_newer"
   ],
   "note": "best_price and better_price are those of C46 and C13; MoveSpec.v says which instructions take nothing from a side."
  },
  {
   "property": "C99",
   "status": "proved",
   "theorems": [
    "C99_every_order",
    "C99_leaves_once",
    "C99_volume",
    "C99_ordered",
    "C99_level",
    "C99_turnover"
   ],
   "note": "All sums are over the log: instructions, their answers and the events they emitted (VolumeSpec.v)."
  },
  {
   "property": "C100",
   "status": "proved",
   "theorems": [
    "C100_follow",
    "C100_crossed_means",
    "C100_quiet",
    "C100_torn_refuted",
    "C100_twice_refuted"
   ],
   "note": "C100_torn_refuted and C100_twice_refuted are concrete histories showing that the two restrictions are needed."
  }
 ]
}