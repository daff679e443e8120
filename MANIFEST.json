{
 "claims": [
  {
   "property": "C01",
   "status": "partial",
   "theorems": [
    "C01_uncrossed_partial",
    "C01_match_partial",
    "C01_aon_partial",
    "C01_blocked_partial",
    "C01_match_blocked_partial",
    "C01_uncrossed_refuted"
   ],
   "note": "Proved for all histories without All-Or-None orders; with AON orders the claim is false of the code (refuted by a concrete reachable history). What still holds then: a book is left crossed only when an AON order stands at a best price and, if only one side has AON orders, the whole opposite side does not fill the first order (C01_blocked_partial for order calls, C01_match_blocked_partial for Match() and EnableMatching())."
  },
  {
   "property": "C02",
   "status": "proved",
   "theorems": [
    "C02_best_levels"
   ],
   "note": ""
  },
  {
   "property": "C03",
   "status": "proved",
   "theorems": [
    "C03_level_aggregates"
   ],
   "note": ""
  },
  {
   "property": "C04",
   "status": "proved",
   "theorems": [
    "C04_index_is_books",
    "C04_one_place"
   ],
   "note": ""
  },
  {
   "property": "C05",
   "status": "proved",
   "theorems": [
    "C05_defined_and_terminates",
    "C05_histories"
   ],
   "note": "Model outcome Undef = undefined behaviour, Fuel = loop bound exhausted; neither occurs."
  },
  {
   "property": "C06",
   "status": "partial",
   "theorems": [
    "C06_overflow_refuted",
    "C06_aggregate_refuted",
    "C03_level_aggregates",
    "C05_defined_and_terminates"
   ],
   "note": "The claim is false of the code: refuted by reachable histories (64-bit wraparound). Positive part, under the no-overflow guard of op_ok: every call is defined and every level aggregate is the exact sum."
  },
  {
   "property": "C07",
   "status": "partial",
   "theorems": [
    "C07_defined_partial",
    "C07_orphan_partial",
    "C07_other_books_partial",
    "C07_delete_book_refuted"
   ],
   "note": "The claim is false of the code: refuted (delete book, add it again, delete the old order). Positive part: books may be deleted under live orders at any time; as long as the book of a symbol is not added again while such orders are left, every call is defined, calls on the left-over orders are answered ORDER_BOOK_NOT_FOUND and change nothing, and every existing book stays consistent."
  },
  {
   "property": "C08",
   "status": "partial",
   "theorems": [
    "C08_ids_partial",
    "C08_all_ids_refuted"
   ],
   "note": "The claim is false of the code for id 2^32-1: refuted. Proved for every other id."
  },
  {
   "property": "C09",
   "status": "partial",
   "theorems": [
    "C09_conserved_partial",
    "C09_execute_partial",
    "C09_aon_refuted"
   ],
   "note": "Proved per call for histories without All-Or-None orders; false with AON orders (refuted)."
  },
  {
   "property": "C10",
   "status": "partial",
   "theorems": [
    "C10_limit_protection_partial",
    "C10_aon_refuted"
   ],
   "note": "Proved without All-Or-None orders; false with them (refuted)."
  },
  {
   "property": "C11",
   "status": "partial",
   "theorems": [
    "C11_best_level",
    "C11_oldest_partial"
   ],
   "note": "Best level: every execution of a resting order, unconditionally. Oldest order of that level: proved with matching on and no All-Or-None order in the history; missing: histories with AON orders. With matching off the only executions are those of an explicit Match()/EnableMatching() (C12, where C12_fifo_refuted shows queue order is violated) or of ExecuteOrder."
  },
  {
   "property": "C12",
   "status": "partial",
   "theorems": [
    "C12_best_level_partial",
    "C12_fifo_refuted"
   ],
   "note": "The claim as stated is false: Match() pairs the n-th bid of a level with the n-th ask (C12_fifo_refuted). Proved: best price first."
  },
  {
   "property": "C13",
   "status": "proved",
   "theorems": [
    "C13_immediate_never_rest"
   ],
   "note": ""
  },
  {
   "property": "C14",
   "status": "proved",
   "theorems": [
    "C14_whole",
    "C14_once",
    "C14_killed",
    "C14_fate"
   ],
   "note": "C14_fate: in the notifications of every call, every Fill-Or-Kill order offered for matching (new, or a stop order that triggers in a cascade) is immediately followed by its deletion with nothing executed, or by executions of opposite orders that add up to its whole quantity, its own execution for the whole quantity and its deletion. C14_whole/C14_once: executed at most once and for the whole remaining quantity. C14_killed: a new FOK order without execution changes nothing in the state."
  },
  {
   "property": "C15",
   "status": "proved",
   "theorems": [
    "C15_aon_whole"
   ],
   "note": ""
  },
  {
   "property": "C16",
   "status": "partial",
   "theorems": [
    "C16_stop_trades_partial",
    "C16_modify_refuted"
   ],
   "note": "Stop orders trade only after activation, for every call that is not Modify/Mitigate of a live stop order; the full claim is false for those (C16_modify_refuted)."
  },
  {
   "property": "C17",
   "status": "proved",
   "theorems": [
    "C17_stop_activation"
   ],
   "note": "Each reported activation happens at a moment when the mirrored opposite side has reached the stop price, and turns the order into the documented market or limit order."
  },
  {
   "property": "C18",
   "status": "partial",
   "theorems": [
    "C18_no_triggered_stop_partial",
    "C18_quiet_calls_partial",
    "C18_no_triggered_stop_refuted"
   ],
   "note": "The claim as stated is refuted (C18_no_triggered_stop_refuted: a ModifyOrder that executes an ask leaves a triggered buy stop). Proved: after an order call from fresh reference prices, a stop order left has its stop price beyond the best price or beyond a price executed in the same call; without executions it is never left triggered."
  },
  {
   "property": "C19",
   "status": "proved",
   "theorems": [
    "C19_call",
    "C19_life"
   ],
   "note": "Per call (states and notifications) and through the life of an order, over any number of calls."
  },
  {
   "property": "C20",
   "status": "partial",
   "theorems": [
    "C20_move_partial",
    "C20_added_partial",
    "C20_percent_refuted"
   ],
   "note": "Proved with the market price made explicit, when a percentage distance times the market price stays within 64 bits; beyond that the product wraps and the claim is false (C20_percent_refuted)."
  },
  {
   "property": "C21",
   "status": "partial",
   "theorems": [
    "C21_validate_partial",
    "C21_codes",
    "C21_add_order",
    "C21_documented_refuted"
   ],
   "note": "Validate is proved equal to the rule set with the limit -1000; the documented limit -10000 is refuted."
  },
  {
   "property": "C22",
   "status": "partial",
   "theorems": [
    "C22_rejected_partial",
    "C22_duplicate_off",
    "C22_duplicate_refuted",
    "C22_replace_refuted"
   ],
   "note": "Proved for all error codes but ORDER_DUPLICATE and for ReplaceOrder(id, order) of no live order. The two missing cases are false: AddOrder with an id in use trades before it is rejected, ReplaceOrder with an invalid order has deleted the old one."
  },
  {
   "property": "C23",
   "status": "partial",
   "theorems": [
    "C23_live_partial",
    "C23_report_partial",
    "C23_leaves",
    "C23_modify_refuted"
   ],
   "note": "Proved for all histories without ModifyOrder; false with it (refuted)."
  },
  {
   "property": "C24",
   "status": "proved",
   "theorems": [
    "C24_mitigate",
    "C24_removed"
   ],
   "note": ""
  },
  {
   "property": "C25",
   "status": "proved",
   "theorems": [
    "C25_reduce",
    "C25_modify_requeues"
   ],
   "note": "Matching off."
  },
  {
   "property": "C26",
   "status": "partial",
   "theorems": [
    "C26_replace_partial",
    "C26_replace_direct",
    "C26_replace_with_partial",
    "C26_duplicate_refuted",
    "C26_replace_with_refuted"
   ],
   "note": "Proved when the new id is free (or the old id) and, for ReplaceOrder(id, order), the new order is valid and its book exists; false otherwise: the old order is lost. C26_replace_direct gives the complete effect with matching off."
  },
  {
   "property": "C27",
   "status": "proved",
   "theorems": [
    "C27_levels_mirrored",
    "C27_history"
   ],
   "note": "A client that keeps levels from notifications alone has exactly the bid/ask levels after every call; contradictory notifications (adding a present level, changing an absent one) never occur."
  },
  {
   "property": "C28",
   "status": "partial",
   "theorems": [
    "C28_orders_mirrored_partial",
    "C28_history_partial",
    "C28_duplicate_refuted"
   ],
   "note": "Proved for every history whose calls bring in orders under ids not in use; false when an id is duplicated (refuted)."
  },
  {
   "property": "C29",
   "status": "partial",
   "theorems": [
    "C29_top_flag_partial",
    "C29_book_flag",
    "C29_delete_refuted"
   ],
   "note": "Exact for added and changed levels; for deleted levels the flag is always true, also for a level that was not the best (refuted)."
  },
  {
   "property": "C30",
   "status": "proved",
   "theorems": [
    "C30_registry",
    "C30_empty"
   ],
   "note": ""
  },
  {
   "property": "C31",
   "status": "proved",
   "theorems": [
    "C31_isolation"
   ],
   "note": ""
  },
  {
   "property": "C32",
   "status": "proved",
   "theorems": [
    "C32_frozen",
    "C32_add_limit"
   ],
   "note": ""
  },
  {
   "property": "C33",
   "status": "proved",
   "theorems": [
    "C33_slippage",
    "C33_market_order",
    "C33_empty"
   ],
   "note": "C33_slippage covers added market orders and triggered stops: the best opposite price is the one the notified client sees when the order arrives (EAddOrder / EUpdateOrder). C33_market_order and C33_empty are the direct form for AddOrder with a fresh id (duplicate ids are refused by the API only after matching, finding 9). Fill-Or-Kill is excluded by the property."
  },
  {
   "property": "C34",
   "status": "partial",
   "theorems": [
    "C34_quoted_price_partial",
    "C34_fok_refuted"
   ],
   "note": "Refuted for Fill-Or-Kill orders (they execute at their own limit, a FOK market buy even at 2^64-1: C34_fok_refuted). Proved for all other executions in histories without All-Or-None orders."
  },
  {
   "property": "C35",
   "status": "proved",
   "theorems": [
    "C35_hidden_visible"
   ],
   "note": ""
  },
  {
   "property": "C36",
   "status": "partial",
   "theorems": [
    "C36_reset_partial",
    "C36_order_calls_reset",
    "C36_enable_refuted",
    "C36_duplicate_refuted"
   ],
   "note": "Refuted for EnableMatching()/Match() and for AddOrder answered ORDER_DUPLICATE after executions (C36_enable_refuted, C36_duplicate_refuted). Proved for all other calls, and every successful order call resets the prices of its book whatever they were."
  },
  {
   "property": "C37",
   "status": "proved",
   "theorems": [
    "C37_delete",
    "C37_execute"
   ],
   "note": ""
  },
  {
   "property": "C38",
   "status": "proved",
   "theorems": [
    "C38_shortcut",
    "C38_next_level"
   ],
   "note": "All AVL-balanced search trees, all six collections. The tree library itself (CppCommon::BinTreeAVL) is external and trusted to keep the tree balanced."
  },
  {
   "property": "C39",
   "status": "partial",
   "theorems": [
    "C39_hash_bijective",
    "C39_hash_injective",
    "C39_parse_injective_partial",
    "C39_parse_refuted"
   ],
   "note": "The hash is a bijection. Parse is injective for unsigned char and, with signed char, on ASCII strings only; for bytes above 127 with a signed char the claim is false and that is proved."
  },
  {
   "property": "C40",
   "status": "proved",
   "theorems": [
    "C40_stream",
    "C40_chunking"
   ],
   "note": "All streams, all cuts, all handlers (results may depend on the callbacks made so far). Also with failing calls."
  },
  {
   "property": "C41",
   "status": "proved",
   "theorems": [
    "C41_message_in_bounds",
    "C41_stream_in_bounds"
   ],
   "note": "All buffers, sizes and decoder states, including after failed calls."
  },
  {
   "property": "C42",
   "status": "partial",
   "theorems": [
    "C42_decode_partial",
    "C42_exact",
    "C42_timestamp_refuted"
   ],
   "note": "Every field of every message type is exact except three: Timestamp keeps only its upper 24 bits (a non-zero timestamp never arrives: proved), Reason and Attribution keep only the first of four characters. So the full claim is false of the code."
  },
  {
   "property": "C43",
   "status": "proved",
   "theorems": [
    "C43_wrong_size",
    "C43_right_size",
    "C43_unknown",
    "C43_empty"
   ],
   "note": ""
  },
  {
   "property": "C44",
   "status": "proved",
   "theorems": [
    "C44_reset"
   ],
   "note": "Callbacks and results after Reset() for any further chunks equal those of a new decoder."
  },
  {
   "property": "C45",
   "status": "proved",
   "theorems": [
    "C45_factories"
   ],
   "note": ""
  },
  {
   "property": "C46",
   "status": "proved",
   "theorems": [
    "C46_refused",
    "C46_accepted"
   ],
   "note": ""
  },
  {
   "property": "C47",
   "status": "proved",
   "theorems": [
    "C47_replace_with"
   ],
   "note": ""
  },
  {
   "property": "C48",
   "status": "proved",
   "theorems": [
    "C48_reference",
    "C48_first"
   ],
   "note": "The reference algorithm is the small functional program of Spec7.v on plain lists of orders (fills, filled, remaining, taken, place). C48_reference gives return code, executions and both sides afterwards; C48_first covers books with live stop orders."
  },
  {
   "property": "C49",
   "status": "proved",
   "theorems": [
    "C49_step",
    "C49_history"
   ],
   "note": "The reference exchange is the functional program of Spec8.v on plain lists. C49_history is the whole-history refinement (return codes, executions, final contents) by induction over the calls; C49_step is one call. Stop orders, All-Or-None orders and matching switched off are outside the property."
  },
  {
   "property": "C50",
   "status": "proved",
   "theorems": [
    "C50_fills",
    "C50_free",
    "C50_life",
    "C50_added"
   ],
   "note": "C50_fills: live orders not named by the call; C50_added: a new order; C50_life: whole life of an order including calls that name it; C50_free: ids not in use."
  },
  {
   "property": "C51",
   "status": "proved",
   "theorems": [
    "C51_switch"
   ],
   "note": ""
  },
  {
   "property": "C52",
   "status": "proved",
   "theorems": [
    "C52_depth",
    "C52_best",
    "C52_pool",
    "C52_memory"
   ],
   "note": "Specification of the feed in Feed.v; model of the manager with its level pool and free list in Fast.v; undefined behaviour (out of range access) is excluded by C52_depth. C52_pool/C52_memory: no slot of the level pool is lost or shared. The guard \"names live orders\" is needed: C52_gone_order_refuted shows that a deletion of a completely executed order releases its level twice."
  },
  {
   "property": "C53",
   "status": "partial",
   "theorems": [
    "C53_price_refuted",
    "C53_crossed_refuted",
    "C53_reduce_refuted",
    "C53_shows_partial",
    "C53_total_partial",
    "C53_repriced_partial"
   ],
   "note": "Refuted: the claim is false of the code. AddOrder never stores the price of the order, so a new order is filed under the price its slot held before (0 if none); a ReduceOrder that takes all of an order leaves its volume in the book. Proved for feeds that never cancel all of an order with a reduction: the manager never goes wrong; it shows exactly the depth (with level records of the right side, price, volume and number of orders) of the feed in which the price of every new order is replaced by the price last given to its id by a modification or replacement, 0 if there was none; on every side the volumes add up to those of the feed itself; and if every live order has the price last given so, it shows the depth of the feed itself. Specification: Feed.v, Spec27.v."
  },
  {
   "property": "C54",
   "status": "proved",
   "theorems": [
    "C54_depth",
    "C54_same"
   ],
   "note": "Specification: Feed.v (tracker, depth) and Spec10.v (calls made for a message, what a book shows). FReplaceTo (another symbol) is not an ITCH message and is left out here."
  },
  {
   "property": "C55",
   "status": "proved",
   "theorems": [
    "C55_books",
    "C55_fast"
   ],
   "note": "Specification of what a packet says: Spec11.v, wire format: ItchSpec.v, handlers: Drive.v. The side must be B or S."
  },
  {
   "property": "C56",
   "status": "proved",
   "theorems": [
    "C56_follow",
    "C56_toggle_refuted",
    "C56_match_refuted"
   ],
   "note": "Specification: Spec12.v (trades_automatically, at_most_a_step_behind) with trailing_market and trail_target of Spec6.v. The conditions are needed: C56_toggle_refuted (matching switched off and on leaves a stale recorded price) and C56_match_refuted (Match() leaves the matching prices set)."
  },
  {
   "property": "C57",
   "status": "proved",
   "theorems": [
    "C57_history"
   ],
   "note": "Specification: the list-based exchange of Spec13.v (hall_run, matches) with covered_stops; trailing stops, All-Or-None orders and DisableMatching are outside. C57_example runs a day with stop cascades."
  },
  {
   "property": "C58",
   "status": "proved",
   "theorems": [
    "C58_history"
   ],
   "note": "Specification: the list-based exchange of Spec14.v (bourse_run, alike); only All-Or-None orders are outside. C58_example runs a day with matching off, a crossed book, trailing stops and cascades."
  },
  {
   "property": "C59",
   "status": "proved",
   "theorems": [
    "C59_session",
    "C59_unambiguous",
    "C59_lines",
    "C59_text"
   ],
   "note": "Specification: Spec15.v (enters, sits, tidy). C59_example runs a day at the console."
  },
  {
   "property": "C60",
   "status": "proved",
   "theorems": [
    "C60_ends",
    "C60_refuted"
   ],
   "note": "Finding: the documented commands carry 64-bit numbers but std::stoi throws from 2^31 on and nobody catches it (C60_refuted shows a legitimate call that ends the program)."
  },
  {
   "property": "C61",
   "status": "proved",
   "theorems": [
    "C61_script"
   ],
   "note": "Spec15.v composed with the reference exchange of Spec14.v (C58)."
  },
  {
   "property": "C62",
   "status": "proved",
   "theorems": [
    "C62_long_names",
    "C62_added",
    "C62_refuted"
   ],
   "note": "Finding: char name[8] is not initialised; C62_refuted shows two runs of the same text with different symbols."
  },
  {
   "property": "C63",
   "status": "proved",
   "theorems": [
    "C63_order",
    "C63_level",
    "C63_codes",
    "C63_one_line",
    "C63_history",
    "C63_levels",
    "C63_executions",
    "C63_orders"
   ],
   "note": "CppCommon::WriteString (names) is a parameter that writes no line end; the numbers of levels printed in a book line are not used to tell books apart."
  },
  {
   "property": "C64",
   "status": "proved",
   "theorems": [
    "C64_at_once",
    "C64_empty_market",
    "C64_stop_lost",
    "C64_waits_refuted"
   ],
   "note": "The reference prices are those of a book with no execution in progress (C36 says when that is so). C64_waits_refuted: hence a stop order does not in general wait until the market has moved to its price."
  },
  {
   "property": "C65",
   "status": "proved",
   "theorems": [
    "C65_statistics",
    "C65_no_wrap",
    "C65_maxima",
    "C65_max_level_orders_refuted"
   ],
   "note": "The counters are size_t; those of notifications (updates, update and execute operations) are plain counts and have no theorem. max_order_book_levels depends on the book passed to onUpdateOrderBook, which told leaves open. C65_max_level_orders_refuted is the bracketed last sentence."
  },
  {
   "property": "C66",
   "status": "proved",
   "theorems": [
    "C66_prints",
    "C66_one_line",
    "C66_tells",
    "C66_one_line_refuted",
    "C66_blocks_refuted"
   ],
   "note": "WriteChar and WriteString (CppCommon) are parameters; C66_one_line and C66_tells ask that they keep ordinary names and codes apart and write no line end, semicolon or bracket into them. The two refutations are the bracketed last sentence."
  },
  {
   "property": "C67",
   "status": "proved",
   "theorems": [
    "C67_call",
    "C67_history",
    "C67_refused_refuted"
   ],
   "note": "Both sides of an execution are counted, as both are notified. C67_refused_refuted is the bracketed last sentence."
  },
  {
   "property": "C68",
   "status": "proved",
   "theorems": [
    "C68_any_bytes",
    "C68_books",
    "C68_text_levels",
    "C68_text_orders"
   ],
   "note": "The bound on messages keeps the open quantity below 2^64 (its overflow is C22). The text is that of Print.v with the name writer as a parameter that writes no line end."
  },
  {
   "property": "C69",
   "status": "proved",
   "theorems": [
    "C69_counts",
    "C69_report",
    "C69_any_bytes",
    "C69_silent_refuted"
   ],
   "note": "C69_silent_refuted is the bracketed last sentence. The largest number of levels and of orders of a level are not described (see C65). The time periods are the numbers handed to the benchmark library for printing."
  },
  {
   "property": "C70",
   "status": "proved",
   "theorems": [
    "C70_any_bytes",
    "C70_trades"
   ],
   "note": "C70_trades does not ask the stream to be consistent (Spec26.feeds). The bound on messages keeps the open quantity below 2^64. The reference exchange is that of Spec8.v (C49)."
  },
  {
   "property": "C71",
   "status": "proved",
   "theorems": [
    "C71_engine_report",
    "C71_itch_report"
   ],
   "note": "The largest number of levels and of orders of a level are not described (see C65). A stream that announces no stock divides by zero when it causes no notification."
  },
  {
   "property": "C72",
   "status": "proved",
   "theorems": [
    "C72_pool"
   ],
   "note": "For the same feeds as C53_shows_partial: the levels are those of the manager itself, so prices in the guard are the stale ones (Spec27.v). A reduction that takes all of an order would leave its level in use (C53_reduce_refuted), which loses nothing by itself but makes the level wrong."
  }
 ]
}