{"id": "C01", "title": "Book is never left crossed while matching is enabled", "statement": "Once automatic matching is enabled, after every API call returns, in every order book the best bid price is strictly below the best ask price (documented for Match()); the guarantee is needed for books without 'All-Or-None' orders, and the documentation states it without exception.", "quantifier": "every finite history of MarketManager API calls (symbols, books, all order types/sides/time-in-force, all numeric arguments, matching on or off) with matching enabled", "why_tests_cant": "unbounded histories of interacting orders, stops and activations; a test sees a handful of books", "anchors": ["source/trader/matching/market_manager.cpp: Match, MatchOrder, AddLimitOrder, ModifyOrder, ReplaceOrder", "include/trader/matching/market_manager.h: Match"]}
{"id": "C02", "title": "best_bid/best_ask/best stop levels are the extremal levels", "statement": "After every API call best_bid() is the highest-priced bid level, best_ask() the lowest-priced ask level, best_buy_stop()/best_trailing_buy_stop() the lowest and best_sell_stop()/best_trailing_sell_stop() the highest stop level of their collections, and null exactly when the collection is empty; each collection has at most one level per price.", "quantifier": "every finite history of MarketManager API calls (symbols, books, all order types/sides/time-in-force, all numeric arguments, matching on or off)", "why_tests_cant": "the cached best pointer is maintained incrementally on each insert/erase; every order of insertions and deletions must be covered", "anchors": ["source/trader/matching/order_book.cpp: AddLevel, DeleteLevel, AddStopLevel, DeleteStopLevel, AddTrailingStopLevel, DeleteTrailingStopLevel"]}
{"id": "C03", "title": "Level aggregates equal the sums over their orders", "statement": "After every API call each price level's TotalVolume, HiddenVolume, VisibleVolume and Orders equal the sum of LeavesQuantity, HiddenQuantity, VisibleQuantity and the number of the orders queued in it, its Type matches the collection, and no empty level stays in a book.", "quantifier": "every finite history of MarketManager API calls (symbols, books, all order types/sides/time-in-force, all numeric arguments, matching on or off), provided total resting quantity stays below 2^64", "why_tests_cant": "aggregates are updated incrementally by ten different code paths, so equality is an invariant over all histories", "anchors": ["source/trader/matching/order_book.cpp: AddOrder, ReduceOrder, DeleteOrder, AddStopOrder, ReduceStopOrder, DeleteStopOrder, AddTrailingStopOrder, ReduceTrailingStopOrder, DeleteTrailingStopOrder"]}
{"id": "C04", "title": "Order index and order books hold exactly the same orders", "statement": "After every API call an order is returned by GetOrder(id) if and only if it is queued exactly once in exactly one level: the level of its own symbol's book, of the collection given by its type and side and at its own price (limit) or stop price (stop orders).", "quantifier": "every finite history of MarketManager API calls (symbols, books, all order types/sides/time-in-force, all numeric arguments, matching on or off)", "why_tests_cant": "a bijection between two incrementally maintained structures over unbounded histories", "anchors": ["source/trader/matching/market_manager.cpp: AddLimitOrder, AddStopOrder, AddStopLimitOrder, ReduceOrder, ModifyOrder, ReplaceOrder, DeleteOrder, ExecuteOrder, ActivateStopOrder, ActivateStopLimitOrder, RecalculateTrailingStopPrice"]}
{"id": "C05", "title": "No API call has undefined behaviour and every call terminates", "statement": "From any state reached through the API (order books deleted only when they have no live orders, total resting quantity below 2^64, symbol ids below 2^32-1) every API call terminates and never dereferences a null or released level/order: all matching, chain, activation and trailing loops stop.", "quantifier": "every finite history of MarketManager API calls (symbols, books, all order types/sides/time-in-force, all numeric arguments, matching on or off) subject to the three guards named", "why_tests_cant": "termination and pointer validity must hold for all states; loops walk lists while mutating them", "anchors": ["source/trader/matching/market_manager.cpp: Match, MatchOrder, ActivateStopOrders, ExecuteMatchingChain, CalculateMatchingChain, RecalculateTrailingStopPrice"]}
{"id": "C06", "title": "Level volume cannot overflow", "statement": "The engine keeps its books consistent for any valid orders, including when the sum of quantities at one price reaches 2^64.", "quantifier": "all pairs of valid orders at one price", "why_tests_cant": "needs quantities near 2^64 and a later operation to expose the damage", "anchors": ["source/trader/matching/order_book.cpp: AddOrder, ReduceOrder, DeleteOrder"]}
{"id": "C07", "title": "Deleting an order book is safe while orders are live", "statement": "After DeleteOrderBook(id) any later API call on the orders of that symbol (also after the book is added again) is well defined.", "quantifier": "all histories that delete a non-empty book", "why_tests_cant": "needs a delete/re-add/operate history and memory-state reasoning", "anchors": ["source/trader/matching/market_manager.cpp: DeleteOrderBook, DeleteOrder", "source/trader/matching/order_book.cpp: ~OrderBook"]}
{"id": "C08", "title": "AddSymbol works for every 32-bit symbol id", "statement": "AddSymbol(symbol) with an unused id, for every uint32_t id, keeps all previously added symbols and makes GetSymbol(id) return the new symbol.", "quantifier": "all uint32_t ids and registry states", "why_tests_cant": "one single id out of 2^32 fails", "anchors": ["source/trader/matching/market_manager.cpp: AddSymbol, AddOrderBook"]}
{"id": "C09", "title": "Executed volume is conserved between buy and sell side", "statement": "In every API call that matches orders (that is, other than ExecuteOrder) the total quantity reported executed on buy orders equals the total quantity reported executed on sell orders of the same book.", "quantifier": "every finite history of MarketManager API calls (symbols, books, all order types/sides/time-in-force, all numeric arguments, matching on or off)", "why_tests_cant": "a conservation law over every possible matching cascade", "anchors": ["source/trader/matching/market_manager.cpp: Match, MatchOrder, ExecuteMatchingChain, CalculateMatchingChain"]}
{"id": "C10", "title": "Limit price protection", "statement": "No order is ever reported executed by the matching engine at a price worse than its own limit: a buy never above its Price, a sell never below its Price.", "quantifier": "every finite history of MarketManager API calls (symbols, books, all order types/sides/time-in-force, all numeric arguments, matching on or off)", "why_tests_cant": "must hold for every execution in every cascade", "anchors": ["source/trader/matching/market_manager.cpp: MatchOrder, Match, ExecuteMatchingChain"]}
{"id": "C11", "title": "Price-time priority for incoming orders", "statement": "Every resting order executed against an incoming (added, modified, replaced or activated) order is, at that moment, the oldest order of the best price level of its side; nothing at a worse price or later in the queue is executed before it.", "quantifier": "every finite history of MarketManager API calls (symbols, books, all order types/sides/time-in-force, all numeric arguments, matching on or off)", "why_tests_cant": "priority is a statement about all other resting orders at each execution", "anchors": ["source/trader/matching/market_manager.cpp: MatchOrder, ExecuteMatchingChain"]}
{"id": "C12", "title": "Price-time priority when matching a crossed resting book", "statement": "When Match() or EnableMatching() uncrosses a book, resting orders at one price are executed in queue order: a later order is not executed while an earlier one at that price still has quantity.", "quantifier": "all crossed books (orders entered while matching was disabled)", "why_tests_cant": "needs particular quantity patterns on both sides", "anchors": ["source/trader/matching/market_manager.cpp: Match"]}
{"id": "C13", "title": "Immediate orders never rest", "statement": "No MARKET order and no 'Immediate-Or-Cancel' or 'Fill-Or-Kill' LIMIT order is ever left in a book or returned by GetOrder after an API call returns.", "quantifier": "every finite history of MarketManager API calls (symbols, books, all order types/sides/time-in-force, all numeric arguments, matching on or off)", "why_tests_cant": "invariant over all histories, including stop activation and order modification", "anchors": ["source/trader/matching/market_manager.cpp: AddMarketOrder, AddLimitOrder, AddStopLimitOrder, ActivateStopOrder, ActivateStopLimitOrder"]}
{"id": "C14", "title": "Fill-Or-Kill is all or nothing", "statement": "A 'Fill-Or-Kill' order is either reported executed once for its whole quantity or not executed at all, and when it is not executed no resting order is executed or changed by it.", "quantifier": "all books and all FOK limit/market/stop orders", "why_tests_cant": "every liquidity pattern, including AON resting orders in the chain", "anchors": ["source/trader/matching/market_manager.cpp: MatchOrder, CalculateMatchingChain"]}
{"id": "C15", "title": "All-Or-None orders are never partially executed by the engine", "statement": "Every execution that the matching engine reports for an 'All-Or-None' order is for its whole remaining quantity.", "quantifier": "every finite history of MarketManager API calls (symbols, books, all order types/sides/time-in-force, all numeric arguments, matching on or off)", "why_tests_cant": "every AON combination in every cascade", "anchors": ["source/trader/matching/market_manager.cpp: MatchOrder, Match, ExecuteMatchingChain"]}
{"id": "C16", "title": "Stop orders do not trade before they are triggered", "statement": "No order is reported executed by the engine while its type is STOP, STOP_LIMIT, TRAILING_STOP or TRAILING_STOP_LIMIT.", "quantifier": "every finite history of MarketManager API calls (symbols, books, all order types/sides/time-in-force, all numeric arguments, matching on or off)", "why_tests_cant": "all histories including ModifyOrder on stop orders", "anchors": ["source/trader/matching/market_manager.cpp: ModifyOrder, MatchLimit, ActivateStopOrders"]}
{"id": "C17", "title": "Stop activation is sound", "statement": "A buy stop (sell stop) is converted into a market/limit order only when no resting sell limit order is priced below its stop price (no resting buy limit order above it) at that moment.", "quantifier": "every finite history of MarketManager API calls (symbols, books, all order types/sides/time-in-force, all numeric arguments, matching on or off)", "why_tests_cant": "the trigger condition refers to the whole book at the instant of each activation", "anchors": ["source/trader/matching/market_manager.cpp: ActivateStopOrders, AddStopOrder, AddStopLimitOrder", "include/trader/matching/order_book.inl: GetMarketPriceBid, GetMarketPriceAsk"]}
{"id": "C18", "title": "No triggered stop order is left behind", "statement": "With matching enabled, after every API call no stop order is left whose trigger condition holds: every buy stop price is above the best ask and every sell stop price is below the best bid.", "quantifier": "every finite history of MarketManager API calls (symbols, books, all order types/sides/time-in-force, all numeric arguments, matching on or off) with matching enabled", "why_tests_cant": "completeness of a cascade for all books", "anchors": ["source/trader/matching/market_manager.cpp: Match, ActivateStopOrders"]}
{"id": "C19", "title": "Trailing stop prices only move in the favourable direction", "statement": "Through the life of a trailing stop order its StopPrice never increases for a buy order and never decreases for a sell order.", "quantifier": "every finite history of MarketManager API calls (symbols, books, all order types/sides/time-in-force, all numeric arguments, matching on or off)", "why_tests_cant": "monotonicity over arbitrary market histories", "anchors": ["source/trader/matching/order_book.cpp: CalculateTrailingStopPrice", "source/trader/matching/market_manager.cpp: RecalculateTrailingStopPrice"]}
{"id": "C20", "title": "Trailing distance is respected", "statement": "When the engine moves a trailing stop, the new stop price equals market price plus (buy) or minus (sell) the trailing distance, saturated to the uint64 range, with percentage distances taken as distance*price/10000, and the move is at least the trailing step.", "quantifier": "all market prices, distances, steps", "why_tests_cant": "64-bit arithmetic over all values", "anchors": ["source/trader/matching/order_book.cpp: CalculateTrailingStopPrice"]}
{"id": "C21", "title": "Order validation is exactly the documented rule set", "statement": "Order::Validate accepts exactly the orders that satisfy the documented parameter rules (ids, quantities, TIF of market orders, iceberg/slippage/AON restrictions, trailing parameters) and reports the documented error otherwise.", "quantifier": "all orders (all field values)", "why_tests_cant": "all combinations of 14 fields", "anchors": ["source/trader/matching/order.cpp: Order::Validate", "include/trader/matching/order.h"]}
{"id": "C22", "title": "Rejected calls change nothing", "statement": "An API call on orders, symbols or books that returns any error code leaves all symbols, books and orders unchanged and calls no handler.", "quantifier": "every finite history of MarketManager API calls (symbols, books, all order types/sides/time-in-force, all numeric arguments, matching on or off)", "why_tests_cant": "every error path in every state", "anchors": ["source/trader/matching/market_manager.cpp: AddOrder, AddLimitOrder, ReplaceOrder, ReduceOrder, ModifyOrder, DeleteOrder, ExecuteOrder"]}
{"id": "C23", "title": "An order is never over-executed", "statement": "For every live order ExecutedQuantity + LeavesQuantity <= Quantity, and the quantities reported executed for an order never exceed its Quantity.", "quantifier": "every finite history of MarketManager API calls (symbols, books, all order types/sides/time-in-force, all numeric arguments, matching on or off)", "why_tests_cant": "invariant over all executions and modifications", "anchors": ["source/trader/matching/market_manager.cpp: ModifyOrder, ExecuteOrder, MatchOrder"]}
{"id": "C24", "title": "In-flight mitigation prevents over-fill", "statement": "MitigateOrder(id, price, quantity) leaves the order with executed + remaining quantity <= quantity whenever any part stays live, and removes it when quantity <= ExecutedQuantity, whatever was executed before.", "quantifier": "all states, orders and new quantities", "why_tests_cant": "all executed/new quantity relations", "anchors": ["source/trader/matching/market_manager.cpp: ModifyOrder"]}
{"id": "C25", "title": "Reducing an order keeps its queue position; modifying loses it", "statement": "ReduceOrder (without matching) subtracts exactly min(quantity, leaves) from the order, keeps its position in the level's queue while it has quantity left, removes it otherwise, and leaves every other order of every book unchanged.", "quantifier": "all states and arguments", "why_tests_cant": "a frame property over all other orders", "anchors": ["source/trader/matching/market_manager.cpp: ReduceOrder", "source/trader/matching/order_book.cpp: ReduceOrder"]}
{"id": "C26", "title": "Replace is atomic", "statement": "ReplaceOrder either replaces the order by the new one or leaves the old order in place.", "quantifier": "all states and arguments", "why_tests_cant": "must consider all new ids/prices/orders incl. duplicates and invalid orders", "anchors": ["source/trader/matching/market_manager.cpp: ReplaceOrder"]}
{"id": "C27", "title": "Level notifications reproduce the book", "statement": "A client that starts empty and applies onAddLevel/onUpdateLevel/onDeleteLevel (with the level value passed) and onAddOrderBook/onDeleteOrderBook has, after every API call, exactly the bid and ask levels of every book; adds only happen for absent levels and updates/deletes only for present ones.", "quantifier": "every finite history of MarketManager API calls (symbols, books, all order types/sides/time-in-force, all numeric arguments, matching on or off)", "why_tests_cant": "stream equivalence over unbounded histories", "anchors": ["source/trader/matching/market_manager.cpp: UpdateLevel", "source/trader/matching/order_book.cpp: AddOrder, ReduceOrder, DeleteOrder"]}
{"id": "C28", "title": "Order notifications reproduce the live orders", "statement": "A client that starts empty and applies onAddOrder/onUpdateOrder/onExecuteOrder/onDeleteOrder has, after every API call, exactly the live orders with all their fields.", "quantifier": "every finite history of MarketManager API calls (symbols, books, all order types/sides/time-in-force, all numeric arguments, matching on or off)", "why_tests_cant": "stream equivalence over unbounded histories", "anchors": ["source/trader/matching/market_manager.cpp"]}
{"id": "C29", "title": "The Top flag of level notifications is accurate", "statement": "onAddLevel/onUpdateLevel/onDeleteLevel and onUpdateOrderBook pass top=true exactly when the changed level is (was) the best level of its side.", "quantifier": "every finite history of MarketManager API calls (symbols, books, all order types/sides/time-in-force, all numeric arguments, matching on or off)", "why_tests_cant": "every update in every state", "anchors": ["source/trader/matching/order_book.cpp: AddOrder, ReduceOrder, DeleteOrder"]}
{"id": "C30", "title": "Symbol and order book registry", "statement": "AddSymbol/DeleteSymbol/AddOrderBook/DeleteOrderBook and GetSymbol/GetOrderBook behave as a finite map from id to symbol/book: an add inserts exactly when the id is absent (and, for books, its symbol is present), a delete removes exactly when present, lookups return the latest insert, other ids are unaffected, and the error codes say which case happened.", "quantifier": "all sequences of registry operations and ids below 2^32-1", "why_tests_cant": "functional correctness over all sequences", "anchors": ["source/trader/matching/market_manager.cpp: AddSymbol, DeleteSymbol, AddOrderBook, DeleteOrderBook", "include/trader/matching/market_manager.inl: GetSymbol, GetOrderBook"]}
{"id": "C31", "title": "Symbols are isolated", "statement": "An order operation on one symbol never changes orders, levels or prices of any other symbol's book and reports events only for its own symbol.", "quantifier": "every finite history of MarketManager API calls (symbols, books, all order types/sides/time-in-force, all numeric arguments, matching on or off)", "why_tests_cant": "frame property over all other books", "anchors": ["source/trader/matching/market_manager.cpp"]}
{"id": "C32", "title": "With matching disabled nothing trades", "statement": "While automatic matching is disabled, no API call other than ExecuteOrder and Match() reports an execution, activates a stop or moves a trailing stop, and AddOrder of a valid new limit order simply queues it last at its price level.", "quantifier": "every finite history of MarketManager API calls (symbols, books, all order types/sides/time-in-force, all numeric arguments, matching on or off) with matching disabled", "why_tests_cant": "all calls in all states", "anchors": ["source/trader/matching/market_manager.cpp"]}
{"id": "C33", "title": "Market order slippage bound", "statement": "A non-FOK market order (or activated stop) executes only at prices within Slippage of the best opposite price at its arrival, and a market order in an empty opposite book executes nothing.", "quantifier": "all books and market orders", "why_tests_cant": "all books and slippages incl. saturation at the uint64 range", "anchors": ["source/trader/matching/market_manager.cpp: MatchMarket, MatchOrder"]}
{"id": "C34", "title": "Executions happen at a price quoted by one of the two orders that trade", "statement": "Each matching-engine execution is reported at the price of a resting order that takes part in the trade (price improvement goes to the incoming order).", "quantifier": "every finite history of MarketManager API calls (symbols, books, all order types/sides/time-in-force, all numeric arguments, matching on or off)", "why_tests_cant": "every execution in every cascade", "anchors": ["source/trader/matching/market_manager.cpp: MatchOrder, Match, ExecuteMatchingChain"]}
{"id": "C35", "title": "Hidden and iceberg quantities", "statement": "For every live order HiddenQuantity + VisibleQuantity = LeavesQuantity and VisibleQuantity <= MaxVisibleQuantity; consequently on every level HiddenVolume + VisibleVolume = TotalVolume.", "quantifier": "every finite history of MarketManager API calls (symbols, books, all order types/sides/time-in-force, all numeric arguments, matching on or off)", "why_tests_cant": "incremental hidden/visible deltas for every reduce/execute", "anchors": ["include/trader/matching/order.h: HiddenQuantity, VisibleQuantity", "source/trader/matching/market_manager.cpp: ReduceOrder", "source/trader/matching/order_book.cpp"]}
{"id": "C36", "title": "Matching reference prices are reset after each call", "statement": "The per-call 'matching price' that influences stop activation is reset when a call returns, so that a stop order's activation never depends on executions of an earlier call.", "quantifier": "every finite history of MarketManager API calls (symbols, books, all order types/sides/time-in-force, all numeric arguments, matching on or off)", "why_tests_cant": "hidden state carried between calls shows only in particular later calls", "anchors": ["include/trader/matching/order_book.inl: ResetMatchingPrice", "source/trader/matching/market_manager.cpp: AddLimitOrder, Match, EnableMatching"]}
{"id": "C37", "title": "Execution and cancel of resting orders by id", "statement": "ExecuteOrder(id[,price],q) and DeleteOrder(id), with matching disabled, affect exactly the given order: execution of min(q,leaves) at the order's (given) price, resp. removal; all other orders and levels are unchanged.", "quantifier": "all states and arguments", "why_tests_cant": "frame property over all other orders", "anchors": ["source/trader/matching/market_manager.cpp: ExecuteOrder, DeleteOrder"]}
{"id": "C38", "title": "The extremal-node shortcut of the level tree is correct", "statement": "When the best level is erased, the shortcut 'left child, else parent' (bids, sell stops) or 'right child, else parent' (asks, buy stops) yields the next best level in every AVL-balanced search tree, and null when the tree becomes empty.", "quantifier": "all AVL-balanced binary search trees", "why_tests_cant": "unbounded tree shapes", "anchors": ["source/trader/matching/order_book.cpp: DeleteLevel, DeleteStopLevel, DeleteTrailingStopLevel"]}
{"id": "C39", "title": "The order-id hash is collision free", "statement": "FastHash()(x) is injective on 64-bit values; FastHash::Parse is injective on 8-character symbol strings.", "quantifier": "all pairs of 64-bit values / 8-byte strings", "why_tests_cant": "2^64 inputs", "anchors": ["include/trader/matching/fast_hash.inl"]}
{"id": "C40", "title": "ITCH stream decoding does not depend on chunking", "statement": "For ITCHHandler::Process, feeding a byte stream in any split into chunks produces the same sequence of callbacks and the same overall result as feeding it at once, as long as no call returns false.", "quantifier": "all byte streams and all ways to cut them", "why_tests_cant": "exponentially many chunkings", "anchors": ["source/trader/providers/nasdaq/itch_handler.cpp: Process"]}
{"id": "C41", "title": "ITCH parsing never reads outside the message", "statement": "Every message parser reads only bytes inside the message buffer it was given, for every type byte, size and content.", "quantifier": "all byte buffers and sizes", "why_tests_cant": "memory safety over all inputs", "anchors": ["source/trader/providers/nasdaq/itch_handler.cpp: ProcessMessage and the 22 message parsers", "include/trader/providers/nasdaq/itch_handler.inl: ReadString, ReadTimestamp"]}
{"id": "C42", "title": "ITCH fields decode to the values on the wire", "statement": "For every ITCH 5.0 message, encoding its fields big-endian according to the specification layout and processing it calls the corresponding callback once with exactly the same field values (including the 48-bit timestamp).", "quantifier": "all field values of all message types", "why_tests_cant": "2^(hundreds of bits) of field values", "anchors": ["source/trader/providers/nasdaq/itch_handler.cpp", "include/trader/providers/nasdaq/itch_handler.inl: ReadTimestamp"]}
{"id": "C43", "title": "ITCH messages of wrong size are rejected", "statement": "ProcessMessage returns false and calls no message callback when the size does not match the type's fixed size; unknown types are reported to the unknown-message callback and accepted.", "quantifier": "all type bytes, sizes and contents", "why_tests_cant": "all sizes for all types", "anchors": ["source/trader/providers/nasdaq/itch_handler.cpp: ProcessMessage, ProcessSystemEventMessage, ..."]}
{"id": "C44", "title": "ITCH decoder can be reset after a failure", "statement": "After Reset() the decoder behaves like a new one whatever bytes were processed before.", "quantifier": "all byte histories", "why_tests_cant": "all internal decoder states", "anchors": ["source/trader/providers/nasdaq/itch_handler.cpp: Reset, Process"]}
{"id": "C45", "title": "Order factories build valid orders", "statement": "Every order built by the Order factories (Market, Limit, Stop, StopLimit, TrailingStop, TrailingStopLimit and their Buy/Sell forms) with a non-zero id and quantity, non-iceberg where required and legal trailing parameters passes Validate, has ExecutedQuantity 0 and LeavesQuantity = Quantity.", "quantifier": "all arguments", "why_tests_cant": "all argument values", "anchors": ["include/trader/matching/order.inl: Order::Market .. Order::TrailingSellStopLimit", "source/trader/matching/order.cpp"]}
{"id": "C46", "title": "Exact return codes", "statement": "A call that fails one of its documented checks (id zero, quantity zero, duplicate or unknown symbol or book, unknown order, invalid order, wrong type) returns the code of the first failing check, changes nothing and calls no handler; a call that passes them returns OK, or ORDER_DUPLICATE only when it introduces an id that is in use by another order.", "quantifier": "every call in every reachable state", "why_tests_cant": "all combinations of argument errors and states", "anchors": ["source/trader/matching/market_manager.cpp: all public calls", "source/trader/matching/order.cpp: Validate"]}
{"id": "C47", "title": "ReplaceOrder(id, order) is delete and add", "statement": "ReplaceOrder(id, order) with a live id has exactly the effect, notifications and return code of DeleteOrder(id) followed by AddOrder(order).", "quantifier": "every call in every reachable state, matching on or off", "why_tests_cant": "equality of complete behaviours in all states", "anchors": ["source/trader/matching/market_manager.cpp: ReplaceOrder"]}
{"id": "C48", "title": "An incoming order is matched by the textbook price-time algorithm", "statement": "With matching enabled, adding a limit or market order (GTC, IOC or FOK) to an uncrossed book without All-Or-None orders reports exactly the executions of the textbook algorithm: the order takes from the opposite side, best price first and oldest first within a price, the smaller of the two remaining quantities each time, at the price of the resting order, until it is filled or the next resting price is beyond its limit (the best opposite price plus or minus its slippage for a market order); a Fill-Or-Kill order does so at its own limit price, and only if the quantity within its limit is enough. Afterwards the opposite side is exactly what is left over, in the same order, and what is left of a Good-Till-Cancelled order stands behind all orders of the same or a better price of its own side. Nothing else changes on either side. With live stop orders, the call begins with these executions.", "quantifier": "every reachable state, every order (any price, quantity, slippage, side, time in force), any number of levels and resting orders", "why_tests_cant": "full functional equality with a reference algorithm over unboundedly many books and orders", "anchors": ["source/trader/matching/market_manager.cpp: AddOrder, AddMarketOrder, AddLimitOrder, MatchMarket, MatchLimit, MatchOrder, CalculateMatchingChain, ExecuteMatchingChain"]}
{"id": "C49", "title": "Whole histories equal a reference exchange", "statement": "Take any sequence of API calls, with matching enabled first and not disabled, in which only limit and market orders (GTC, IOC, FOK) are added. Run the same calls on a small reference exchange that keeps, for every symbol, two plain lists of orders (bids and asks, best first, oldest first). Then every call returns the same code, the executions reported are the same in the same order with the same prices and quantities, and in the end the symbols, the books, both sides of every book in price-time order, and the order found under every id are the same.", "quantifier": "every finite sequence of calls of any kind (symbols, books, add, reduce, modify, mitigate, replace, delete, execute, match), any ids including duplicates and unknown ones, any prices and quantities within 64 bits", "why_tests_cant": "equality of the complete observable behaviour over all histories of any length", "anchors": ["source/trader/matching/market_manager.cpp: all public calls", "source/trader/matching/order_book.cpp"]}
{"id": "C50", "title": "Every fill is accounted for, and waiting orders are not lost", "statement": "In every call, for every live order that the call does not name: LeavesQuantity falls and ExecutedQuantity rises by exactly the sum of the onExecuteOrder quantities reported for that order during the call, nothing else about its identity, side, quantity or visibility changes, and if the order is no longer live after the call and it is a Good-Till-Cancelled or All-Or-None limit, stop-limit or trailing-stop-limit order, then the reported executions add up to everything it had left: it cannot vanish unfilled, also not when it is triggered during the call. The same holds for a new order during the AddOrder call that brings it in. Through the life of an order, calls naming it included, ExecutedQuantity counts exactly the reported executions (modulo 2^64). Nothing is ever reported for an id that is not live and not brought in by the call.", "quantifier": "all histories, all calls, all live orders, all books with any mixture of stop, trailing and All-Or-None orders", "why_tests_cant": "a lost remainder or an unreported fill needs a particular chain of matches and activations; tests sample a few", "anchors": ["source/trader/matching/market_manager.cpp: MatchOrder, ExecuteMatchingChain, ActivateStopLimitOrder, ReduceOrder, DeleteOrder", "include/trader/matching/order.h: ExecutedQuantity, LeavesQuantity"]}
{"id": "C51", "title": "The matching switch changes only when it is asked to", "statement": "IsMatchingEnabled() is changed by EnableMatching() (to true) and DisableMatching() (to false) and by no other call, whatever its outcome.", "quantifier": "all histories and all calls", "why_tests_cant": "a hidden change in some error path is not visible until much later", "anchors": ["include/trader/matching/market_manager.h: EnableMatching, DisableMatching, IsMatchingEnabled"]}
{"id": "C52", "title": "The aggressively optimized manager shows exactly the depth of the feed", "statement": "Feed the aggressively optimized market manager (performance/market_manager_optimized_aggressive.cpp) any sequence of messages of an order-by-order feed: new books, new orders, reductions, executions, modifications, replacements and deletions that name live orders, bring in unused ids and cancel or trade no more than an order has. Then it never accesses memory it does not own, and in the end, for every symbol and side, its levels are exactly the prices at which the feed has live orders, best first, each with the total quantity of these orders; best_bid() and best_ask() are the first of them.", "quantifier": "every finite sequence of feed messages, any interleaving of symbols, prices below 2^31, level volumes below 2^32, order ids and symbols within the preallocated arrays", "why_tests_cant": "levels live in a pool with a free list and are found by index; a stale index shows only after a particular pattern of releases and reuses over many messages", "anchors": ["performance/market_manager_optimized_aggressive.cpp: PoolAllocator, OrderBook, MarketManager"]}
{"id": "C53", "title": "The optimized manager shows the depth of the feed", "statement": "Feed the optimized market manager (performance/market_manager_optimized.cpp) any sequence of messages of an order-by-order feed as in C52. Then for every symbol and side its levels are the prices at which the feed has live orders, each with their total quantity.", "quantifier": "every finite sequence of feed messages", "why_tests_cant": "the performance program only prints counters; wrong levels are never noticed", "anchors": ["performance/market_manager_optimized.cpp: AddOrder, ReduceOrder, OrderBook"]}
{"id": "C54", "title": "Without matching, the market manager mirrors an order-by-order feed", "statement": "Drive a market manager on which matching was never enabled by any order-by-order feed: AddSymbol and AddOrderBook for every new book, AddOrder(Order::Limit), ReduceOrder, ExecuteOrder (with or without a price), ModifyOrder, ReplaceOrder and DeleteOrder for the messages about orders. Then every announced book exists and its bids and asks are exactly the prices at which the feed has live orders, best first, each level with TotalVolume equal to their total quantity; GetOrder finds exactly the live orders of the feed with their symbol, side, price and remaining quantity. On feeds both can carry, the market manager and the aggressively optimized manager show the same levels.", "quantifier": "every finite sequence of feed messages naming live orders, any 64-bit ids, prices and quantities with total open quantity below 2^64, any number of books, crossed books included", "why_tests_cant": "the equality of a whole book with an independent tracker must hold after every history; tests compare counters", "anchors": ["performance/market_manager.cpp: MyITCHHandler", "source/trader/matching/market_manager.cpp: AddOrder, ReduceOrder, ModifyOrder, ReplaceOrder, DeleteOrder, ExecuteOrder"]}
{"id": "C55", "title": "From the bytes of an ITCH stream to the books", "statement": "Take any day of ITCH messages of the 21 known types, encode them, cut the bytes into chunks anywhere (also inside the size field), possibly with an unfinished message at the end, and pass the chunks to ITCHHandler::Process with the handler of performance/market_manager.cpp. Then every call of Process returns true and the books of the market manager show exactly the live orders announced by the stock directory, add, execute, cancel, delete and replace messages. The same holds for the aggressively optimized manager with its handler.", "quantifier": "all days of messages that name live orders, all values of all other fields, all cuts into chunks", "why_tests_cant": "combines decoding, framing, dispatch and book keeping over unbounded streams", "anchors": ["source/trader/providers/nasdaq/itch_handler.cpp: Process, ProcessMessage", "performance/market_manager.cpp: MyITCHHandler", "performance/market_manager_optimized_aggressive.cpp: MyITCHHandler"]}
{"id": "C56", "title": "Trailing stops keep up with the market", "statement": "When matching is enabled before the first order and stays enabled, the client leaves matching to the order calls (no explicit Match()), no All-Or-None order is used and no order is refused as a duplicate, then after every call every live trailing stop and trailing stop-limit order with an absolute distance has kept up: its stop price is at its trailing distance from the market (the worse of the best opposite price and the last opposite execution), or nearer, or less than its trailing step behind. With matching switched off and on again, or with an explicit Match(), this fails.", "quantifier": "every history of calls of that kind, every live trailing order, all prices, distances and steps", "why_tests_cant": "recalculation is skipped when a recorded price did not improve; whether a skipped recalculation ever leaves an order behind depends on the whole history", "anchors": ["source/trader/matching/market_manager.cpp: RecalculateTrailingStopPrice, ActivateStopOrders", "source/trader/matching/order_book.cpp: CalculateTrailingStopPrice"]}
{"id": "C57", "title": "Whole histories with stop orders agree with a reference exchange", "statement": "With matching enabled before the first order and kept enabled, any sequence of calls whose orders are limit, market, stop or stop-limit orders and not All-Or-None behaves like a small list-based exchange: it returns the same error codes, reports the same executions (orders, prices, quantities) in the same sequence, and in the end shows the same symbols, order books, resting orders in price/time order, waiting stop orders in trigger order, and the same order for every id. In the reference a stop triggers once the better of the best opposite price and the price of the last opposite incoming trade reaches its stop price; all orders of a stop price trigger together, buy stops first, and triggering repeats until nothing triggers. Explicit Match() and EnableMatching() calls are included.", "quantifier": "every such history of calls of any length, on any number of symbols and books, all prices, quantities, times in force GTC/IOC/FOK, slippages and visible quantities", "why_tests_cant": "cascades of stop orders depend on the whole history; the agreement is over all histories", "anchors": ["source/trader/matching/market_manager.cpp: AddStopOrder, AddStopLimitOrder, ActivateStopOrders, ActivateStopOrder, ActivateStopLimitOrder, Match, MatchMarket, MatchLimit, MatchOrder, ReduceOrder, ModifyOrder, ReplaceOrder, DeleteOrder, ExecuteOrder"]}
{"id": "C58", "title": "Whole histories of every order type, with matching on or off, agree with a reference exchange", "statement": "Any sequence of calls that adds no All-Or-None order behaves like a small list-based exchange: it returns the same error codes, reports the same executions (orders, prices, quantities) in the same sequence, and in the end shows the same symbols, books, resting orders in price/time order, waiting stop and trailing stop orders with their current stop prices in trigger order, and the same order for every id. This includes trailing stop and trailing stop-limit orders, EnableMatching(), DisableMatching() and Match() at any time, books crossed while matching was off and then uncrossed, and ExecuteOrder driven from outside.", "quantifier": "every history of calls of any length from a new manager, on any number of symbols and books, all order types, prices, quantities, times in force GTC/IOC/FOK, trailing distances and steps, slippages and visible quantities", "why_tests_cant": "trailing stop prices, uncrossing and cascades depend on the whole history of calls, on hidden recorded prices and on the moments matching was switched; the agreement is over all histories", "anchors": ["source/trader/matching/market_manager.cpp: AddStopOrder, AddStopLimitOrder, ActivateStopOrders, RecalculateTrailingStopPrice, UpdateLevel, Match, MatchOrder, ReduceOrder, ModifyOrder, ReplaceOrder, DeleteOrder, ExecuteOrder", "source/trader/matching/order_book.cpp: CalculateTrailingStopPrice", "include/trader/matching/market_manager.h: EnableMatching, DisableMatching", "include/trader/matching/order_book.inl: ResetMatchingPrice, UpdateLastPrice, UpdateMatchingPrice"]}
{"id": "C59", "title": "The console does what its lines say", "statement": "The text console reads its input line by line. Every line that has the form of a documented command (help text) makes exactly the documented call with the side, identifiers, prices, quantities, time in force and trailing parameters written in it; comments, empty lines and help do nothing; every other line is only complained about and changes nothing; exit and quit end the program; what the market does in response to the lines is what the corresponding sequence of API calls does. No line has two readings. Splitting a text into lines and joining them again is the identity (up to a final line end).", "quantifier": "every text of fewer than 2^33 lines that deletes books only when they are empty, every content of uninitialised memory", "why_tests_cant": "a grammar over all texts: prefixes shared by commands (add stop / add stop-limit, trailing), command words inside symbol names, any number of blanks or digits", "anchors": ["examples/matching_engine.cpp: main, AddSymbol, AddOrderBook, AddMarketOrder, AddSlippageMarketOrder, AddLimitOrder, AddIOCLimitOrder, AddFOKLimitOrder, AddAONLimitOrder, AddStopOrder, AddStopLimitOrder, AddTrailingStopOrder, AddTrailingStopLimitOrder, ReduceOrder, ModifyOrder, MitigateOrder, ReplaceOrder, DeleteOrder"]}
{"id": "C60", "title": "When the console ends by an exception", "statement": "The console ends by an uncaught exception exactly when a documented command before the first exit/quit contains a number of 2^31 or more; everything before that line has been carried out and nothing of that line. (Identifiers, prices and quantities of the API have 64 bits, so such commands are legitimate calls.)", "quantifier": "every text, every state of the market", "why_tests_cant": "over all texts and numbers", "anchors": ["examples/matching_engine.cpp: std::stoi in every command"]}
{"id": "C61", "title": "A text typed into the console trades like the reference exchange", "statement": "For every text without All-Or-None commands the codes shown, the executions (orders, prices, quantities, sequence) and the final books are those of the small list-based reference exchange of C58 on the calls the lines say.", "quantifier": "every text of fewer than 2^33 lines without add aon limit that deletes books only when they are empty", "why_tests_cant": "end to end over all texts", "anchors": ["examples/matching_engine.cpp: main", "source/trader/matching/market_manager.cpp"]}
{"id": "C62", "title": "The name of a symbol added at the console", "statement": "The symbol added by 'add symbol {Id} {Name}' carries the first eight bytes of Name; a text all of whose symbol names have at least eight bytes runs the same whatever was in memory before. For a shorter name the remaining bytes of the stored name are what happened to be in memory, so that two runs of the same text can differ.", "quantifier": "every text, every name, every content of uninitialised memory", "why_tests_cant": "the content of uninitialised memory is not controlled by a test", "anchors": ["examples/matching_engine.cpp: AddSymbol"]}
{"id": "C63", "title": "The printed text tells what happened", "statement": "The console's market handler prints one line for every notification of the market, and the text determines them: two histories for which it prints the same text made the same notifications in the same order (same callback, same book, level and flags, and orders with the same printed attributes), have the same executions, end with the same bid and ask levels in every book and, if no order was added under an id in use, with the same live orders as far as their attributes are printed. The printed attributes of an order are all but the trailing distance and step of an order that is not trailing; different error codes print differently.", "quantifier": "every two histories of valid calls, every order, level and number, every way of writing symbol names without a line end", "why_tests_cant": "it compares all pairs of histories and all values of all fields", "anchors": ["include/trader/matching/order.inl: operator<<", "include/trader/matching/level.inl: operator<<", "include/trader/matching/order_book.inl: operator<<", "include/trader/matching/symbol.inl", "include/trader/matching/errors.inl", "examples/matching_engine.cpp: MyMarketHandler"]}
{"id": "C64", "title": "A stop order that arrives when its price is already reached goes on at once", "statement": "With matching enabled, a valid STOP or STOP_LIMIT order whose stop price no resting order of the opposite side beats (no offer below a buy stop, no bid above a sell stop) is converted by the AddOrder call itself: its arrival is followed at once by the notification of the same order, with the same quantities, as a market or limit order. A market with no orders at all on the opposite side counts as reached, for trailing orders too; therefore a stop or trailing stop order entered there is deleted in the same call without any execution of it, although the market never reached its price: it cannot be left to wait.", "quantifier": "every reachable state with matching enabled and reset reference prices, every valid stop order", "why_tests_cant": "it ranges over all books and all stop orders; the empty side is a corner the tests do not visit", "anchors": ["source/trader/matching/market_manager.cpp: AddStopOrder 242-332, AddStopLimitOrder 334-450", "include/trader/matching/order_book.inl: GetMarketPriceBid, GetMarketPriceAsk"]}
{"id": "C65", "title": "Statistics gathered by counting notifications are the true figures", "statement": "A handler that counts as the one of the benchmark and of the test program does (plus one for each added, minus one for each deleted symbol, order book and order, and the largest value so far of each counter) holds after every call exactly the number of live orders, of known symbols and of order books; at no notification in between does its order counter fall below zero or overflow; its largest numbers of symbols and of order books are the largest after any call, its largest number of orders is the largest after any call or one more (an order that arrives and leaves within one call counts); and the orders added are the orders deleted plus those still there. (Its largest number of orders at a price level is not that: a level's first order is not looked at.)", "quantifier": "every history of admitted calls", "why_tests_cant": "the test compares final counts for one recorded day; the claim is about every history and every notification", "anchors": ["performance/market_manager.cpp: MyMarketHandler 19-77", "tests/test_market_manager.cpp: MyMarketHandler 20-78", "source/trader/matching/market_manager.cpp: all notifications"]}
{"id": "C66", "title": "What the ITCH example program prints tells the messages of the stream", "statement": "The ITCH example program, fed a stream of complete messages (each with its own size, of a known type with the fields of its type, or of an unknown type) cut into blocks in any way, prints exactly one line for each message in their order: the name of the message and all its fields by name in the order they have on the wire with the values the decoder delivers. Messages of ordinary characters print without a line end inside a line, and two streams of such messages that print the same text are the same messages with the same values. (Two codes are written unescaped and can break a line; and after a malformed message what is printed depends on how the input is cut into blocks, as the program does not look at the result of Process.)", "quantifier": "every stream of messages of every type with every field value, every cutting into blocks", "why_tests_cant": "the tests print nothing, and no test compares two outputs; the claim is over all messages and block boundaries", "anchors": ["include/trader/providers/nasdaq/itch_handler.inl: operator<< 12-336", "examples/itch_handler.cpp: MyITCHHandler, OutputMessage 44-50, main 53-67"]}
{"id": "C67", "title": "Nothing is executed that was not brought in", "statement": "The open quantity of all live orders together plus the quantity reported as executed (each side counted) never exceeds what was open before plus what the call brings in: a new order brings its leaves quantity, a modification or replacement the new quantity less what was open of that order, a reduction or deletion takes the quantity away, executing an order or matching brings nothing. This holds of every single call, and summed up of every whole history. (A call that is refused may have no effect, and one refused as a duplicate has to be counted: an order with the identifier of a live one is executed before it is refused.)", "quantifier": "every call in every reachable state with every argument in range; every history of calls, all order types, automatic or explicit matching", "why_tests_cant": "an over-execution can appear only in one combination of chain, stop activation and trailing; tests compare a few final books, not the sum over all histories", "anchors": ["source/trader/matching/market_manager.cpp: ExecuteOrder, Match, MatchOrder, ExecuteMatchingChain, ActivateStopOrders, ModifyOrder, ReplaceOrder", "include/trader/matching/market_handler.h: onExecuteOrder"]}
{"id": "C68", "title": "The market manager example on any input", "statement": "The market manager example program, fed any bytes in any blocks, never leaves defined behaviour as long as no more than 2^32 messages have been delivered: every call the handler makes meets the conditions under which the manager is defined, refused messages and duplicate or unknown orders included. Fed a stream of ITCH packets that describes live orders consistently, its books show exactly the depth of the live orders, however the stream is cut. And its output tells the books: two inputs for which the program prints the same text leave the same levels in all books, and two streams with the same text describe the same live orders.", "quantifier": "every byte sequence (2^32 messages at most), every cutting into blocks, both host byte orders; for the last part every pair of inputs", "why_tests_cant": "no test runs the program on rubbish, and a pair of different days printing the same text cannot be searched for", "anchors": ["examples/market_manager.cpp: MyMarketHandler 19-50, MyITCHHandler 52-110, main 112-129", "source/trader/providers/nasdaq/itch_handler.cpp: Process, ProcessMessage", "source/trader/matching/market_manager.cpp: AddSymbol, AddOrderBook, AddOrder, ReduceOrder, ReplaceOrder, DeleteOrder, ExecuteOrder"]}
{"id": "C69", "title": "The throughput program reports true figures", "statement": "The throughput program of performance/market_manager.cpp counts one message for every message of a known type and one error for every message of an unknown type in its input, however the input is cut into blocks. Given a stream of ITCH packets that describes live orders consistently and announces a stock, and a clock that moves, it ends with a report in which: errors are zero; messages are the packets; market updates are two for each stock announced, one for each trade and two for each time an order arrives, changes or leaves; the largest numbers of symbols and books are the number of stocks; the largest number of orders is the largest number of live orders the stream ever describes; add, update, delete and execute operations are how often an order arrived, changed, left and traded; latencies and throughputs are the quotients. On any input at all the only way it can go wrong is a division by zero (which does happen: for the empty input and for a stream that announces no stock).", "quantifier": "every stream of packets (below 2^64 / 4*10^9 of them), every cutting into blocks, both host byte orders, every elapsed time from 1 to 2^64-1 ns; for the counts every stream of known and unknown messages; for the last part every byte sequence", "why_tests_cant": "a test compares the figures of one recorded day; the figures must be true for every stream and every cutting", "anchors": ["performance/market_manager.cpp: MyMarketHandler 19-77, MyITCHHandler 79-119, main 121-197", "source/trader/providers/nasdaq/itch_handler.cpp: Process, ProcessMessage", "source/trader/matching/market_manager.cpp: AddSymbol, AddOrderBook, AddOrder, ReduceOrder, ReplaceOrder, DeleteOrder, ExecuteOrder"]}
{"id": "C70", "title": "The matching engine program trades a stream of orders like the reference exchange", "statement": "The throughput program of performance/matching_engine.cpp (a market manager with matching enabled, driven by an ITCH stream whose execution messages are passed over), fed any bytes in any blocks, never leaves defined behaviour as long as no more than 2^32 messages have been delivered: every call is defined, the codes returned, the executions reported (orders, prices, quantities, in their order) and the books left are exactly those of the reference exchange on the same calls, and no book is left crossed. Fed a stream of ITCH packets, however cut, the calls are: a symbol and a book for every stock announced, a limit order for every order added, and the cancellations, deletions and replacements as told - whether or not the stream makes sense after the engine has traded on its own.", "quantifier": "every byte sequence (2^32 messages at most), every stream of packets, every cutting into blocks, both host byte orders", "why_tests_cant": "no recorded day shows what is traded in any other day, and no test runs the program on rubbish", "anchors": ["performance/matching_engine.cpp: MyITCHHandler 79-119, main 121-200", "source/trader/providers/nasdaq/itch_handler.cpp: Process, ProcessMessage", "source/trader/matching/market_manager.cpp: AddSymbol, AddOrderBook, AddOrder, ReduceOrder, ReplaceOrder, DeleteOrder, Match"]}
{"id": "C71", "title": "The matching engine and ITCH throughput programs report true figures", "statement": "Given a stream of ITCH packets that announces a stock, and a clock that moves, the program of performance/matching_engine.cpp ends with a report in which: errors are zero; messages are the packets; the market updates are the notifications other than book changes; add, update, delete and execute operations are the notifications of added, changed, deleted and executed orders; the largest numbers of symbols and books are the number of stocks announced; the largest number of orders is the largest number of live orders after any call, or one more; latencies and throughputs are the quotients. Given any stream of messages of known and unknown types, the program of performance/itch_handler.cpp reports the messages of unknown types as errors, those of known types as messages, and the quotients; it divides by zero exactly when there is no message of a known type.", "quantifier": "every stream (2^32 messages at most, less than 2^64/10^9 notifications), every cutting into blocks, both host byte orders, every elapsed time from 1 to 2^64-1 ns", "why_tests_cant": "a test compares the figures of one recorded day", "anchors": ["performance/matching_engine.cpp: MyMarketHandler 19-77, MyITCHHandler 79-119, main 121-200", "performance/itch_handler.cpp: MyITCHHandler 18-55, main 57-110", "tests/test_itch_handler.cpp: 16-83"]}
{"id": "C72", "title": "The optimized manager loses and shares no level memory", "statement": "Feed the optimized market manager (performance/market_manager_optimized.cpp) a sequence of messages of an order-by-order feed in which no reduction cancels all of an order. Then it never accesses memory it does not own, and in the end every slot of its level pool is either free (once in the free list) or holds exactly one level of exactly one side of one book.", "quantifier": "every finite sequence of feed messages, any interleaving of symbols, prices below 2^31, level volumes below 2^32, order ids and symbols within the preallocated arrays, no reduction that takes all of an order", "why_tests_cant": "a slot released twice or never is noticed only after a particular pattern of releases and reuses over many messages; the program prints only counters", "anchors": ["performance/market_manager_optimized.cpp: LevelPool, OrderBook::FindLevel, OrderBook::DeleteLevel, MarketManagerOptimized"]}
