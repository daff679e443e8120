# Formal model of chronoxor/CppTrader in Rocq (Coq 8.16.1)

## Layout (`rocq/theories/`, in dependency order in `_CoqProject`)

**The model** (executable definitions only, every one cites file and lines of /repo):

| file | models |
|----|----|
| `Types.v` | `order.h/.inl/.cpp` (fields, predicates, Validate), `level.h/.inl`, `symbol.h`, `errors.h`, `update.h`, 64-bit arithmetic |
| `Book.v` | `order_book.h/.inl/.cpp` |
| `Engine.v` | private part of `market_manager.cpp`: matching, chains, stop activation, trailing recalculation |
| `Manager.v` | public API of `market_manager.h/.cpp`: registries, calls, runs |
| `Factory.v` | the order factories of `order.inl` |
| `Hash.v` | `fast_hash.inl` |
| `Avl.v` | the tree-shape shortcut of `order_book.cpp` that finds the next best level |
| `Itch.v` | `providers/nasdaq/itch_handler.{h,inl,cpp}` over byte lists |
| `Fast.v`, `Fast2.v` | `performance/market_manager_optimized_aggressive.cpp` and `performance/market_manager_optimized.cpp` |
| `Example.v` | `main` of `examples/market_manager.cpp` (its two handlers are those of `Drive.v` and `Print.v`) |
| `Bench.v` | `main` of `performance/market_manager.cpp`: the message counters and the report |
| `Throughput.v` | handler and `main` of `performance/matching_engine.cpp` and `performance/itch_handler.cpp` (its handler is also that of `tests/test_itch_handler.cpp`) |
| `Drive.v` | the ITCH handlers of `performance/market_manager.cpp` and `..._aggressive.cpp` that drive the managers |
| `Print.v` | `operator<<` of orders, levels, symbols, books and codes, and the printing handler of `examples/matching_engine.cpp` (the text `CppCommon::WriteString` writes for a name is a parameter; the book passed to a book callback is a parameter of the right symbol) |
| `ItchPrint.v` | the stream output operators of the ITCH messages (`itch_handler.inl`) and `examples/itch_handler.cpp` |
| `Tally.v` | the counters of `MyMarketHandler` in `performance/market_manager.cpp` and `tests/test_market_manager.cpp` |
| `Console.v` | the text console `examples/matching_engine.cpp`: lines, regular expressions, conversions, dispatch |

**Specification vocabulary** (definitions only, independent of the proofs): `Spec.v`, `Spec2.v` ... , `ItchSpec.v`
(wire format), `Feed.v` (what an order-by-order feed says), `Spec7.v` (reference matching algorithm on lists),
`Spec8.v` (reference exchange on lists), `Spec10.v`, `Spec11.v` (driving the managers by a feed / by bytes), `Spec20.v` (stop orders that arrive late), `Spec21.v` (how many there are of what, and have been), `Spec22.v` (what the ITCH example should print), `Spec23.v` (what is open, brought in and executed), `Spec24.v` (the market manager example from outside), `Spec27.v` (stale prices: what the optimized manager shows), `Spec26.v` (which calls a feed asks of a matching engine, counting notifications), `Spec25.v` (what the throughput program should report), `Spec12.v` (trailing stops keep up), `Spec13.v` (reference exchange with stop orders), `Spec14.v` (reference exchange for all order types but All-Or-None, matching on or off), `Spec19.v` (what can be read off the printed text), `Spec15.v` (the documented commands of the console), `Spec16.v` (the fate of a Fill-Or-Kill order in the notifications), `Spec17.v` (histories that delete order books under live orders), `Spec18.v` (a crossed book that an All-Or-None order blocks).

**Property theorems**: `Props*.v` and the second half of `Avl.v`; each theorem is followed by `Print Assumptions` and by an
`Example` that shows a concrete non-trivial case that meets its hypotheses.  `Witness.v` runs concrete histories with the guards
checked; `Scenarios.v` replays the repository's own unit tests on the model (tests of the model, not proofs).

**Proof infrastructure**: `LevelFacts`, `BookInv`, `EngInv`, `EngPrim` (invariants and exact effect of the primitives),
`Steps`, `StepsOk`, `Refine1`-`Refine4` (every engine run decomposes into elementary actions; termination measures), `Api`,
`StateInv`, `Micro`, `Reach`, `Calls`, `CallFacts`, `Split` (every API call = head actions + micro actions with exact effect on
index, book and log), `Trades`, `Settle`, `Validate`, `RefMatch`, `RefExchange`, `FastOk`, `FastOk2`.

## Trusted base
* Coq's kernel (and its VM for `vm_compute`), and the reading of the C++ source recorded in the comments.
* Axioms: none of our own.  `Print Assumptions` prints "Closed under the global context" for every property theorem (the commands are
  in the Props files).  `vcheck` lists only `Coq.ssr.ssrunder.Under_rel.*`, which are in scope of the loaded standard library's
  ssreflect module type and are used by no theorem.
* The compiled program is a release build (`NDEBUG`: `assert` is off), single-threaded; handler callbacks are pure observers that do
  not call back into the manager; allocation never fails; `size_t`/pointers are 64 bits; plain `char` signedness is a parameter where
  it matters (`Hash.v`).
* External libraries, trusted to meet their documentation: `CppCommon::BinTreeAVL` (balanced search tree; C38 assumes the
  AVL shape), `CppCommon::List`, `CppCommon::HashMap`, memory pools, `CppCommon::Endian::ReadBigEndian`,
  `std::vector`.

## What is modelled
* 64-bit arithmetic: `Z` with explicit `mod 2^64` wherever the C++ can wrap.
* Undefined behaviour is a distinct outcome `Undef` (null dereference, out-of-range access, use of a destroyed node); a loop that
  does not end shows as `Fuel` (loop bound exhausted), never as a normal result.  C05 proves that neither occurs under the
  guards of `op_ok`; C06-C08 and C52 show what happens outside of them.
* Every public call of `MarketManager`, with its notifications in order, return code and resulting books.
* `Match()` over all books runs in order of symbol id, as in the code (a vector indexed by id).

## What is not modelled
* Containers as such: a level collection is a best-first sorted list of levels with unique prices, a queue a list of order ids,
  the order index a finite map (of live orders; a level keeps ids, the code keeps intrusive nodes).
* `ModifyOrder`/`MitigateOrder`/`ReplaceOrder` keep a `HashMap` iterator over calls that erase other entries; that this stays valid is a
  matter of `CppCommon::HashMap` and not modelled (`market_manager.cpp` 557-813).
* `market_handler` virtual dispatch, exceptions inside the library, the time measurements and command line of `performance/`, and the `std::vector` growth of the symbol/book/order tables of the optimized managers (an
  unlimited table is modelled where the code resizes, an out-of-range access is `Undef` where it does not).

## How the properties are stated
A history is a list of public calls from a new manager; `reach s` says that `s` is the result of some history whose calls meet the
guard `op_ok` (values fit their C++ types, ids are those the API documents, no aggregate of 2^64 or more: each guard has a refuted
property that shows why it is there).  `call s a s' er evs` is one call with its return code and notifications.  Statements speak of
`reach`, `call`, the orders and queues a user can look up, the notifications, and the small vocabulary in the Spec files.

`_partial`: part of the property; the manifest note says what is missing.  `_refuted`: the property as stated in English is false of
the code, shown by a concrete reachable history; the theorem's negation is what is proved, and the positive theorem beside it has the
extra hypothesis that excludes the case.  Such a property is listed as `partial`.

## Test of the theorems
`seeded/LOG.jsonl`: wrong programs.  Method: in a scratch copy the model is edited like a realistic bug, the statements of all property
theorems are collected in one file, and for each edit the theorems whose statement is now false are refuted on a concrete history (or the
proof fails).  An edit that no theorem notices led to a new or tighter theorem, or is logged as a survivor with the reason.

## Plan per property
All matching-engine properties are theorems about `step : state -> op -> res (state * err)` and `run`, for every reachable state
(`reach`), from one invariant proof and one refinement of the engine into elementary steps.

| id | model / proof |
|----|----|
| C01 | after-state of `step`; invariant + exit condition of the matching loop; `_refuted` with AON orders; `PropsBlocked.v`: with AON orders a crossed book is blocked (exit condition of the matching loop: the matching chain of the two best levels is empty) |
| C02-C04 | `Inv` preserved by every op |
| C05 | `step` never returns `Undef`/`Fuel` on guarded ops from `Inv` states (termination measures: number of live orders / stop orders / levels) |
| C06-C08 | `_refuted` witnesses; the guarded positive parts are C05/C03 (C06), `PropsGuard.v` for C08 (every id but 2^32-1) and C07 (books deleted under live orders, over the weaker invariant `loose` of `StateInv.v`, which does not ask that an order's book exists) |
| C09, C10, C34 | event log of each op; positive theorems without AON, `_refuted` with AON; FOK price refuted for C34 |
| C11, C12 | micro-step refinement; C12 `_refuted` |
| C13-C16 | invariant / event log; C14_fate: every matching step extends a log in which each offered FOK order has its fate (PropsFok2.v); C16 refuted through ModifyOrder, positive without it |
| C17-C20 | event log + arithmetic of CalculateTrailingStopPrice; C18 refuted, guarded positive part |
| C21, C45 | decision function equivalence |
| C22, C26 | refuted for duplicates; positive for all other errors |
| C23, C24 | invariant; refuted through ModifyOrder |
| C25, C32, C37 | direct functional specification with frame |
| C27-C29 | replay of event log; duplicates refuted for C28; Top flag refuted for deletes |
| C30, C31 | finite-map refinement; frame |
| C33, C35, C36 | event log / invariant; C36 refuted for Match(), EnableMatching() and duplicate ids |
| C38 | induction on AVL trees |
| C39 | bit-level algebra (xorshift inverse, odd multiplier inverse); Parse refuted for bytes >= 0x80 |
| C40-C44 | model of the ITCH decoder over byte lists; timestamp decoding refuted |
| C46, C47 | decision table of return codes in the order the code checks; `ReplaceOrder(id, order)` = delete then add, by computation on calls |
| C48, C49 | simulation: flattened level queues of the book = plain lists of the reference algorithm; induction over fills, then over calls |
| C50, C51 | event log of every micro action against the change of each order; induction over calls |
| C52, C53 | representation invariant of the optimized managers (sorted level index, pool, free list) against the tracker of `Feed.v`; C53 refuted; what does hold (`FastOk2.v`, `Spec27.v`, `PropsFast3.v`): the depth of the feed with stale prices, the totals of every side, the depth itself when every live order was repriced |
| C56 | invariant "every trailing order is settled at the recorded trailing price, and the recorded price is the current one": frame lemmas for all engine functions (Trail.v), recalculation settles its side (Trail.v, Trail2.v), lifted to calls and histories (Follow.v, PropsFollow.v) |
| C57 | simulation: the reference exchange of Spec13.v as a function of the book's queues (RefStops.v); trading, triggering of a level, rounds and the loop over rounds, with a bound on the number of rounds (RefHall.v); each call (HallCalls.v); Match(), histories (PropsHall.v) |
| C58 | simulation: the reference exchange of Spec14.v as a function of the book's queues and recorded prices (RefRing.v); trailing stops recalculated (RefFollow.v); triggering rounds, uncrossing and the loop over both with a bound on its length (RefRounds.v); each call (RingCalls.v); Match(), histories (PropsRing.v) |
| C59 | every regular expression of the program against the documented form of its command, both ways, and the chain of substring tests (ConsoleOk.v); induction over the lines with a bound on the resting quantity (PropsConsole.v) |
| C60 | induction over the lines; a number of 2^31 or more as counterexample |
| C61 | C59 composed with C58 |
| C62 | the bytes of the name; two runs with different memory |
| C63 | operator<< is injective on the printed attributes (words and numerals end at a blank, semicolon or bracket), lines contain no line end; a level line is followed by its book's line (C29), so the notifications are determined; C27/C28 turn equal notifications into equal levels and orders |
| C64 | the trigger test of AddStopOrder/AddStopLimitOrder against the best resting order (levels are never empty, so the best level has a live limit order); conversion is the first step of the call; on an empty side MatchMarket does nothing and the id never comes back (closure over all later steps of the call) |
| C65 | the counters of the handler as a fold over the log (Tally.v); every prefix of a call's notifications keeps the running number of orders between 0 and the number before the call plus one (head action and micro actions bring and take orders exactly as they change the index); registries by the closed form of C30; the level counter refuted |
| C66 | the printers as tables (label, member, kind) checked once against the layouts of C42; the line of a message by induction over its fields, the output by C40; injectivity by cutting at `(`, `;`, `)` and the equal form of messages of one name; WriteChar and WriteString are parameters, for injectivity with a stated condition |
| C67 | the micro steps of `Micro.v`: each execution takes from the order map or the flying order what it reports, no micro step adds; heads add at most what the call brings (`change`); sums over segments, calls (`mrun`, replace = delete then add), histories |
| C68 | `Example.v`: run of the decoder, then of the calls; every delivered field is below 256^n for its n bytes (invariant of the decoder loop), so each call meets `op_ok` as long as the open quantity is bounded, which C67 gives (each message brings less than 2^32); depth by C54/C55 with the run of the feed; text by C63 |
| C69 | `Bench.v`: the two counters of the ITCH handler, the report with its divisions (undefined by zero), the tally of C65. Per feed message: the exact list of order notifications (off-matching form of a call), so the counters follow a list of deeds; sizes by the feed map; symbols and books by monotone registries. The two "level" maxima of the report are left open in the theorem (the second is not the largest number of orders of a level: C65). |
| C70 | `Throughput.v`: the handler without executions, matching enabled first. Fields of a decoded message have their width (C68), so every call meets the preconditions and the open quantity stays below 2^64; all calls are `covered`, so C49 and C01 apply to the whole history. For a stream: `Spec26.asks` says which calls a feed message is to become. |
| C71 | `Throughput.v`: the same report on the state of C70 and the two-counter report of the ITCH program. The tally is related to the notifications (C65, C69); symbols and books by induction on the messages; maxima by C65. |
| C72 | `FastOk2.v`: the invariant of C53 with `oused` (every slot is free or holds a level); with injectivity of the levels and the free list without repetition the free list and the slots in use are a permutation of all slots. |
| C54, C55 | simulation of the feed tracker by the manager with matching off; composed with the ITCH decoder theorems (C40/C42) |
