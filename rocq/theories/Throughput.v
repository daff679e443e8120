(** * Throughput.v -- model of the other two throughput programs: performance/matching_engine.cpp and
    performance/itch_handler.cpp.

    performance/matching_engine.cpp is performance/market_manager.cpp (Bench.v) with two differences:
    its onMessage for OrderExecutedMessage and OrderExecutedWithPriceMessage (102-103) only counts, and
    main enables matching before the stream (140-141).  Its MyMarketHandler (19-77) and its report
    (167-197) are the same text.  performance/itch_handler.cpp has the handler that only counts (18-55,
    the same as tests/test_itch_handler.cpp:16-54) and the first half of the report (98-107).  Left out
    as in Bench.v: the option parser, the choice of the input, GenerateTimePeriod. *)
From Coq Require Import String.
From Verif Require Import Types Book Engine Manager Itch Drive ItchPrint Tally Bench.
Open Scope Z_scope. Open Scope list_scope.

(** MyITCHHandler::onMessage: performance/matching_engine.cpp:92-113 *)
Definition engine_calls (m : message) : list op :=
  if String.eqb (m_struct m) "OrderExecutedMessage" || String.eqb (m_struct m) "OrderExecutedWithPriceMessage" then [] else handler_calls m.
(** main up to the end of the stream: performance/matching_engine.cpp:136-163 *)
Definition market_engine (bh : bool) (blocks : list (list Z)) : res state :=
  do d <- run_blocks bh blocks new_dec; run init (EnableMatching :: flat_map engine_calls (d_log d)).
(** main with the report: performance/matching_engine.cpp:121-200 *)
Definition matching_engine (bh : bool) (hear : list event -> list (event * book)) (elapsed : Z) (blocks : list (list Z)) : res (list (string * Z)) :=
  do d <- run_blocks bh blocks new_dec; do s <- run init (EnableMatching :: flat_map engine_calls (d_log d));
  report (note_all (d_log d)) (tell_all no_tally (hear (st_log s))) elapsed.
(** The report of performance/itch_handler.cpp:98-107 *)
Definition itch_report (c : Z * Z) (elapsed : Z) : res (list (string * Z)) :=
  do l1 <- div64 elapsed (fst c);
  do h1 <- div64 (u64 (fst c * 1000000000)) elapsed;
  Ok [("Errors", snd c); ("Processing time", elapsed); ("Total ITCH messages", fst c); ("ITCH message latency", l1); ("ITCH message throughput", h1)]%string.
(** main: performance/itch_handler.cpp:57-110 *)
Definition itch_throughput (bh : bool) (elapsed : Z) (blocks : list (list Z)) : res (list (string * Z)) :=
  do d <- run_blocks bh blocks new_dec; itch_report (note_all (d_log d)) elapsed.
