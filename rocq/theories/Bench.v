(** * Bench.v -- model of performance/market_manager.cpp: the throughput program and its report.

    The program reads its input in blocks (any cutting; the model takes the list of blocks), hands each
    to the ITCH decoder without looking at what Process returns (154-158), and prints what its two
    handlers counted.  The clock (Timestamp::nano, 153 and 159) is a parameter: the number of
    nanoseconds that went by.  GenerateTimePeriod of the benchmark library is left out: the model gives
    the number it is handed.  The option parser and the choice of the input are not modelled.  As in
    Example.v the calls are made after decoding, which no one can tell. *)
From Coq Require Import String.
From Verif Require Import Types Book Engine Manager Itch Drive ItchPrint Tally.
Open Scope Z_scope. Open Scope list_scope.

(** ++_messages or ++_errors, on a size_t: performance/market_manager.cpp:92-113.  The callback for
    UnknownMessage (113) counts an error, every other (92-112) a message. *)
Definition note (c : Z * Z) (m : message) : Z * Z :=
  if String.eqb (m_struct m) "UnknownMessage" then (fst c, inc (snd c)) else (inc (fst c), snd c).
(** MyITCHHandler(market): 82-86; the messages() and errors() after a stream: 88-89 *)
Definition note_all (l : list message) : Z * Z := fold_left note l (0, 0).
(** Division of uint64_t: undefined by zero. *)
Definition div64 (a b : Z) : res Z := if b =? 0 then Undef else Ok (a / b).
(** The report: 164-194.  Each line as its label and its number; the empty lines and "Market statistics: " and so on are left out.  A
    division by zero ends the program (the lines before have been printed). *)
Definition report (c : Z * Z) (t : tally) (elapsed : Z) : res (list (string * Z)) :=
  do l1 <- div64 elapsed (fst c);
  do h1 <- div64 (u64 (fst c * 1000000000)) elapsed;
  do l2 <- div64 elapsed (t_updates t);
  do h2 <- div64 (u64 (t_updates t * 1000000000)) elapsed;
  Ok [("Errors", snd c); ("Processing time", elapsed); ("Total ITCH messages", fst c); ("ITCH message latency", l1); ("ITCH message throughput", h1);
      ("Total market updates", t_updates t); ("Market update latency", l2); ("Market update throughput", h2);
      ("Max symbols", t_max_symbols t); ("Max order books", t_max_order_books t); ("Max order book levels", t_max_levels t);
      ("Max order book orders", t_max_level_orders t); ("Max orders", t_max_orders t);
      ("Add order operations", t_add t); ("Update order operations", t_update t); ("Delete order operations", t_delete t);
      ("Execute order operations", t_execute t)]%string.
(** main: 121-197.  [hear] adds to every notification the book it comes with. *)
Definition performance (bh : bool) (hear : list event -> list (event * book)) (elapsed : Z) (blocks : list (list Z)) : res (list (string * Z)) :=
  do d <- run_blocks bh blocks new_dec; do s <- run init (flat_map handler_calls (d_log d));
  report (note_all (d_log d)) (tell_all no_tally (hear (st_log s))) elapsed.
