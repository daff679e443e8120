(** * Tally.v -- the statistics the benchmark and the test program gather through the notifications. *)
From stdpp Require Import fin_maps.
From Verif Require Import Types Book Engine Manager.
Open Scope Z_scope.

(** MyMarketHandler of performance/market_manager.cpp:19-77 and of tests/test_market_manager.cpp:20-78: its counters (size_t). *)
Record tally := mkTally {
  t_updates : Z; t_symbols : Z; t_max_symbols : Z; t_order_books : Z; t_max_order_books : Z; t_max_levels : Z; t_max_level_orders : Z;
  t_orders : Z; t_max_orders : Z; t_add : Z; t_update : Z; t_delete : Z; t_execute : Z }.
(** MyMarketHandler(): performance/market_manager.cpp:22-36. *)
Definition no_tally : tally := mkTally 0 0 0 0 0 0 0 0 0 0 0 0 0.
(** ++ and -- on a size_t. *)
Definition inc (x : Z) : Z := u64 (x + 1).
Definition dec (x : Z) : Z := u64 (x - 1).
(** The callbacks: performance/market_manager.cpp:50-61, tests/test_market_manager.cpp:51-62.  A notification comes with the book it is about
    (callbacks about symbols and orders have none; the value is not looked at). *)
Definition tell (t : tally) (n : event * book) : tally :=
  let '(mkTally u s ms b mb ml mo o xo a m d x) := t in
  match fst n with
  | EAddSymbol _ => mkTally (inc u) (inc s) (Z.max (inc s) ms) b mb ml mo o xo a m d x
  | EDeleteSymbol _ => mkTally (inc u) (dec s) ms b mb ml mo o xo a m d x
  | EAddBook _ => mkTally (inc u) s ms (inc b) (Z.max (inc b) mb) ml mo o xo a m d x
  | EUpdateBook _ _ => mkTally u s ms b mb (Z.max (Z.max (Z.of_nat (length (s_lvls (b_bids (snd n))))) (Z.of_nat (length (s_lvls (b_asks (snd n)))))) ml) mo o xo a m d x
  | EDeleteBook _ => mkTally (inc u) s ms (dec b) mb ml mo o xo a m d x
  | EAddLevel _ _ _ | EDeleteLevel _ _ _ => mkTally (inc u) s ms b mb ml mo o xo a m d x
  | EUpdateLevel _ l _ => mkTally (inc u) s ms b mb ml (Z.max (li_count l) mo) o xo a m d x
  | EAddOrder _ => mkTally (inc u) s ms b mb ml mo (inc o) (Z.max (inc o) xo) (inc a) m d x
  | EUpdateOrder _ => mkTally (inc u) s ms b mb ml mo o xo a (inc m) d x
  | EDeleteOrder _ => mkTally (inc u) s ms b mb ml mo (dec o) xo a m (inc d) x
  | EExecute _ _ _ => mkTally (inc u) s ms b mb ml mo o xo a m d (inc x)
  end.
Definition tell_all (t : tally) (ns : list (event * book)) : tally := fold_left tell ns t.
