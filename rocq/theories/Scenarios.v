(** * Scenarios.v -- the repository's own unit tests (tests/test_matching_engine.cpp) replayed
    on the model.  These are TESTS of the model's faithfulness, not proofs of properties.
    Generated mechanically from the test file. *)
From Verif Require Import Manager Factory.

Inductive item := Do (o : op) | Req (f : state -> bool).
Fixpoint play (s : state) (l : list item) : bool :=
  match l with
  | [] => true
  | Do o :: l => match step s o with Ok (s, _) => play s l | _ => false end
  | Req f :: l => f s && play s l
  end.
Definition sumf (f : linfo -> Z) (sd : side) : Z :=
  foldr (fun l a => f (l_info l) + a) 0 (s_lvls sd).
Definition BookOrders (b : book) := (sumf li_count (b_bids b), sumf li_count (b_asks b)).
Definition BookVolume (b : book) := (sumf li_total (b_bids b), sumf li_total (b_asks b)).
Definition BookVisibleVolume (b : book) := (sumf li_visible (b_bids b), sumf li_visible (b_asks b)).
Definition BookStopOrders (b : book) :=
  (sumf li_count (b_bstop b) + sumf li_count (b_tbuy b), sumf li_count (b_sstop b) + sumf li_count (b_tsell b)).
Definition BookStopVolume (b : book) :=
  (sumf li_total (b_bstop b) + sumf li_total (b_tbuy b), sumf li_total (b_sstop b) + sumf li_total (b_tsell b)).
Definition chk (f : book -> Z * Z) (s : state) (x y : Z) : bool :=
  match get_book 0 s with Some b => bool_decide (f b = (x, y)) | None => false end.
Definition chko (i : Z) (f : order -> Z) (v : Z) (s : state) : bool :=
  match get_order i s with Some o => f o =? v | None => false end.

(** tests/test_matching_engine.cpp: "Automatic matching - market order" *)
Example repo_test_1 : play init [
  Do (AddSymbol (mkSymbol 0 0));
  Do (AddOrderBook (mkSymbol 0 0));
  Do (EnableMatching);
  Do (AddOrder (LimitOrder 1 0 BUY 10 10 GTC MAX64));
  Do (AddOrder (LimitOrder 2 0 BUY 10 20 GTC MAX64));
  Do (AddOrder (LimitOrder 3 0 BUY 10 30 GTC MAX64));
  Do (AddOrder (LimitOrder 4 0 BUY 20 10 GTC MAX64));
  Do (AddOrder (LimitOrder 5 0 BUY 20 20 GTC MAX64));
  Do (AddOrder (LimitOrder 6 0 BUY 20 30 GTC MAX64));
  Do (AddOrder (LimitOrder 7 0 BUY 30 10 GTC MAX64));
  Do (AddOrder (LimitOrder 8 0 BUY 30 20 GTC MAX64));
  Do (AddOrder (LimitOrder 9 0 BUY 30 30 GTC MAX64));
  Req (fun s => chk BookOrders s 9 0);
  Req (fun s => chk BookVolume s 180 0);
  Do (AddOrder (LimitOrder 10 0 SELL 40 30 GTC MAX64));
  Do (AddOrder (LimitOrder 11 0 SELL 40 20 GTC MAX64));
  Do (AddOrder (LimitOrder 12 0 SELL 40 10 GTC MAX64));
  Do (AddOrder (LimitOrder 13 0 SELL 50 30 GTC MAX64));
  Do (AddOrder (LimitOrder 14 0 SELL 50 20 GTC MAX64));
  Do (AddOrder (LimitOrder 15 0 SELL 50 10 GTC MAX64));
  Do (AddOrder (LimitOrder 16 0 SELL 60 30 GTC MAX64));
  Do (AddOrder (LimitOrder 17 0 SELL 60 20 GTC MAX64));
  Do (AddOrder (LimitOrder 18 0 SELL 60 10 GTC MAX64));
  Req (fun s => chk BookOrders s 9 9);
  Req (fun s => chk BookVolume s 180 180);
  Do (AddOrder (MarketOrder 19 0 SELL 15 MAX64));
  Req (fun s => chk BookOrders s 8 9);
  Req (fun s => chk BookVolume s 165 180);
  Do (AddOrder (MarketOrder 20 0 SELL 100 0));
  Req (fun s => chk BookOrders s 6 9);
  Req (fun s => chk BookVolume s 120 180);
  Do (AddOrder (MarketOrder 21 0 BUY 160 20));
  Req (fun s => chk BookOrders s 6 2);
  Req (fun s => chk BookVolume s 120 20);
  Do (AddOrder (MarketOrder 22 0 SELL 1000 MAX64));
  Req (fun s => chk BookOrders s 0 2);
  Req (fun s => chk BookVolume s 0 20);
  Do (AddOrder (MarketOrder 23 0 BUY 1000 MAX64));
  Req (fun s => chk BookOrders s 0 0);
  Req (fun s => chk BookVolume s 0 0)] = true.
Proof. vm_compute. reflexivity. Qed.

(** tests/test_matching_engine.cpp: "Automatic matching - limit order" *)
Example repo_test_2 : play init [
  Do (AddSymbol (mkSymbol 0 0));
  Do (AddOrderBook (mkSymbol 0 0));
  Do (EnableMatching);
  Do (AddOrder (LimitOrder 1 0 BUY 10 10 GTC MAX64));
  Do (AddOrder (LimitOrder 2 0 BUY 10 20 GTC MAX64));
  Do (AddOrder (LimitOrder 3 0 BUY 10 30 GTC MAX64));
  Do (AddOrder (LimitOrder 4 0 BUY 20 10 GTC MAX64));
  Do (AddOrder (LimitOrder 5 0 BUY 20 20 GTC MAX64));
  Do (AddOrder (LimitOrder 6 0 BUY 20 30 GTC MAX64));
  Do (AddOrder (LimitOrder 7 0 BUY 30 10 GTC MAX64));
  Do (AddOrder (LimitOrder 8 0 BUY 30 20 GTC MAX64));
  Do (AddOrder (LimitOrder 9 0 BUY 30 30 GTC MAX64));
  Req (fun s => chk BookOrders s 9 0);
  Req (fun s => chk BookVolume s 180 0);
  Do (AddOrder (LimitOrder 10 0 SELL 40 30 GTC MAX64));
  Do (AddOrder (LimitOrder 11 0 SELL 40 20 GTC MAX64));
  Do (AddOrder (LimitOrder 12 0 SELL 40 10 GTC MAX64));
  Do (AddOrder (LimitOrder 13 0 SELL 50 30 GTC MAX64));
  Do (AddOrder (LimitOrder 14 0 SELL 50 20 GTC MAX64));
  Do (AddOrder (LimitOrder 15 0 SELL 50 10 GTC MAX64));
  Do (AddOrder (LimitOrder 16 0 SELL 60 30 GTC MAX64));
  Do (AddOrder (LimitOrder 17 0 SELL 60 20 GTC MAX64));
  Do (AddOrder (LimitOrder 18 0 SELL 60 10 GTC MAX64));
  Req (fun s => chk BookOrders s 9 9);
  Req (fun s => chk BookVolume s 180 180);
  Do (AddOrder (LimitOrder 19 0 SELL 30 5 GTC MAX64));
  Do (AddOrder (LimitOrder 20 0 SELL 30 25 GTC MAX64));
  Do (AddOrder (LimitOrder 21 0 SELL 30 15 GTC MAX64));
  Do (AddOrder (LimitOrder 22 0 SELL 30 20 GTC MAX64));
  Req (fun s => chk BookOrders s 6 10);
  Req (fun s => chk BookVolume s 120 185);
  Do (AddOrder (LimitOrder 23 0 BUY 60 105 GTC MAX64));
  Req (fun s => chk BookOrders s 6 5);
  Req (fun s => chk BookVolume s 120 80);
  Do (ModifyOrder 15 20 20);
  Req (fun s => chk BookOrders s 5 4);
  Req (fun s => chk BookVolume s 100 70);
  Do (ReplaceOrder 2 24 70 100);
  Req (fun s => chk BookOrders s 5 0);
  Req (fun s => chk BookVolume s 110 0);
  Do (ReplaceWith 1 (LimitOrder 25 0 SELL 0 100 GTC MAX64));
  Req (fun s => chk BookOrders s 0 0);
  Req (fun s => chk BookVolume s 0 0)] = true.
Proof. vm_compute. reflexivity. Qed.

(** tests/test_matching_engine.cpp: "Automatic matching - 'Immediate-Or-Cancel' limit order" *)
Example repo_test_3 : play init [
  Do (AddSymbol (mkSymbol 0 0));
  Do (AddOrderBook (mkSymbol 0 0));
  Do (EnableMatching);
  Do (AddOrder (LimitOrder 1 0 BUY 10 10 GTC MAX64));
  Do (AddOrder (LimitOrder 2 0 BUY 20 20 GTC MAX64));
  Do (AddOrder (LimitOrder 3 0 BUY 30 30 GTC MAX64));
  Req (fun s => chk BookOrders s 3 0);
  Req (fun s => chk BookVolume s 60 0);
  Do (AddOrder (LimitOrder 4 0 SELL 10 100 IOC MAX64));
  Req (fun s => chk BookOrders s 0 0);
  Req (fun s => chk BookVolume s 0 0)] = true.
Proof. vm_compute. reflexivity. Qed.

(** tests/test_matching_engine.cpp: "Automatic matching - 'Fill-Or-Kill' limit order (filled)" *)
Example repo_test_4 : play init [
  Do (AddSymbol (mkSymbol 0 0));
  Do (AddOrderBook (mkSymbol 0 0));
  Do (EnableMatching);
  Do (AddOrder (LimitOrder 1 0 BUY 10 10 GTC MAX64));
  Do (AddOrder (LimitOrder 2 0 BUY 20 20 GTC MAX64));
  Do (AddOrder (LimitOrder 3 0 BUY 30 30 GTC MAX64));
  Req (fun s => chk BookOrders s 3 0);
  Req (fun s => chk BookVolume s 60 0);
  Do (AddOrder (LimitOrder 4 0 SELL 10 40 FOK MAX64));
  Req (fun s => chk BookOrders s 2 0);
  Req (fun s => chk BookVolume s 20 0)] = true.
Proof. vm_compute. reflexivity. Qed.

(** tests/test_matching_engine.cpp: "Automatic matching - 'Fill-Or-Kill' limit order (killed)" *)
Example repo_test_5 : play init [
  Do (AddSymbol (mkSymbol 0 0));
  Do (AddOrderBook (mkSymbol 0 0));
  Do (EnableMatching);
  Do (AddOrder (LimitOrder 1 0 BUY 10 10 GTC MAX64));
  Do (AddOrder (LimitOrder 2 0 BUY 20 20 GTC MAX64));
  Do (AddOrder (LimitOrder 3 0 BUY 30 30 GTC MAX64));
  Req (fun s => chk BookOrders s 3 0);
  Req (fun s => chk BookVolume s 60 0);
  Do (AddOrder (LimitOrder 4 0 SELL 10 100 FOK MAX64));
  Req (fun s => chk BookOrders s 3 0);
  Req (fun s => chk BookVolume s 60 0)] = true.
Proof. vm_compute. reflexivity. Qed.

(** tests/test_matching_engine.cpp: "Automatic matching - 'All-Or-None' limit order several levels full matching" *)
Example repo_test_6 : play init [
  Do (AddSymbol (mkSymbol 0 0));
  Do (AddOrderBook (mkSymbol 0 0));
  Do (EnableMatching);
  Do (AddOrder (LimitOrder 1 0 BUY 20 30 AON MAX64));
  Do (AddOrder (LimitOrder 2 0 BUY 20 10 GTC MAX64));
  Do (AddOrder (LimitOrder 3 0 BUY 30 30 AON MAX64));
  Do (AddOrder (LimitOrder 4 0 BUY 30 10 GTC MAX64));
  Req (fun s => chk BookOrders s 4 0);
  Req (fun s => chk BookVolume s 80 0);
  Do (AddOrder (LimitOrder 5 0 SELL 20 80 AON MAX64));
  Req (fun s => chk BookOrders s 0 0);
  Req (fun s => chk BookVolume s 0 0)] = true.
Proof. vm_compute. reflexivity. Qed.

(** tests/test_matching_engine.cpp: "Automatic matching - 'All-Or-None' limit order several levels partial matching" *)
Example repo_test_7 : play init [
  Do (AddSymbol (mkSymbol 0 0));
  Do (AddOrderBook (mkSymbol 0 0));
  Do (EnableMatching);
  Do (AddOrder (LimitOrder 1 0 BUY 20 30 AON MAX64));
  Do (AddOrder (LimitOrder 2 0 BUY 20 10 GTC MAX64));
  Do (AddOrder (LimitOrder 3 0 BUY 30 30 AON MAX64));
  Do (AddOrder (LimitOrder 4 0 BUY 30 10 GTC MAX64));
  Req (fun s => chk BookOrders s 4 0);
  Req (fun s => chk BookVolume s 80 0);
  Do (AddOrder (LimitOrder 5 0 SELL 20 100 AON MAX64));
  Req (fun s => chk BookOrders s 4 1);
  Req (fun s => chk BookVolume s 80 100);
  Do (AddOrder (LimitOrder 6 0 BUY 20 20 AON MAX64));
  Req (fun s => chk BookOrders s 0 0);
  Req (fun s => chk BookVolume s 0 0)] = true.
Proof. vm_compute. reflexivity. Qed.

(** tests/test_matching_engine.cpp: "Automatic matching - 'All-Or-None' limit order complex matching" *)
Example repo_test_8 : play init [
  Do (AddSymbol (mkSymbol 0 0));
  Do (AddOrderBook (mkSymbol 0 0));
  Do (EnableMatching);
  Do (AddOrder (LimitOrder 1 0 BUY 10 20 AON MAX64));
  Do (AddOrder (LimitOrder 2 0 SELL 10 10 AON MAX64));
  Do (AddOrder (LimitOrder 3 0 SELL 10 5 GTC MAX64));
  Do (AddOrder (LimitOrder 4 0 SELL 10 15 AON MAX64));
  Do (AddOrder (LimitOrder 5 0 BUY 10 5 GTC MAX64));
  Do (AddOrder (LimitOrder 6 0 BUY 10 20 AON MAX64));
  Req (fun s => chk BookOrders s 3 3);
  Req (fun s => chk BookVolume s 45 30);
  Do (AddOrder (LimitOrder 7 0 SELL 10 15 GTC MAX64));
  Req (fun s => chk BookOrders s 0 0);
  Req (fun s => chk BookVolume s 0 0)] = true.
Proof. vm_compute. reflexivity. Qed.

(** tests/test_matching_engine.cpp: "Automatic matching - 'Hidden' limit order" *)
Example repo_test_9 : play init [
  Do (AddSymbol (mkSymbol 0 0));
  Do (AddOrderBook (mkSymbol 0 0));
  Do (EnableMatching);
  Do (AddOrder (LimitOrder 1 0 BUY 10 10 GTC 5));
  Do (AddOrder (LimitOrder 2 0 BUY 20 20 GTC 10));
  Do (AddOrder (LimitOrder 3 0 BUY 30 30 GTC 15));
  Req (fun s => chk BookOrders s 3 0);
  Req (fun s => chk BookVolume s 60 0);
  Req (fun s => chk BookVisibleVolume s 30 0);
  Do (AddOrder (MarketOrder 4 0 SELL 55 MAX64));
  Req (fun s => chk BookOrders s 1 0);
  Req (fun s => chk BookVolume s 5 0);
  Req (fun s => chk BookVisibleVolume s 5 0)] = true.
Proof. vm_compute. reflexivity. Qed.

(** tests/test_matching_engine.cpp: "Automatic matching - stop order" *)
Example repo_test_10 : play init [
  Do (AddSymbol (mkSymbol 0 0));
  Do (AddOrderBook (mkSymbol 0 0));
  Do (EnableMatching);
  Do (AddOrder (LimitOrder 1 0 BUY 10 10 GTC MAX64));
  Do (AddOrder (LimitOrder 2 0 BUY 20 20 GTC MAX64));
  Do (AddOrder (LimitOrder 3 0 BUY 30 30 GTC MAX64));
  Req (fun s => chk BookOrders s 3 0);
  Req (fun s => chk BookVolume s 60 0);
  Req (fun s => chk BookStopOrders s 0 0);
  Req (fun s => chk BookStopVolume s 0 0);
  Do (AddOrder (StopOrder 4 0 SELL 40 60 GTC MAX64));
  Req (fun s => chk BookOrders s 0 0);
  Req (fun s => chk BookVolume s 0 0);
  Req (fun s => chk BookStopOrders s 0 0);
  Req (fun s => chk BookStopVolume s 0 0);
  Do (AddOrder (LimitOrder 5 0 SELL 30 30 GTC MAX64));
  Do (AddOrder (StopOrder 6 0 BUY 40 40 GTC MAX64));
  Do (AddOrder (LimitOrder 7 0 SELL 60 60 GTC MAX64));
  Req (fun s => chk BookOrders s 0 2);
  Req (fun s => chk BookVolume s 0 90);
  Req (fun s => chk BookStopOrders s 1 0);
  Req (fun s => chk BookStopVolume s 40 0);
  Do (AddOrder (LimitOrder 8 0 BUY 40 40 GTC MAX64));
  Req (fun s => chk BookOrders s 1 1);
  Req (fun s => chk BookVolume s 10 20);
  Req (fun s => chk BookStopOrders s 0 0);
  Req (fun s => chk BookStopVolume s 0 0)] = true.
Proof. vm_compute. reflexivity. Qed.

(** tests/test_matching_engine.cpp: "Automatic matching - stop order with an empty market" *)
Example repo_test_11 : play init [
  Do (AddSymbol (mkSymbol 0 0));
  Do (AddOrderBook (mkSymbol 0 0));
  Do (EnableMatching);
  Do (AddOrder (StopOrder 1 0 SELL 10 10 GTC MAX64));
  Req (fun s => chk BookOrders s 0 0);
  Req (fun s => chk BookVolume s 0 0);
  Req (fun s => chk BookStopOrders s 0 0);
  Req (fun s => chk BookStopVolume s 0 0);
  Do (AddOrder (StopOrder 2 0 BUY 20 20 GTC MAX64));
  Req (fun s => chk BookOrders s 0 0);
  Req (fun s => chk BookVolume s 0 0);
  Req (fun s => chk BookStopOrders s 0 0);
  Req (fun s => chk BookStopVolume s 0 0)] = true.
Proof. vm_compute. reflexivity. Qed.

(** tests/test_matching_engine.cpp: "Automatic matching - stop-limit order" *)
Example repo_test_12 : play init [
  Do (AddSymbol (mkSymbol 0 0));
  Do (AddOrderBook (mkSymbol 0 0));
  Do (EnableMatching);
  Do (AddOrder (LimitOrder 1 0 BUY 10 10 GTC MAX64));
  Do (AddOrder (LimitOrder 2 0 BUY 20 20 GTC MAX64));
  Do (AddOrder (LimitOrder 3 0 BUY 30 30 GTC MAX64));
  Req (fun s => chk BookOrders s 3 0);
  Req (fun s => chk BookVolume s 60 0);
  Req (fun s => chk BookStopOrders s 0 0);
  Req (fun s => chk BookStopVolume s 0 0);
  Do (AddOrder (StopLimitOrder 4 0 SELL 40 20 40 GTC MAX64));
  Req (fun s => chk BookOrders s 2 0);
  Req (fun s => chk BookVolume s 20 0);
  Req (fun s => chk BookStopOrders s 0 0);
  Req (fun s => chk BookStopVolume s 0 0);
  Do (AddOrder (StopLimitOrder 5 0 SELL 30 10 30 GTC MAX64));
  Req (fun s => chk BookOrders s 0 1);
  Req (fun s => chk BookVolume s 0 10);
  Req (fun s => chk BookStopOrders s 0 0);
  Req (fun s => chk BookStopVolume s 0 0);
  Do (AddOrder (StopLimitOrder 6 0 BUY 20 10 10 GTC MAX64));
  Do (AddOrder (LimitOrder 7 0 SELL 20 20 GTC MAX64));
  Req (fun s => chk BookOrders s 0 2);
  Req (fun s => chk BookVolume s 0 30);
  Req (fun s => chk BookStopOrders s 1 0);
  Req (fun s => chk BookStopVolume s 10 0);
  Do (AddOrder (LimitOrder 7 0 BUY 20 30 GTC MAX64));
  Req (fun s => chk BookOrders s 1 0);
  Req (fun s => chk BookVolume s 10 0);
  Req (fun s => chk BookStopOrders s 0 0);
  Req (fun s => chk BookStopVolume s 0 0)] = true.
Proof. vm_compute. reflexivity. Qed.

(** tests/test_matching_engine.cpp: "Automatic matching - stop-limit order with an empty market" *)
Example repo_test_13 : play init [
  Do (AddSymbol (mkSymbol 0 0));
  Do (AddOrderBook (mkSymbol 0 0));
  Do (EnableMatching);
  Do (AddOrder (StopLimitOrder 1 0 SELL 10 30 30 GTC MAX64));
  Req (fun s => chk BookOrders s 0 1);
  Req (fun s => chk BookVolume s 0 30);
  Req (fun s => chk BookStopOrders s 0 0);
  Req (fun s => chk BookStopVolume s 0 0);
  Do (DeleteOrder 1);
  Do (AddOrder (StopLimitOrder 2 0 BUY 30 10 10 GTC MAX64));
  Req (fun s => chk BookOrders s 1 0);
  Req (fun s => chk BookVolume s 10 0);
  Req (fun s => chk BookStopOrders s 0 0);
  Req (fun s => chk BookStopVolume s 0 0);
  Do (DeleteOrder 2)] = true.
Proof. vm_compute. reflexivity. Qed.

(** tests/test_matching_engine.cpp: "Automatic matching - trailing stop order" *)
Example repo_test_14 : play init [
  Do (AddSymbol (mkSymbol 0 0));
  Do (AddOrderBook (mkSymbol 0 0));
  Do (EnableMatching);
  Do (AddOrder (LimitOrder 1 0 BUY 100 20 GTC MAX64));
  Do (AddOrder (LimitOrder 2 0 SELL 200 20 GTC MAX64));
  Do (AddOrder (MarketOrder 3 0 SELL 10 MAX64));
  Do (AddOrder (MarketOrder 4 0 BUY 10 MAX64));
  Req (fun s => chk BookOrders s 1 1);
  Req (fun s => chk BookVolume s 10 10);
  Req (fun s => chk BookStopOrders s 0 0);
  Req (fun s => chk BookStopVolume s 0 0);
  Do (AddOrder (TrailingStopOrder 5 0 BUY 1000 10 10 5 GTC MAX64));
  Do (AddOrder (TrailingStopLimitOrder 6 0 SELL 0 10 10 (-1000) (-500) GTC MAX64));
  Req (fun s => chko 5 o_stop 210 s);
  Req (fun s => chko 6 o_stop 90 s);
  Req (fun s => chko 6 o_price 100 s);
  Req (fun s => chk BookOrders s 1 1);
  Req (fun s => chk BookVolume s 10 10);
  Req (fun s => chk BookStopOrders s 1 1);
  Req (fun s => chk BookStopVolume s 10 10);
  Do (ModifyOrder 1 103 20);
  Req (fun s => chko 6 o_stop 90 s);
  Req (fun s => chko 6 o_price 100 s);
  Do (ModifyOrder 1 120 20);
  Req (fun s => chko 6 o_stop 108 s);
  Req (fun s => chko 6 o_price 118 s);
  Do (ModifyOrder 2 197 20);
  Req (fun s => chko 5 o_stop 210 s);
  Do (ModifyOrder 2 180 20);
  Req (fun s => chko 5 o_stop 210 s);
  Do (ModifyOrder 2 197 20);
  Do (AddOrder (MarketOrder 7 0 BUY 10 MAX64));
  Req (fun s => chko 5 o_stop 210 s);
  Do (ModifyOrder 2 180 20);
  Do (AddOrder (MarketOrder 7 0 BUY 10 MAX64));
  Req (fun s => chko 5 o_stop 190 s)] = true.
Proof. vm_compute. reflexivity. Qed.

(** tests/test_matching_engine.cpp: "In-Flight Mitigation" *)
Example repo_test_15 : play init [
  Do (AddSymbol (mkSymbol 0 0));
  Do (AddOrderBook (mkSymbol 0 0));
  Do (EnableMatching);
  Do (AddOrder (LimitOrder 1 0 BUY 10 100 GTC MAX64));
  Req (fun s => chk BookOrders s 1 0);
  Req (fun s => chk BookVolume s 100 0);
  Do (AddOrder (LimitOrder 2 0 SELL 20 100 GTC MAX64));
  Req (fun s => chk BookOrders s 1 1);
  Req (fun s => chk BookVolume s 100 100);
  Do (AddOrder (LimitOrder 3 0 SELL 10 20 GTC MAX64));
  Do (AddOrder (LimitOrder 4 0 BUY 20 20 GTC MAX64));
  Req (fun s => chk BookOrders s 1 1);
  Req (fun s => chk BookVolume s 80 80);
  Do (MitigateOrder 1 10 150);
  Do (MitigateOrder 2 20 50);
  Req (fun s => chk BookOrders s 1 1);
  Req (fun s => chk BookVolume s 130 30);
  Do (MitigateOrder 1 10 20);
  Do (MitigateOrder 2 20 10);
  Req (fun s => chk BookOrders s 0 0);
  Req (fun s => chk BookVolume s 0 0)] = true.
Proof. vm_compute. reflexivity. Qed.

(** tests/test_matching_engine.cpp: "Manual matching" *)
Example repo_test_16 : play init [
  Do (AddSymbol (mkSymbol 0 0));
  Do (AddOrderBook (mkSymbol 0 0));
  Do (AddOrder (LimitOrder 1 0 BUY 10 10 GTC MAX64));
  Do (AddOrder (LimitOrder 2 0 BUY 10 20 GTC MAX64));
  Do (AddOrder (LimitOrder 3 0 BUY 10 30 GTC MAX64));
  Do (AddOrder (LimitOrder 4 0 BUY 20 10 GTC MAX64));
  Do (AddOrder (LimitOrder 5 0 BUY 20 20 GTC MAX64));
  Do (AddOrder (LimitOrder 6 0 BUY 20 30 GTC MAX64));
  Do (AddOrder (LimitOrder 7 0 BUY 30 10 GTC MAX64));
  Do (AddOrder (LimitOrder 8 0 BUY 30 20 GTC MAX64));
  Do (AddOrder (LimitOrder 9 0 BUY 30 30 GTC MAX64));
  Req (fun s => chk BookOrders s 9 0);
  Req (fun s => chk BookVolume s 180 0);
  Do (AddOrder (LimitOrder 10 0 SELL 10 30 GTC MAX64));
  Do (AddOrder (LimitOrder 11 0 SELL 10 20 GTC MAX64));
  Do (AddOrder (LimitOrder 12 0 SELL 10 10 GTC MAX64));
  Do (AddOrder (LimitOrder 13 0 SELL 20 30 GTC MAX64));
  Do (AddOrder (LimitOrder 14 0 SELL 20 25 GTC MAX64));
  Do (AddOrder (LimitOrder 15 0 SELL 20 10 GTC MAX64));
  Do (AddOrder (LimitOrder 16 0 SELL 30 30 GTC MAX64));
  Do (AddOrder (LimitOrder 17 0 SELL 30 20 GTC MAX64));
  Do (AddOrder (LimitOrder 18 0 SELL 30 10 GTC MAX64));
  Req (fun s => chk BookOrders s 9 9);
  Req (fun s => chk BookVolume s 180 185);
  Do (Match);
  Req (fun s => chk BookOrders s 3 4);
  Req (fun s => chk BookVolume s 60 65)] = true.
Proof. vm_compute. reflexivity. Qed.
