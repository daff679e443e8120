(** * Types.v -- data types of the CppTrader matching engine model.

    Everything here is executable; no proofs.  Citations are file:lines
    relative to /repo. *)
From stdpp Require Export base option list gmap.
From Coq Require Export ZArith Lia Bool.
Export ListNotations.
Open Scope Z_scope.

(** ** 64-bit arithmetic.
    The C++ uses [uint64_t] throughout (include/trader/matching/order.h:110-190).
    Values are [Z]; every operation that can wrap is written with [u64]. *)
Definition MAX64 : Z := 18446744073709551615.
Definition TWO64 : Z := 18446744073709551616.
Definition TWO32 : Z := 4294967296.
Definition TWO63 : Z := 9223372036854775808.
Definition u64 (x : Z) : Z := x mod TWO64.
Definition u32 (x : Z) : Z := x mod TWO32.

(** ** Outcomes.
    [Undef]: undefined behaviour in C++ (null or dangling pointer dereference, out of
    range vector access), also used when the pointer structure of the C++ cannot be
    represented any more by the model; [Fuel]: a loop bound was exhausted (possible
    non-termination).  Neither looks like a normal result. *)
Inductive res (A : Type) : Type :=
| Ok (a : A)
| Undef
| Fuel.
Arguments Ok {A} a.
Arguments Undef {A}.
Arguments Fuel {A}.

Definition rbind {A B} (m : res A) (f : A -> res B) : res B :=
  match m with Ok a => f a | Undef => Undef | Fuel => Fuel end.
Definition rmap {A B} (f : A -> B) (m : res A) : res B :=
  match m with Ok a => Ok (f a) | Undef => Undef | Fuel => Fuel end.
Definition of_opt {A} (m : option A) : res A :=
  match m with Some a => Ok a | None => Undef end.

Declare Scope res_scope.
Notation "'do' x <- m ; k" := (rbind m (fun x => k))
  (at level 200, x name, m at level 100, k at level 200, right associativity) : res_scope.
Notation "'do' ' x <- m ; k" := (rbind m (fun v => match v with x => k end))
  (at level 200, x strict pattern, m at level 100, k at level 200, right associativity) : res_scope.
Open Scope res_scope.

(** ** Enumerations: include/trader/matching/order.h:27-96, errors.h:20-33.
    Out-of-range enum values are not modelled. *)
Inductive otype := MARKET | LIMIT | STOP | STOP_LIMIT | TRAILING_STOP | TRAILING_STOP_LIMIT.
Inductive oside := BUY | SELL.
Inductive otif := GTC | IOC | FOK | AON.
Inductive err :=
| OK
| SYMBOL_DUPLICATE | SYMBOL_NOT_FOUND
| ORDER_BOOK_DUPLICATE | ORDER_BOOK_NOT_FOUND
| ORDER_DUPLICATE | ORDER_NOT_FOUND
| ORDER_ID_INVALID | ORDER_TYPE_INVALID | ORDER_PARAMETER_INVALID | ORDER_QUANTITY_INVALID.

Global Instance otype_eq_dec : EqDecision otype.
Proof. solve_decision. Defined.
Global Instance oside_eq_dec : EqDecision oside.
Proof. solve_decision. Defined.
Global Instance otif_eq_dec : EqDecision otif.
Proof. solve_decision. Defined.
Global Instance err_eq_dec : EqDecision err.
Proof. solve_decision. Defined.

(** ** Order: include/trader/matching/order.h:100-190 (struct Order). The [Level]
    pointer of OrderNode (order.h:300-315) is not stored: it is found again from the
    order's collection, price and id (see Book.v). *)
Record order := mkOrder {
  o_id : Z;          (* Id                 uint64 *)
  o_sym : Z;         (* SymbolId           uint32 *)
  o_type : otype;    (* Type *)
  o_side : oside;    (* Side *)
  o_price : Z;       (* Price              uint64 *)
  o_stop : Z;        (* StopPrice          uint64 *)
  o_qty : Z;         (* Quantity           uint64 *)
  o_exec : Z;        (* ExecutedQuantity   uint64 *)
  o_leaves : Z;      (* LeavesQuantity     uint64 *)
  o_tif : otif;      (* TimeInForce *)
  o_maxvis : Z;      (* MaxVisibleQuantity uint64 *)
  o_slip : Z;        (* Slippage           uint64 *)
  o_tdist : Z;       (* TrailingDistance   int64 *)
  o_tstep : Z        (* TrailingStep       int64 *)
}.

Global Instance order_eq_dec : EqDecision order.
Proof. solve_decision. Defined.

(** Field updates. *)
Definition set_leaves (q : Z) (o : order) : order :=
  mkOrder (o_id o) (o_sym o) (o_type o) (o_side o) (o_price o) (o_stop o) (o_qty o) (o_exec o) q
          (o_tif o) (o_maxvis o) (o_slip o) (o_tdist o) (o_tstep o).
Definition set_exec (x : Z) (o : order) : order :=
  mkOrder (o_id o) (o_sym o) (o_type o) (o_side o) (o_price o) (o_stop o) (o_qty o) x (o_leaves o)
          (o_tif o) (o_maxvis o) (o_slip o) (o_tdist o) (o_tstep o).
Definition set_price (p : Z) (o : order) : order :=
  mkOrder (o_id o) (o_sym o) (o_type o) (o_side o) p (o_stop o) (o_qty o) (o_exec o) (o_leaves o)
          (o_tif o) (o_maxvis o) (o_slip o) (o_tdist o) (o_tstep o).
Definition set_stop (p : Z) (o : order) : order :=
  mkOrder (o_id o) (o_sym o) (o_type o) (o_side o) (o_price o) p (o_qty o) (o_exec o) (o_leaves o)
          (o_tif o) (o_maxvis o) (o_slip o) (o_tdist o) (o_tstep o).
Definition set_qty (q : Z) (o : order) : order :=
  mkOrder (o_id o) (o_sym o) (o_type o) (o_side o) (o_price o) (o_stop o) q (o_exec o) (o_leaves o)
          (o_tif o) (o_maxvis o) (o_slip o) (o_tdist o) (o_tstep o).
Definition set_id (i : Z) (o : order) : order :=
  mkOrder i (o_sym o) (o_type o) (o_side o) (o_price o) (o_stop o) (o_qty o) (o_exec o) (o_leaves o)
          (o_tif o) (o_maxvis o) (o_slip o) (o_tdist o) (o_tstep o).
Definition set_type (t : otype) (o : order) : order :=
  mkOrder (o_id o) (o_sym o) t (o_side o) (o_price o) (o_stop o) (o_qty o) (o_exec o) (o_leaves o)
          (o_tif o) (o_maxvis o) (o_slip o) (o_tdist o) (o_tstep o).
Definition set_tif (t : otif) (o : order) : order :=
  mkOrder (o_id o) (o_sym o) (o_type o) (o_side o) (o_price o) (o_stop o) (o_qty o) (o_exec o) (o_leaves o)
          t (o_maxvis o) (o_slip o) (o_tdist o) (o_tstep o).

(** ** Order predicates: include/trader/matching/order.h:216-252. *)
Definition is_market o := bool_decide (o_type o = MARKET).
Definition is_limit o := bool_decide (o_type o = LIMIT).
Definition is_stop o := bool_decide (o_type o = STOP).
Definition is_stop_limit o := bool_decide (o_type o = STOP_LIMIT).
Definition is_trailing_stop o := bool_decide (o_type o = TRAILING_STOP).
Definition is_trailing_stop_limit o := bool_decide (o_type o = TRAILING_STOP_LIMIT).
Definition is_buy o := bool_decide (o_side o = BUY).
Definition is_ioc o := bool_decide (o_tif o = IOC).
Definition is_fok o := bool_decide (o_tif o = FOK).
Definition is_aon o := bool_decide (o_tif o = AON).
Definition is_iceberg o := o_maxvis o <? MAX64.
Definition is_slippage o := o_slip o <? MAX64.

(** HiddenQuantity / VisibleQuantity: include/trader/matching/order.h:163-166. *)
Definition hidden_q (o : order) : Z :=
  if o_maxvis o <? o_leaves o then o_leaves o - o_maxvis o else 0.
Definition visible_q (o : order) : Z := Z.min (o_leaves o) (o_maxvis o).

(** ** Order::Validate: source/trader/matching/order.cpp:14-92. *)
Definition validate (o : order) : err :=
  if o_id o =? 0 then ORDER_ID_INVALID
  else if o_qty o <? o_leaves o then ORDER_QUANTITY_INVALID
  else if o_leaves o =? 0 then ORDER_QUANTITY_INVALID
  else if is_market o && negb (is_ioc o) && negb (is_fok o) then ORDER_PARAMETER_INVALID
  else if is_market o && is_iceberg o then ORDER_PARAMETER_INVALID
  else if is_limit o && is_slippage o then ORDER_PARAMETER_INVALID
  else if (is_stop o || is_trailing_stop o) && is_aon o then ORDER_PARAMETER_INVALID
  else if (is_stop o || is_trailing_stop o) && is_iceberg o then ORDER_PARAMETER_INVALID
  else if (is_stop_limit o || is_trailing_stop_limit o) && is_slippage o then ORDER_PARAMETER_INVALID
  else if is_trailing_stop o || is_trailing_stop_limit o then
    if o_tdist o =? 0 then ORDER_PARAMETER_INVALID
    else if 0 <? o_tdist o then
      if (o_tstep o <? 0) || (o_tdist o <=? o_tstep o) then ORDER_PARAMETER_INVALID else OK
    else
      if (-1 <? o_tdist o) || (o_tdist o <? -1000) then ORDER_PARAMETER_INVALID
      else if (0 <? o_tstep o) || (o_tstep o <=? o_tdist o) then ORDER_PARAMETER_INVALID else OK
  else OK.

(** ** Levels: include/trader/matching/level.h:27-110, level.inl:32-41. *)
Inductive ltype := BID | ASK.
Global Instance ltype_eq_dec : EqDecision ltype.
Proof. solve_decision. Defined.

Record linfo := mkLinfo {
  li_type : ltype; li_price : Z; li_total : Z; li_hidden : Z; li_visible : Z; li_count : Z }.
Global Instance linfo_eq_dec : EqDecision linfo.
Proof. solve_decision. Defined.

(** LevelNode: the Level data plus its intrusive order list (here: the ids, in queue order). *)
Record level := mkLevel { l_info : linfo; l_ids : list Z }.
Definition l_price (l : level) : Z := li_price (l_info l).

(** ** The six level collections of a book: order_book.h:120-190.
    Bids and sell stops have their best level at the highest price ([desc]), the others at
    the lowest one; their levels carry LevelType BID resp. ASK
    (order_book.cpp:66-96, 218-248, 349-379). *)
Inductive kind := KBid | KAsk | KBuyStop | KSellStop | KTrailBuy | KTrailSell.
Global Instance kind_eq_dec : EqDecision kind.
Proof. solve_decision. Defined.

Definition desc (k : kind) : bool :=
  match k with KBid | KSellStop | KTrailSell => true | KAsk | KBuyStop | KTrailBuy => false end.
Definition ltype_of (k : kind) : ltype := if desc k then BID else ASK.
(** [better k p q]: price [p] comes strictly before [q] in collection [k]. *)
Definition better (k : kind) (p q : Z) : bool := if desc k then q <? p else p <? q.

Record side := mkSide { s_best : option Z; s_lvls : list level }.

(** ** Symbol: include/trader/matching/symbol.h:19-25 (name kept as an opaque number). *)
Record symbol := mkSymbol { sy_id : Z; sy_name : Z }.

(** ** OrderBook: include/trader/matching/order_book.h:120-200. *)
Record book := mkBook {
  b_sym : symbol;
  b_bids : side; b_asks : side;
  b_bstop : side; b_sstop : side;
  b_tbuy : side; b_tsell : side;
  b_last_bid : Z; b_last_ask : Z;
  b_match_bid : Z; b_match_ask : Z;
  b_trail_bid : Z; b_trail_ask : Z }.

(** OrderBook::OrderBook: order_book.cpp:15-31. *)
Definition empty_side : side := mkSide None [].
Definition new_book (s : symbol) : book :=
  mkBook s empty_side empty_side empty_side empty_side empty_side empty_side
         0 MAX64 0 MAX64 0 MAX64.

Definition get_side (k : kind) (b : book) : side :=
  match k with
  | KBid => b_bids b | KAsk => b_asks b
  | KBuyStop => b_bstop b | KSellStop => b_sstop b
  | KTrailBuy => b_tbuy b | KTrailSell => b_tsell b
  end.
Definition set_side (k : kind) (s : side) (b : book) : book :=
  match k with
  | KBid => mkBook (b_sym b) s (b_asks b) (b_bstop b) (b_sstop b) (b_tbuy b) (b_tsell b)
              (b_last_bid b) (b_last_ask b) (b_match_bid b) (b_match_ask b) (b_trail_bid b) (b_trail_ask b)
  | KAsk => mkBook (b_sym b) (b_bids b) s (b_bstop b) (b_sstop b) (b_tbuy b) (b_tsell b)
              (b_last_bid b) (b_last_ask b) (b_match_bid b) (b_match_ask b) (b_trail_bid b) (b_trail_ask b)
  | KBuyStop => mkBook (b_sym b) (b_bids b) (b_asks b) s (b_sstop b) (b_tbuy b) (b_tsell b)
              (b_last_bid b) (b_last_ask b) (b_match_bid b) (b_match_ask b) (b_trail_bid b) (b_trail_ask b)
  | KSellStop => mkBook (b_sym b) (b_bids b) (b_asks b) (b_bstop b) s (b_tbuy b) (b_tsell b)
              (b_last_bid b) (b_last_ask b) (b_match_bid b) (b_match_ask b) (b_trail_bid b) (b_trail_ask b)
  | KTrailBuy => mkBook (b_sym b) (b_bids b) (b_asks b) (b_bstop b) (b_sstop b) s (b_tsell b)
              (b_last_bid b) (b_last_ask b) (b_match_bid b) (b_match_ask b) (b_trail_bid b) (b_trail_ask b)
  | KTrailSell => mkBook (b_sym b) (b_bids b) (b_asks b) (b_bstop b) (b_sstop b) (b_tbuy b) s
              (b_last_bid b) (b_last_ask b) (b_match_bid b) (b_match_ask b) (b_trail_bid b) (b_trail_ask b)
  end.

(** Price fields: order_book.inl:136-158 (UpdateLastPrice, UpdateMatchingPrice, ResetMatchingPrice). *)
Definition set_prices (lb la mb ma tb ta : Z) (b : book) : book :=
  mkBook (b_sym b) (b_bids b) (b_asks b) (b_bstop b) (b_sstop b) (b_tbuy b) (b_tsell b) lb la mb ma tb ta.
Definition update_last (s : oside) (p : Z) (b : book) : book :=
  match s with
  | BUY => set_prices p (b_last_ask b) (b_match_bid b) (b_match_ask b) (b_trail_bid b) (b_trail_ask b) b
  | SELL => set_prices (b_last_bid b) p (b_match_bid b) (b_match_ask b) (b_trail_bid b) (b_trail_ask b) b
  end.
Definition update_matching (s : oside) (p : Z) (b : book) : book :=
  match s with
  | BUY => set_prices (b_last_bid b) (b_last_ask b) p (b_match_ask b) (b_trail_bid b) (b_trail_ask b) b
  | SELL => set_prices (b_last_bid b) (b_last_ask b) (b_match_bid b) p (b_trail_bid b) (b_trail_ask b) b
  end.
Definition reset_matching (b : book) : book :=
  set_prices (b_last_bid b) (b_last_ask b) 0 MAX64 (b_trail_bid b) (b_trail_ask b) b.
Definition set_trail_bid (p : Z) (b : book) : book :=
  set_prices (b_last_bid b) (b_last_ask b) (b_match_bid b) (b_match_ask b) p (b_trail_ask b) b.
Definition set_trail_ask (p : Z) (b : book) : book :=
  set_prices (b_last_bid b) (b_last_ask b) (b_match_bid b) (b_match_ask b) (b_trail_bid b) p b.

(** Best price of a collection with the defaults used in order_book.inl:100-134. *)
Definition best_bid_price (b : book) : Z := match s_best (b_bids b) with Some p => p | None => 0 end.
Definition best_ask_price (b : book) : Z := match s_best (b_asks b) with Some p => p | None => MAX64 end.
(** GetMarketPriceBid/Ask: order_book.inl:100-112. *)
Definition market_bid (b : book) : Z := Z.max (b_match_bid b) (best_bid_price b).
Definition market_ask (b : book) : Z := Z.min (b_match_ask b) (best_ask_price b).
(** GetMarketTrailingStopPriceBid/Ask: order_book.inl:114-126. *)
Definition trailing_market_bid (b : book) : Z := Z.min (b_last_bid b) (best_bid_price b).
Definition trailing_market_ask (b : book) : Z := Z.max (b_last_ask b) (best_ask_price b).

(** ** Handler notifications: include/trader/matching/market_handler.h:25-66, with the
    argument values they are called with.  The OrderBook argument is given by its symbol id. *)
Inductive event :=
| EAddSymbol (s : symbol)
| EDeleteSymbol (s : symbol)
| EAddBook (sid : Z)
| EDeleteBook (sid : Z)
| EUpdateBook (sid : Z) (top : bool)
| EAddLevel (sid : Z) (l : linfo) (top : bool)
| EUpdateLevel (sid : Z) (l : linfo) (top : bool)
| EDeleteLevel (sid : Z) (l : linfo) (top : bool)
| EAddOrder (o : order)
| EUpdateOrder (o : order)
| EDeleteOrder (o : order)
| EExecute (o : order) (price qty : Z).
