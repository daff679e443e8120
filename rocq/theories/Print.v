(** * Print.v -- what the library and the console program print.
    include/trader/matching/{order,level,symbol,update,errors,order_book}.inl (operator<<) and the market handler of
    examples/matching_engine.cpp:18-50.
    Simplifications: operator<< of a number is its decimal numeral; CppCommon::WriteString is not part of the repository, the text it
    writes for the 8 bytes of a symbol name is the parameter [wr]; only the enumerators of the enumerations occur (the "<unknown>"
    branches are dead). *)
From Coq Require Import Ascii String DecimalString.
From stdpp Require Import strings.
From Verif Require Import Types Book Engine.
Open Scope Z_scope. Open Scope list_scope.

(** operator<< of an integer. *)
Definition dec (z : Z) : string := NilZero.string_of_int (Z.to_int z).
(** operator<<(OrderSide): order.inl:12-28. *)
Definition side_text (d : oside) : string := match d with BUY => "BUY" | SELL => "SELL" end.
(** operator<<(OrderType): order.inl:30-58. *)
Definition type_text (t : otype) : string :=
  match t with
  | MARKET => "MARKET" | LIMIT => "LIMIT" | STOP => "STOP" | STOP_LIMIT => "STOP-LIMIT"
  | TRAILING_STOP => "TRAILING-STOP" | TRAILING_STOP_LIMIT => "TRAILING-STOP-LIMIT"
  end.
(** operator<<(OrderTimeInForce): order.inl:60-82. *)
Definition tif_text (t : otif) : string := match t with GTC => "GTC" | IOC => "IOC" | FOK => "FOK" | AON => "AON" end.
(** operator<<(Order): order.inl:101-126. *)
Definition order_text (o : order) : string :=
  "Order(Id=" +:+ dec (o_id o) +:+
  "; SymbolId=" +:+ dec (o_sym o) +:+
  "; Type=" +:+ type_text (o_type o) +:+
  "; Side=" +:+ side_text (o_side o) +:+
  "; Price=" +:+ dec (o_price o) +:+
  "; StopPrice=" +:+ dec (o_stop o) +:+
  "; Quantity=" +:+ dec (o_qty o) +:+
  "; ExecutedQuantity=" +:+ dec (o_exec o) +:+
  "; LeavesQuantity=" +:+ dec (o_leaves o) +:+
  "; " +:+ tif_text (o_tif o) +:+
  (if is_trailing_stop o || is_trailing_stop_limit o
   then "; TrailingDistance=" +:+ dec (o_tdist o) +:+ "; TrailingStep=" +:+ dec (o_tstep o) else "") +:+
  (if (o_maxvis o =? 0) || (o_maxvis o <? MAX64) then "; MaxVisibleQuantity=" +:+ dec (o_maxvis o) else "") +:+
  (if o_slip o <? MAX64 then "; Slippage=" +:+ dec (o_slip o) else "") +:+ ")".
(** operator<<(LevelType), operator<<(Level): level.inl:12-50. *)
Definition ltype_text (t : ltype) : string := match t with BID => "BID" | ASK => "ASK" end.
Definition level_text (l : linfo) : string :=
  "Level(Type=" +:+ ltype_text (li_type l) +:+
  "; Price=" +:+ dec (li_price l) +:+
  "; TotalVolume=" +:+ dec (li_total l) +:+
  "; HiddenVolume=" +:+ dec (li_hidden l) +:+
  "; VisibleVolume=" +:+ dec (li_visible l) +:+
  "; Orders=" +:+ dec (li_count l) +:+ ")".
(** operator<<(Symbol): symbol.inl:19-26. *)
Definition symbol_text (wr : Z -> string) (s : symbol) : string :=
  "Symbol(Id=" +:+ dec (sy_id s) +:+ "; Name=" +:+ wr (sy_name s) +:+ ")".
(** operator<<(OrderBook): order_book.inl:12-24. *)
Definition size_text (s : side) : string := dec (Z.of_nat (length (s_lvls s))).
Definition book_text (wr : Z -> string) (b : book) : string :=
  "OrderBook(Symbol=" +:+ symbol_text wr (b_sym b) +:+
  "; Bids=" +:+ size_text (b_bids b) +:+
  "; Asks=" +:+ size_text (b_asks b) +:+
  "; BuyStop=" +:+ size_text (b_bstop b) +:+
  "; SellStop=" +:+ size_text (b_sstop b) +:+
  "; TrailingBuyStop=" +:+ size_text (b_tbuy b) +:+
  "; TrailingSellStop=" +:+ size_text (b_tsell b) +:+ ")".
(** operator<<(ErrorCode): errors.inl:12-56. *)
Definition err_text (e : err) : string :=
  match e with
  | OK => "OK" | SYMBOL_DUPLICATE => "SYMBOL_DUPLICATE" | SYMBOL_NOT_FOUND => "SYMBOL_NOT_FOUND"
  | ORDER_BOOK_DUPLICATE => "ORDER_BOOK_DUPLICATE" | ORDER_BOOK_NOT_FOUND => "ORDER_BOOK_NOT_FOUND"
  | ORDER_DUPLICATE => "ORDER_DUPLICATE" | ORDER_NOT_FOUND => "ORDER_NOT_FOUND" | ORDER_ID_INVALID => "ORDER_ID_INVALID"
  | ORDER_TYPE_INVALID => "ORDER_TYPE_INVALID" | ORDER_PARAMETER_INVALID => "ORDER_PARAMETER_INVALID"
  | ORDER_QUANTITY_INVALID => "ORDER_QUANTITY_INVALID"
  end.
(** The callbacks of MyMarketHandler: matching_engine.cpp:18-50; [b] is the book passed to the callback (the log of the model records
    only its symbol). *)
Definition top_text (top : bool) : string := if top then " - Top of the book!" else "".
Definition line_text (wr : Z -> string) (b : book) (ev : event) : string :=
  match ev with
  | EAddSymbol s => "Add symbol: " +:+ symbol_text wr s
  | EDeleteSymbol s => "Delete symbol: " +:+ symbol_text wr s
  | EAddBook _ => "Add order book: " +:+ book_text wr b
  | EUpdateBook _ top => "Update order book: " +:+ book_text wr b +:+ top_text top
  | EDeleteBook _ => "Delete order book: " +:+ book_text wr b
  | EAddLevel _ l top => "Add level: " +:+ level_text l +:+ top_text top
  | EUpdateLevel _ l top => "Update level: " +:+ level_text l +:+ top_text top
  | EDeleteLevel _ l top => "Delete level: " +:+ level_text l +:+ top_text top
  | EAddOrder o => "Add order: " +:+ order_text o
  | EUpdateOrder o => "Update order: " +:+ order_text o
  | EDeleteOrder o => "Delete order: " +:+ order_text o
  | EExecute o p q => "Execute order: " +:+ order_text o +:+ " with price " +:+ dec p +:+ " and quantity " +:+ dec q
  end.
(** Everything printed for a list of notifications: every callback writes its line and std::endl. *)
Fixpoint stdout (wr : Z -> string) (ns : list (event * book)) : string :=
  match ns with
  | [] => ""
  | (ev, b) :: ns => line_text wr b ev +:+ String "010" "" +:+ stdout wr ns
  end.
