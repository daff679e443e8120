(** * Spec2.v -- more specification vocabulary (definitions only, no proofs). *)
From stdpp Require Import fin_maps.
From Verif Require Import Types Book Engine Manager Spec.

(** Calls that work on one order of one book, and the symbol they work on.
    (ReplaceOrder(id, order) is DeleteOrder followed by AddOrder and is treated apart.) *)
Definition order_call (a : op) : bool :=
  match a with
  | AddOrder _ | ReduceOrder _ _ | ModifyOrder _ _ _ | MitigateOrder _ _ _ | ReplaceOrder _ _ _ _
  | DeleteOrder _ | ExecuteOrder _ _ | ExecuteOrderAt _ _ _ => true
  | _ => false
  end.
Definition call_symbol (s : state) (a : op) : option Z :=
  match a with
  | AddOrder o => Some (o_sym o)
  | ReduceOrder i _ | ModifyOrder i _ _ | MitigateOrder i _ _ | ReplaceOrder i _ _ _ | ReplaceWith i _
  | DeleteOrder i | ExecuteOrder i _ | ExecuteOrderAt i _ _ => o_sym <$> get_order i s
  | _ => None
  end.

(** The matching price of a book carries no trace of earlier executions: it is the one of a new
    book, so GetMarketPriceBid/Ask are the prices of the best resting orders. *)
Definition fresh_prices (b : book) : Prop := b_match_bid b = 0 /\ b_match_ask b = MAX64.

(** Stop orders, and those whose trailing distance is a percentage. *)
Definition percent_trailing (o : order) : Prop :=
  (o_type o = TRAILING_STOP \/ o_type o = TRAILING_STOP_LIMIT) /\ o_tdist o < 0.

(** The symbol a notification is about. *)
Definition event_symbol (ev : event) : Z :=
  match ev with
  | EAddSymbol sy | EDeleteSymbol sy => sy_id sy
  | EAddBook i | EDeleteBook i | EUpdateBook i _ | EAddLevel i _ _ | EUpdateLevel i _ _ | EDeleteLevel i _ _ => i
  | EAddOrder o | EUpdateOrder o | EDeleteOrder o | EExecute o _ _ => o_sym o
  end.

(** Everything a client can look up is the same in [s] and [s']. *)
Definition same_contents (s s' : state) : Prop :=
  (forall i, get_symbol i s' = get_symbol i s) /\ (forall i, get_book i s' = get_book i s) /\
  (forall i, get_order i s' = get_order i s) /\ st_match s' = st_match s.

(** Calls about orders, and the symbols they are about: the symbol of the order named by id and the
    symbol of the order passed in. *)
Definition about_orders (a : op) : bool := order_call a || match a with ReplaceWith _ _ => true | _ => false end.
Definition concerns (s : state) (a : op) (i : Z) : Prop :=
  call_symbol s a = Some i \/ exists o, added a = Some o /\ o_sym o = i.

(** Total quantity reported executed on one side of symbol [i]. *)
Definition executed_in (i : Z) (sd : oside) (evs : list event) : Z :=
  foldr (fun ev a => (if decide (event_symbol ev = i) then exec_qty sd ev else 0) + a) 0 evs.

(** The executions reported for order id [i]. *)
Definition execs_of (i : Z) (evs : list event) : list (order * Z * Z) :=
  filter (fun x => o_id (fst (fst x)) = i) (execs evs).
(** The call brings in an order with id [i]. *)
Definition introduces (a : op) (i : Z) : Prop :=
  match a with AddOrder o | ReplaceWith _ o => o_id o = i | ReplaceOrder _ ni _ _ => ni = i | _ => False end.
(** No stop order of symbol [i] is live. *)
Definition no_live_stops (s : state) (i : Z) : Prop := forall j o, get_order j s = Some o -> o_sym o = i -> o_type o = LIMIT.
(** The two books have the same levels with the same orders and volumes in all six collections, and
    the same last prices. *)
Definition same_levels (b b' : book) : Prop :=
  b_sym b' = b_sym b /\ (forall k, get_side k b' = get_side k b) /\ b_last_bid b' = b_last_bid b /\ b_last_ask b' = b_last_ask b.
(** Calls that keep orders from being over-filled: no ModifyOrder (it sets Quantity and
    LeavesQuantity but keeps ExecutedQuantity), and a new order that says it is partly executed
    leaves room for that. *)
Definition careful (a : op) : Prop := is_modify a = false /\ forall o, added a = Some o -> o_exec o + o_leaves o <= o_qty o.
