(** * Spec.v -- specification vocabulary of the property theorems.

    Only definitions that say what a property means; nothing here is used by the executable model
    (Types.v, Book.v, Engine.v, Manager.v) and no proofs. *)
From stdpp Require Import fin_maps.
From Verif Require Import Types Book Engine Manager.

(** ** Values of C++ types *)
Definition u64_range (x : Z) : Prop := 0 <= x <= MAX64.
Definition i64_range (x : Z) : Prop := - TWO63 <= x < TWO63.
Definition order_range (o : order) : Prop :=
  u64_range (o_id o) /\ 0 <= o_sym o < TWO32 /\ u64_range (o_price o) /\ u64_range (o_stop o) /\
  u64_range (o_qty o) /\ u64_range (o_exec o) /\ u64_range (o_leaves o) /\ u64_range (o_maxvis o) /\
  u64_range (o_slip o) /\ i64_range (o_tdist o) /\ i64_range (o_tstep o).

(** The sum of LeavesQuantity over all live orders. *)
Definition total (m : gmap Z order) : Z := map_fold (fun _ o a => o_leaves o + a) 0 m.

(** ** Histories
    Calls a client may make: arguments are values of their C++ types, the resting quantity stays
    below 2^64, a book is deleted only when it has no live orders, and symbol ids are below
    2^32-1.  (What happens without the last three is C06, C07 and C08.) *)
Definition op_ok (s : state) (a : op) : Prop :=
  match a with
  | AddSymbol sy | AddOrderBook sy => 0 <= sy_id sy < TWO32 - 1
  | DeleteSymbol _ => True
  | DeleteOrderBook i => forall j o, st_ords s !! j = Some o -> o_sym o <> i
  | AddOrder o => order_range o /\ total (st_ords s) + o_leaves o < TWO64
  | ReduceOrder i q | ExecuteOrder i q => u64_range i /\ u64_range q
  | ModifyOrder i p q | MitigateOrder i p q =>
      u64_range i /\ u64_range p /\ u64_range q /\ total (delete i (st_ords s)) + q < TWO64
  | ReplaceOrder i ni p q =>
      u64_range i /\ u64_range ni /\ u64_range p /\ u64_range q /\ total (delete i (st_ords s)) + q < TWO64
  | ReplaceWith i o => u64_range i /\ order_range o /\ total (delete i (st_ords s)) + o_leaves o < TWO64
  | DeleteOrder i => u64_range i
  | ExecuteOrderAt i p q => u64_range i /\ u64_range p /\ u64_range q
  | EnableMatching | DisableMatching | Match => True
  end.

(** States reached by any history of such calls. *)
Inductive reach : state -> Prop :=
| reach_init : reach init
| reach_step s a s' er : reach s -> op_ok s a -> step s a = Ok (s', er) -> reach s'.

(** States reached by histories in which every call also satisfies [P]. *)
Inductive reach_with (P : op -> Prop) : state -> Prop :=
| rw_init : reach_with P init
| rw_step s a s' er : reach_with P s -> op_ok s a -> P a -> step s a = Ok (s', er) -> reach_with P s'.

(** [call s a s' er evs]: from [s], the call [a] returns [er], leaves [s'] and calls the handler
    with [evs]. *)
Definition call (s : state) (a : op) (s' : state) (er : err) (evs : list event) : Prop :=
  step s a = Ok (s', er) /\ st_log s' = st_log s ++ evs.

(** Queue of a price level. *)
Definition ids_at (s : side) (p : Z) : list Z :=
  match find_level p (s_lvls s) with Some l => l_ids l | None => [] end.
Definition queue (b : book) (k : kind) (p : Z) : list Z := ids_at (get_side k b) p.

(** A buyer's limit is an upper bound, a seller's a lower one. *)
Definition within_limit (o : order) (p : Z) : Prop :=
  match o_side o with BUY => p <= o_price o | SELL => o_price o <= p end.

(** ** Calls by class *)
Definition is_execute (a : op) : bool :=
  match a with ExecuteOrder _ _ | ExecuteOrderAt _ _ _ => true | _ => false end.
Definition is_modify (a : op) : bool := match a with ModifyOrder _ _ _ => true | _ => false end.
(** The order a call adds, if any. *)
Definition added (a : op) : option order :=
  match a with AddOrder o | ReplaceWith _ o => Some o | _ => None end.
Definition adds_no_aon (a : op) : Prop := forall o, added a = Some o -> o_tif o <> AON.
Definition no_live_aon (s : state) : Prop := forall i o, st_ords s !! i = Some o -> o_tif o <> AON.

(** ** Reading notifications *)
Definition exec_qty (sd : oside) (ev : event) : Z :=
  match ev with EExecute o _ q => if decide (o_side o = sd) then q else 0 | _ => 0 end.
(** total quantity reported executed on one side *)
Definition executed_on (sd : oside) (evs : list event) : Z := foldr (fun ev a => exec_qty sd ev + a) 0 evs.

Definition stop_kind (t : otype) : bool :=
  match t with STOP | STOP_LIMIT | TRAILING_STOP | TRAILING_STOP_LIMIT => true | _ => false end.

(** ** Order parameters (order.h:100-200): [lowest] is the largest percentage distance allowed. *)
Definition quantity_rule (o : order) : Prop := 0 < o_leaves o <= o_qty o.
Definition trailing_rule (lowest : Z) (o : order) : Prop :=
  (0 < o_tdist o /\ 0 <= o_tstep o < o_tdist o) \/ (lowest <= o_tdist o <= -1 /\ o_tdist o < o_tstep o <= 0).
Definition parameter_rule (lowest : Z) (o : order) : Prop :=
  match o_type o with
  | MARKET => (o_tif o = IOC \/ o_tif o = FOK) /\ o_maxvis o = MAX64
  | LIMIT => o_slip o = MAX64
  | STOP => o_tif o <> AON /\ o_maxvis o = MAX64
  | STOP_LIMIT => o_slip o = MAX64
  | TRAILING_STOP => o_tif o <> AON /\ o_maxvis o = MAX64 /\ trailing_rule lowest o
  | TRAILING_STOP_LIMIT => o_slip o = MAX64 /\ trailing_rule lowest o
  end.

(** ** Trades
    Executions reported: order value at that moment, price, quantity. *)
Definition execs (evs : list event) : list (order * Z * Z) :=
  omap (fun ev => match ev with EExecute o p q => Some (o, p, q) | _ => None end) evs.
Definition sum_qty (xs : list (order * Z * Z)) : Z := foldr (fun x a => snd x + a) 0 xs.

(** One trade, as the list of the executions it reports. *)
Inductive trade : list (order * Z * Z) -> Prop :=
| tr_hit r o q : (* an incoming order [o] hits the resting limit order [r] at its price *)
    o_sym r = o_sym o -> o_type r = LIMIT -> o_side r <> o_side o -> within_limit o (o_price r) -> o_tif o <> FOK ->
    0 < q -> q = Z.min (o_leaves r) (o_leaves o) ->
    trade [(r, o_price r, q); (o, o_price r, q)]
| tr_fill rs o : (* an incoming Fill-Or-Kill order is filled at its own price *)
    o_tif o = FOK -> 0 < o_leaves o ->
    Forall (fun x => let '(r, p, q) := x in
      o_sym r = o_sym o /\ o_type r = LIMIT /\ o_side r <> o_side o /\ p = o_price o /\ within_limit r p /\ 0 < q <= o_leaves r) rs ->
    sum_qty rs = o_leaves o ->
    trade (rs ++ [(o, o_price o, o_leaves o)])
| tr_cross x r q : (* two crossing resting limit orders, at the price of the smaller one [x] *)
    o_sym x = o_sym r -> o_type x = LIMIT -> o_type r = LIMIT -> o_side x <> o_side r -> within_limit r (o_price x) ->
    0 < q -> q = o_leaves x -> q <= o_leaves r ->
    trade [(x, o_price x, q); (r, o_price x, q)].
Definition trades (xs : list (order * Z * Z)) : Prop := exists ts, xs = concat ts /\ Forall trade ts.

(** ** Where orders and levels belong (order_book.h:120-190) *)
(** An order of collection [k] at price [p]. *)
Definition belongs (k : kind) (p : Z) (o : order) : Prop :=
  match k with
  | KBid => o_type o = LIMIT /\ o_side o = BUY /\ o_price o = p
  | KAsk => o_type o = LIMIT /\ o_side o = SELL /\ o_price o = p
  | KBuyStop => (o_type o = STOP \/ o_type o = STOP_LIMIT) /\ o_side o = BUY /\ o_stop o = p
  | KSellStop => (o_type o = STOP \/ o_type o = STOP_LIMIT) /\ o_side o = SELL /\ o_stop o = p
  | KTrailBuy => (o_type o = TRAILING_STOP \/ o_type o = TRAILING_STOP_LIMIT) /\ o_side o = BUY /\ o_stop o = p
  | KTrailSell => (o_type o = TRAILING_STOP \/ o_type o = TRAILING_STOP_LIMIT) /\ o_side o = SELL /\ o_stop o = p
  end.
(** [p] is at least as good as [q]: highest first for bids and sell stops, lowest first for asks
    and buy stops. *)
Definition as_good (k : kind) (p q : Z) : Prop :=
  match k with KBid | KSellStop | KTrailSell => q <= p | KAsk | KBuyStop | KTrailBuy => p <= q end.
Definition level_type (k : kind) : ltype :=
  match k with KBid | KSellStop | KTrailSell => BID | KAsk | KBuyStop | KTrailBuy => ASK end.

Definition sumZ (l : list Z) : Z := foldr Z.add 0 l.
(** order.h:163-166 in words: what exceeds the displayed maximum is hidden *)
Definition hidden (o : order) : Z := Z.max 0 (o_leaves o - o_maxvis o).
Definition visible (o : order) : Z := Z.min (o_leaves o) (o_maxvis o).

(** ** Crossed books *)
Definition uncrossed (b : book) : Prop :=
  forall bid ask, s_best (b_bids b) = Some bid -> s_best (b_asks b) = Some ask -> bid < ask.
Definition all_uncrossed (s : state) : Prop := forall i b, get_book i s = Some b -> uncrossed b.
