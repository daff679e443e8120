(** * Spec13.v -- a reference exchange with stop orders (definitions only, no proofs).

    Extends Spec8.v: besides the bids and the asks a book keeps the waiting buy stops, lowest stop
    price first, and the waiting sell stops, highest stop price first (oldest first within a price),
    and the prices at which a buy and a sell order last came in and traded.  Orders are limit,
    market, stop and stop-limit orders, not All-Or-None; the exchange always matches. *)
From stdpp Require Import fin_maps gmap sorting.
From Verif Require Import Types Book Engine Manager Spec Spec2 Spec3 Spec5 Spec6 Spec7 Spec8.

Record pit := Pit {
  y_bids : list order; y_asks : list order;   (* resting orders, best first *)
  y_buys : list order; y_sells : list order;  (* waiting stop orders, the first to trigger first *)
  y_bid : Z; y_ask : Z }.                     (* price of the last trade of an incoming buy / sell order; 0 / MAX64: none *)
Definition empty_pit : pit := Pit [] [] [] [] 0 MAX64.
Definition rest_of (sd : oside) (y : pit) : list order := match sd with BUY => y_bids y | SELL => y_asks y end.
Definition stops_of (sd : oside) (y : pit) : list order := match sd with BUY => y_buys y | SELL => y_sells y end.
Definition set_rest (sd : oside) (rs : list order) (y : pit) : pit :=
  match sd with BUY => Pit rs (y_asks y) (y_buys y) (y_sells y) (y_bid y) (y_ask y) | SELL => Pit (y_bids y) rs (y_buys y) (y_sells y) (y_bid y) (y_ask y) end.
Definition set_stops (sd : oside) (rs : list order) (y : pit) : pit :=
  match sd with BUY => Pit (y_bids y) (y_asks y) rs (y_sells y) (y_bid y) (y_ask y) | SELL => Pit (y_bids y) (y_asks y) (y_buys y) rs (y_bid y) (y_ask y) end.
Definition set_quotes (b a : Z) (y : pit) : pit := Pit (y_bids y) (y_asks y) (y_buys y) (y_sells y) b a.
Definition every (f : list order -> list order) (y : pit) : pit := Pit (f (y_bids y)) (f (y_asks y)) (f (y_buys y)) (f (y_sells y)) (y_bid y) (y_ask y).
Definition calm_down : pit -> pit := set_quotes 0 MAX64.

(** ** Trading *)
(** An order against the opposite side: the executions, that side afterwards, and the order. *)
Definition dealt (o : order) (rs : list order) : list (order * Z * Z) * list order * order :=
  let x := arriving o rs in
  if decide (o_tif o = FOK) then
    if decide (o_leaves x <= supply x rs)
    then (map (fun z => (fst z, o_price x, snd z)) (taken x rs) ++ [(x, o_price x, o_leaves x)], remaining x rs, after_fill (o_leaves x) x)
    else ([], rs, x)
  else (fills x rs, remaining x rs, filled x rs).
(** The price of the last execution is noted on the side of the incoming order. *)
Definition mark (sd : oside) (xs : list (order * Z * Z)) (y : pit) : pit :=
  match last xs with
  | None => y
  | Some (_, p, _) => match sd with BUY => set_quotes p MAX64 y | SELL => set_quotes 0 p y end
  end.
Definition trade (o : order) (y : pit) : list (order * Z * Z) * pit * order :=
  let '(xs, rs, z) := dealt o (rest_of (opposite (o_side o)) y) in
  (xs, mark (o_side o) xs (set_rest (opposite (o_side o)) rs y), z).

(** ** Waiting *)
Definition triggers_before (o r : order) : Prop := match o_side o with BUY => o_stop o < o_stop r | SELL => o_stop r < o_stop o end.
Global Instance triggers_before_dec o r : Decision (triggers_before o r).
Proof. unfold triggers_before. destruct (o_side o); apply _. Defined.
Fixpoint line_up (o : order) (rs : list order) : list order :=
  match rs with
  | [] => [o]
  | r :: rs => if decide (triggers_before o r) then o :: r :: rs else r :: line_up o rs
  end.
(** Limit orders join their side, stop orders those waiting. *)
Definition joins (o : order) (y : pit) : pit :=
  match o_type o with
  | LIMIT => set_rest (o_side o) (place o (rest_of (o_side o) y)) y
  | _ => set_stops (o_side o) (line_up o (stops_of (o_side o) y)) y
  end.

(** ** Triggering *)
(** A buy stop triggers once the lowest offer, and the last sale of an incoming order if lower, is at
    its stop price or above; with no offers and no such sale it triggers.  Likewise for sell stops. *)
Definition first_price (none : Z) (rs : list order) : Z := match rs with [] => none | r :: _ => o_price r end.
Definition quote (sd : oside) (y : pit) : Z :=
  match sd with
  | BUY => Z.min (y_ask y) (first_price MAX64 (y_asks y))
  | SELL => Z.max (y_bid y) (first_price 0 (y_bids y))
  end.
Definition triggers (o : order) (y : pit) : Prop := match o_side o with BUY => o_stop o <= quote BUY y | SELL => quote SELL y <= o_stop o end.
Global Instance triggers_dec o y : Decision (triggers o y).
Proof. unfold triggers. destruct (o_side o); apply _. Defined.
(** A triggered stop order becomes a market order, a stop-limit order a limit order. *)
Definition released (o : order) : order :=
  match o_type o with
  | STOP => set_tif (if decide (o_tif o = FOK) then FOK else IOC) (set_stop 0 (set_price 0 (set_type MARKET o)))
  | _ => set_stop 0 (set_type LIMIT o)
  end.
Definition release (o : order) (y : pit) : list (order * Z * Z) * pit :=
  let '(xs, y1, z) := trade (released o) (every (without (o_id o)) y) in
  (xs, if decide (0 < o_leaves z /\ o_tif z = GTC) then joins z y1 else y1).
Fixpoint release_all (os : list order) (y : pit) : list (order * Z * Z) * pit :=
  match os with
  | [] => ([], y)
  | o :: os => let '(xs, y1) := release o y in let '(xs', y2) := release_all os y1 in (xs ++ xs', y2)
  end.
(** All orders of the first stop price, if it triggers. *)
Definition wave (sd : oside) (y : pit) : list (order * Z * Z) * pit :=
  match stops_of sd y with
  | [] => ([], y)
  | o :: _ => if decide (triggers o y) then release_all (filter (fun r => o_stop r = o_stop o) (stops_of sd y)) y else ([], y)
  end.
Definition round (y : pit) : list (order * Z * Z) * pit :=
  let '(xs, y1) := wave BUY y in let '(xs', y2) := wave SELL y1 in (xs ++ xs', y2).
Fixpoint rounds (n : nat) (y : pit) : list (order * Z * Z) * pit :=
  match n with
  | O => ([], y)
  | S n => let '(xs, y1) := round y in let '(xs', y2) := rounds n y1 in (xs ++ xs', y2)
  end.
(** Every round that changes anything releases a waiting order, so that many rounds are enough. *)
Definition close (y : pit) : list (order * Z * Z) * pit :=
  let '(xs, y') := rounds (length (y_buys y) + length (y_sells y)) y in (xs, calm_down y').

(** ** The exchange *)
Record hall := Hall { h_syms : gmap Z symbol; h_pits : gmap Z pit }.
Definition closed_hall : hall := Hall ∅ ∅.
Definition reply : Type := err * list (order * Z * Z) * hall.
Definition refused (er : err) (x : hall) : reply := (er, [], x).
Definition set_pit (i : Z) (y : pit) (x : hall) : hall := Hall (h_syms x) (<[i := y]> (h_pits x)).
Definition all_of (y : pit) : list order := y_bids y ++ y_asks y ++ y_buys y ++ y_sells y.
Definition seek (i : Z) (x : hall) : option order :=
  head (filter (fun o => o_id o = i) (concat (map (fun z => all_of (snd z)) (map_to_list (h_pits x))))).
(** The end of a call in the book of symbol [i]. *)
Definition done_with (i : Z) (xs : list (order * Z * Z)) (y : pit) (x : hall) : reply :=
  let '(xs', y') := close y in (OK, xs ++ xs', set_pit i y' x).
(** An order stays, unless its id is in use. *)
Definition stay (z : order) (xs : list (order * Z * Z)) (y : pit) (x : hall) : reply :=
  if decide (seek (o_id z) (set_pit (o_sym z) y x) = None)
  then done_with (o_sym z) xs (joins z y) x
  else (ORDER_DUPLICATE, xs, set_pit (o_sym z) y x).
(** An order comes in: it trades, and what is left stays if it is Good-Till-Cancelled (or [ever]). *)
Definition come_in (ever : bool) (o : order) (y : pit) (x : hall) : reply :=
  let '(xs, y1, z) := trade o y in
  if decide (0 < o_leaves z /\ (ever = true \/ o_tif z = GTC)) then stay z xs y1 x else done_with (o_sym o) xs y1 x.
Definition hall_add (o : order) (x : hall) : reply :=
  if decide (validate o = OK) then
    match h_pits x !! o_sym o with
    | None => refused ORDER_BOOK_NOT_FOUND x
    | Some y =>
        match o_type o with
        | STOP | STOP_LIMIT => if decide (triggers o y) then come_in false (released o) y x else stay o [] y x
        | _ => come_in false o y x
        end
    end
  else refused (validate o) x.
(** The checks common to the calls that name an order; its book. *)
Definition with_sought (i : Z) (x : hall) (f : order -> pit -> reply) : reply :=
  if decide (i = 0) then refused ORDER_ID_INVALID x else
  match seek i x with
  | None => refused ORDER_NOT_FOUND x
  | Some o => match h_pits x !! o_sym o with None => refused ORDER_BOOK_NOT_FOUND x | Some y => f o y end
  end.
Definition with_amount (i q : Z) (x : hall) (f : order -> pit -> reply) : reply :=
  if decide (i <> 0 /\ q = 0) then refused ORDER_QUANTITY_INVALID x else with_sought i x f.

Definition leave (o : order) : pit -> pit := every (without (o_id o)).
Definition alter (o : order) : pit -> pit := every (changed o).
(** An execution from outside is noted too. *)
Definition hall_execute (p q : Z) (o : order) (y : pit) (x : hall) : reply :=
  let q := Z.min q (o_leaves o) in
  let y1 := if decide (q = o_leaves o) then leave o y else alter (after_fill q o) y in
  done_with (o_sym o) [(o, p, q)] (match o_side o with BUY => set_quotes p (y_ask y1) y1 | SELL => set_quotes (y_bid y1) p y1 end) x.

(** An explicit Match(): the waiting orders of all books, lowest symbol id first; the last prices stay. *)
Definition open_ids (x : hall) : list Z := merge_sort Z.le (map fst (map_to_list (h_pits x))).
Fixpoint match_in (ids : list Z) (x : hall) : list (order * Z * Z) * hall :=
  match ids with
  | [] => ([], x)
  | i :: ids =>
      match h_pits x !! i with
      | None => match_in ids x
      | Some y =>
          let '(xs, y1) := rounds (length (y_buys y) + length (y_sells y)) y in
          let '(xs', x1) := match_in ids (set_pit i y1 x) in (xs ++ xs', x1)
      end
  end.

Definition hall_step (a : op) (x : hall) : reply :=
  match a with
  | AddSymbol sy =>
      match h_syms x !! sy_id sy with
      | Some _ => refused SYMBOL_DUPLICATE x
      | None => (OK, [], Hall (<[sy_id sy := sy]> (h_syms x)) (h_pits x))
      end
  | DeleteSymbol i =>
      match h_syms x !! i with
      | None => refused SYMBOL_NOT_FOUND x
      | Some _ => (OK, [], Hall (delete i (h_syms x)) (h_pits x))
      end
  | AddOrderBook sy =>
      match h_syms x !! sy_id sy, h_pits x !! sy_id sy with
      | None, _ => refused SYMBOL_NOT_FOUND x
      | Some _, Some _ => refused ORDER_BOOK_DUPLICATE x
      | Some _, None => (OK, [], set_pit (sy_id sy) empty_pit x)
      end
  | DeleteOrderBook i =>
      match h_pits x !! i with
      | None => refused ORDER_BOOK_NOT_FOUND x
      | Some _ => (OK, [], Hall (h_syms x) (delete i (h_pits x)))
      end
  | AddOrder o => hall_add o x
  | ReduceOrder i q => with_amount i q x (fun o y =>
      done_with (o_sym o) [] (if decide (o_leaves o <= q) then leave o y else alter (set_leaves (o_leaves o - q) o) y) x)
  | ModifyOrder i p q => with_amount i q x (fun o y =>
      come_in true (set_price p (set_qty q (set_leaves q o))) (leave o y) x)
  | MitigateOrder i p q => with_amount i q x (fun o y =>
      if decide (q <= o_exec o) then done_with (o_sym o) [] (leave o y) x
      else come_in true (set_price p (set_qty q (set_leaves (q - o_exec o) o))) (leave o y) x)
  | ReplaceOrder i ni p q =>
      if decide (i = 0 \/ ni = 0) then refused ORDER_ID_INVALID x else
      with_amount i q x (fun o y =>
        if decide (o_type o = LIMIT) then come_in true (replacement ni p q o) (leave o y) x else refused ORDER_TYPE_INVALID x)
  | ReplaceWith i o => with_sought i x (fun old y =>
      let '(er, xs, x1) := done_with (o_sym old) [] (leave old y) x in
      let '(er', xs', x2) := hall_add o x1 in (er', xs ++ xs', x2))
  | DeleteOrder i => with_sought i x (fun o y => done_with (o_sym o) [] (leave o y) x)
  | ExecuteOrder i q => with_amount i q x (fun o y => hall_execute (o_price o) q o y x)
  | ExecuteOrderAt i p q => with_amount i q x (fun o y => hall_execute p q o y x)
  | EnableMatching | Match => let '(xs, x1) := match_in (open_ids x) x in (OK, xs, x1)
  | DisableMatching => (OK, [], x)
  end.
(** A sequence of calls: all codes, all executions, the exchange in the end. *)
Fixpoint hall_run (ops : list op) (x : hall) : list err * list (order * Z * Z) * hall :=
  match ops with
  | [] => ([], [], x)
  | a :: ops =>
      let '(er, xs, x1) := hall_step a x in
      let '(ers, xs', x2) := hall_run ops x1 in
      (er :: ers, xs ++ xs', x2)
  end.

(** The calls covered: no trailing stop orders, no All-Or-None orders, matching stays on. *)
Definition covered_stops (a : op) : Prop :=
  a <> DisableMatching /\
  forall o, added a = Some o -> (o_type o = LIMIT \/ o_type o = MARKET \/ o_type o = STOP \/ o_type o = STOP_LIMIT) /\ o_tif o <> AON.

(** The stop orders waiting on a side of the book of symbol [i], in the order of the levels and queues. *)
Definition stop_side (sd : oside) : kind := match sd with BUY => KBuyStop | SELL => KSellStop end.
Definition waiting (s : state) (i : Z) (sd : oside) : list order :=
  match get_book i s with
  | Some b => omap (fun j => get_order j s) (concat (map l_ids (s_lvls (get_side (stop_side sd) b))))
  | None => []
  end.
(** The manager and the exchange show the same symbols, books and orders. *)
Definition matches (x : hall) (s : state) : Prop :=
  (forall i, h_syms x !! i = get_symbol i s) /\
  (forall i, match h_pits x !! i, get_book i s with
     | Some y, Some _ => forall sd, rest_of sd y = resting s i sd /\ stops_of sd y = waiting s i sd
     | None, None => True
     | _, _ => False end) /\
  (forall i, seek i x = get_order i s).
