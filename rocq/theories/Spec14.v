(** * Spec14.v -- a reference exchange for all order types and for matching switched on and off
    (definitions only, no proofs).

    Extends Spec13.v by trailing stop orders, by books that are crossed because matching was off, and
    by switching matching.  Only All-Or-None orders are outside.  A book has two halves; each keeps
    its resting orders, best first, its waiting stop and trailing stop orders, the first to trigger
    first, and three prices. *)
From stdpp Require Import fin_maps gmap sorting.
From Verif Require Import Types Book Engine Manager Spec Spec2 Spec3 Spec5 Spec6 Spec7 Spec8 Spec13.

Record half := Half {
  q_rest : list order; q_stops : list order; q_trails : list order;
  q_now : Z;     (* price of the last trade of the current call on this side *)
  q_last : Z;    (* price of the last execution of an order of this side *)
  q_seen : Z }.  (* the price of this side the trailing orders of the other side were last moved for *)
Record ring := Ring { g_buy : half; g_sell : half }.
Definition half_of (sd : oside) (g : ring) : half := match sd with BUY => g_buy g | SELL => g_sell g end.
Definition put_half (sd : oside) (h : half) (g : ring) : ring := match sd with BUY => Ring h (g_sell g) | SELL => Ring (g_buy g) h end.
Definition empty_half (sd : oside) : half := Half [] [] [] (no_trade sd) (no_trade sd) (no_trade sd).
Definition empty_ring : ring := Ring (empty_half BUY) (empty_half SELL).
Definition with_rest (rs : list order) (h : half) : half := Half rs (q_stops h) (q_trails h) (q_now h) (q_last h) (q_seen h).
Definition with_stops (rs : list order) (h : half) : half := Half (q_rest h) rs (q_trails h) (q_now h) (q_last h) (q_seen h).
Definition with_trails (rs : list order) (h : half) : half := Half (q_rest h) (q_stops h) rs (q_now h) (q_last h) (q_seen h).
Definition with_now (p : Z) (h : half) : half := Half (q_rest h) (q_stops h) (q_trails h) p (q_last h) (q_seen h).
Definition with_last (p : Z) (h : half) : half := Half (q_rest h) (q_stops h) (q_trails h) (q_now h) p (q_seen h).
Definition with_seen (p : Z) (h : half) : half := Half (q_rest h) (q_stops h) (q_trails h) (q_now h) (q_last h) p.
Definition on_half (sd : oside) (f : half -> half) (g : ring) : ring := put_half sd (f (half_of sd g)) g.
Definition on_lists (f : list order -> list order) (h : half) : half := Half (f (q_rest h)) (f (q_stops h)) (f (q_trails h)) (q_now h) (q_last h) (q_seen h).
Definition on_all (f : list order -> list order) (g : ring) : ring := Ring (on_lists f (g_buy g)) (on_lists f (g_sell g)).

(** ** Prices *)
Definition set_now (b a : Z) (g : ring) : ring := on_half BUY (with_now b) (on_half SELL (with_now a) g).
(** The prices of the current call are forgotten. *)
Definition forget : ring -> ring := set_now (no_trade BUY) (no_trade SELL).
(** Every execution is the last one of its side. *)
Definition note_last (xs : list (order * Z * Z)) (g : ring) : ring :=
  fold_left (fun g z => on_half (o_side (fst (fst z))) (with_last (snd (fst z))) g) xs g.
Definition top (sd : oside) (g : ring) : Z := first_price (no_trade sd) (q_rest (half_of sd g)).
(** The price that triggers the stops of side [sd]: the best opposite price, or that of an opposite trade of the current call if it is better. *)
Definition market (sd : oside) (g : ring) : Z :=
  match sd with
  | BUY => Z.min (q_now (g_sell g)) (top SELL g)
  | SELL => Z.max (q_now (g_buy g)) (top BUY g)
  end.
(** The price the trailing stops of side [sd] follow: the best opposite price or the last opposite execution, the worse of them. *)
Definition followed (sd : oside) (g : ring) : Z :=
  match sd with
  | BUY => Z.max (q_last (g_sell g)) (top SELL g)
  | SELL => Z.min (q_last (g_buy g)) (top BUY g)
  end.

(** ** Trailing *)
(** Distances in price units; negative ones are hundredths of a percent of the market, with the product taken modulo 2^64. *)
Definition in_units (neg : bool) (d m : Z) : Z := if neg then ((- d * m) mod 2^64) / 10000 else d.
(** The stop price for the market price [m]: at the distance, if that is nearer by the step at least. *)
Definition drawn (m : Z) (o : order) : Z :=
  let neg := bool_decide (o_tdist o < 0) in
  let d := in_units neg (o_tdist o) m in
  let st := in_units neg (o_tstep o) m in
  match o_side o with
  | BUY => let t := Z.min MAX64 (m + d) in if decide (t < o_stop o /\ st <= o_stop o - t) then t else o_stop o
  | SELL => let t := Z.max 0 (m - d) in if decide (o_stop o < t /\ st <= t - o_stop o) then t else o_stop o
  end.
(** The limit of a trailing stop-limit order moves along, modulo 2^64. *)
Definition drawn_to (p : Z) (o : order) : order :=
  match o_type o with
  | TRAILING_STOP => set_stop p o
  | TRAILING_STOP_LIMIT => set_price ((p + (o_price o - o_stop o)) mod 2^64) (set_stop p o)
  | _ => o
  end.
(** All trailing stops that move do so in their order, each behind the orders that wait at its new stop price. *)
Definition redraw (m : Z) (rs : list order) : list order :=
  fold_left (fun q o => line_up (drawn_to (drawn m o) o) (without (o_id o) q)) (filter (fun o => drawn m o <> o_stop o) rs) rs.
Definition closer (sd : oside) (m old : Z) : Prop := match sd with BUY => m < old | SELL => old < m end.
Global Instance closer_dec sd m old : Decision (closer sd m old).
Proof. unfold closer. destruct sd; apply _. Defined.
(** The trailing stops of side [sd] follow the market if there are opposite orders and the price has come closer than the recorded one. *)
Definition follow (sd : oside) (g : ring) : ring :=
  let c := opposite sd in
  match q_rest (half_of c g) with
  | [] => g
  | _ =>
      let m := followed sd g in
      let g1 := on_half c (with_seen m) g in
      if decide (closer sd m (q_seen (half_of c g))) then on_half sd (fun h => with_trails (redraw m (q_trails h)) h) g1 else g1
  end.

(** ** Trading *)
Definition marked (sd : oside) (xs : list (order * Z * Z)) (g : ring) : ring :=
  match last xs with
  | None => g
  | Some (_, p, _) => note_last xs (on_half sd (with_now p) (forget g))
  end.
Definition strike (o : order) (g : ring) : list (order * Z * Z) * ring * order :=
  let c := opposite (o_side o) in
  let '(xs, rs, z) := dealt o (q_rest (half_of c g)) in
  (xs, marked (o_side o) xs (on_half c (with_rest rs) g), z).

(** ** Waiting and triggering *)
Definition settles_in (o : order) (g : ring) : ring :=
  on_half (o_side o) (fun h =>
    match o_type o with
    | LIMIT => with_rest (place o (q_rest h)) h
    | STOP | STOP_LIMIT => with_stops (line_up o (q_stops h)) h
    | _ => with_trails (line_up o (q_trails h)) h
    end) g.
Definition springs (o : order) (g : ring) : Prop := match o_side o with BUY => o_stop o <= market BUY g | SELL => market SELL g <= o_stop o end.
Global Instance springs_dec o g : Decision (springs o g).
Proof. unfold springs. destruct (o_side o); apply _. Defined.
Definition sprung (o : order) : order :=
  match o_type o with
  | STOP | TRAILING_STOP => set_tif (if decide (o_tif o = FOK) then FOK else IOC) (set_stop 0 (set_price 0 (set_type MARKET o)))
  | _ => set_stop 0 (set_type LIMIT o)
  end.
Definition let_go (o : order) (g : ring) : list (order * Z * Z) * ring :=
  let '(xs, g1, z) := strike (sprung o) (on_all (without (o_id o)) g) in
  (xs, if decide (0 < o_leaves z /\ o_tif z = GTC) then settles_in z g1 else g1).
Fixpoint let_all_go (os : list order) (g : ring) : list (order * Z * Z) * ring :=
  match os with
  | [] => ([], g)
  | o :: os => let '(xs, g1) := let_go o g in let '(xs', g2) := let_all_go os g1 in (xs ++ xs', g2)
  end.
(** All orders of the first stop price of the list, if it triggers; whether any did. *)
Definition volley (rs : list order) (g : ring) : bool * list (order * Z * Z) * ring :=
  match rs with
  | [] => (false, [], g)
  | o :: _ => if decide (springs o g) then let '(xs, g1) := let_all_go (filter (fun r => o_stop r = o_stop o) rs) g in (true, xs, g1) else (false, [], g)
  end.
(** Stops first; trailing stops if none triggered; then the trailing stops follow the market. *)
Definition side_turn (sd : oside) (g : ring) : bool * list (order * Z * Z) * ring :=
  let '(t, xs, g1) := volley (q_stops (half_of sd g)) g in
  let '(t', xs', g2) := if t then (true, [], g1) else volley (q_trails (half_of sd g1)) g1 in
  (t', xs ++ xs', follow sd g2).
Definition both_turn (g : ring) : bool * list (order * Z * Z) * ring :=
  let '(t, xs, g1) := side_turn BUY g in let '(t', xs', g2) := side_turn SELL g1 in (t || t', xs ++ xs', g2).
(** Repeated until nothing triggers, [n] times at most; whether anything did. *)
Fixpoint turns (n : nat) (g : ring) : bool * list (order * Z * Z) * ring :=
  let '(t, xs, g1) := both_turn g in
  match n with
  | S n => if (t : bool) then let '(_, xs', g2) := turns n g1 in (true, xs ++ xs', g2) else (false, xs, g1)
  | O => (t, xs, g1)
  end.
Definition waiters (g : ring) : nat := length (q_stops (g_buy g)) + length (q_trails (g_buy g)) + length (q_stops (g_sell g)) + length (q_trails (g_sell g)).
Definition resters (g : ring) : nat := length (q_rest (g_buy g)) + length (q_rest (g_sell g)).

(** ** Crossed books *)
Definition crossing (g : ring) : Prop :=
  match q_rest (g_buy g), q_rest (g_sell g) with b :: _, a :: _ => o_price a <= o_price b | _, _ => False end.
Global Instance crossing_dec g : Decision (crossing g).
Proof. unfold crossing. destruct (q_rest (g_buy g)), (q_rest (g_sell g)); apply _. Defined.
Definition cut (q : Z) (o : order) (g : ring) : ring := if decide (q = o_leaves o) then on_all (without (o_id o)) g else on_all (changed (after_fill q o)) g.
(** The queues of the best bid and ask are paired off position by position; the smaller order of a
    pair (the bid, if equal) is filled at its own price. *)
Fixpoint pair_off (bs os : list order) (g : ring) : list (order * Z * Z) * ring :=
  match bs, os with
  | b :: bs, a :: os =>
      let '(x, r) := if decide (o_leaves a < o_leaves b) then (a, b) else (b, a) in
      let q := o_leaves x in let p := o_price x in
      let xs := [(x, p, q); (r, p, q)] in
      let '(xs', g') := pair_off bs os (note_last xs (forget (cut q r (cut q x g)))) in (xs ++ xs', g')
  | _, _ => ([], g)
  end.
Definition level_of (rs : list order) : list order := match rs with [] => [] | r :: _ => filter (fun x => o_price x = o_price r) rs end.
(** The best levels are paired off, then the stops of both sides may trigger, until the book is not crossed. *)
Fixpoint uncross (n : nat) (g : ring) : list (order * Z * Z) * ring :=
  match n with
  | O => ([], g)
  | S n =>
      if decide (crossing g) then
        let '(xs1, g1) := pair_off (level_of (q_rest (g_buy g))) (level_of (q_rest (g_sell g))) g in
        let '(_, xs2, g2) := volley (q_stops (g_buy g1)) g1 in
        let '(_, xs3, g3) := volley (q_stops (g_sell g2)) g2 in
        let '(xs4, g4) := uncross n g3 in (xs1 ++ xs2 ++ xs3 ++ xs4, g4)
      else ([], g)
  end.
(** Everything, until nothing triggers.  Every turn in which something triggers releases a waiting
    order and every crossing fills an order, so the numbers of repetitions are enough. *)
Fixpoint clear (n : nat) (g : ring) : list (order * Z * Z) * ring :=
  let '(xs1, g1) := uncross (waiters g + resters g) g in
  let '(t, xs2, g2) := turns (waiters g1) g1 in
  match n with
  | S n => if (t : bool) then let '(xs3, g3) := clear n g2 in (xs1 ++ xs2 ++ xs3, g3) else (xs1 ++ xs2, g2)
  | O => (xs1 ++ xs2, g2)
  end.
Definition cleared (g : ring) : list (order * Z * Z) * ring := clear (waiters g) g.

(** ** The exchange *)
Record bourse := Bourse { u_on : bool; u_syms : gmap Z symbol; u_rings : gmap Z ring }.
Definition new_bourse : bourse := Bourse false ∅ ∅.
Definition outcome : Type := err * list (order * Z * Z) * bourse.
Definition denied (er : err) (x : bourse) : outcome := (er, [], x).
Definition set_ring (i : Z) (g : ring) (x : bourse) : bourse := Bourse (u_on x) (u_syms x) (<[i := g]> (u_rings x)).
Definition of_half (h : half) : list order := q_rest h ++ q_stops h ++ q_trails h.
Definition spot (i : Z) (x : bourse) : option order :=
  head (filter (fun o => o_id o = i) (concat (map (fun z => of_half (g_buy (snd z)) ++ of_half (g_sell (snd z))) (map_to_list (u_rings x))))).
(** The end of a call in the book of symbol [i]. *)
Definition conclude (i : Z) (xs : list (order * Z * Z)) (g : ring) (x : bourse) : outcome :=
  let '(xs', g') := if u_on x then cleared g else ([], g) in (OK, xs ++ xs', set_ring i (forget g') x).
Definition remain (z : order) (xs : list (order * Z * Z)) (g : ring) (x : bourse) : outcome :=
  if decide (spot (o_id z) (set_ring (o_sym z) g x) = None)
  then conclude (o_sym z) xs (settles_in z g) x
  else (ORDER_DUPLICATE, xs, set_ring (o_sym z) g x).
Definition arrive (ever : bool) (o : order) (g : ring) (x : bourse) : outcome :=
  let '(xs, g1, z) := if u_on x then strike o g else ([], g, o) in
  if decide (0 < o_leaves z /\ (ever = true \/ o_tif z = GTC)) then remain z xs g1 x else conclude (o_sym o) xs g1 x.
Definition bourse_add (o : order) (x : bourse) : outcome :=
  if decide (validate o = OK) then
    match u_rings x !! o_sym o with
    | None => denied ORDER_BOOK_NOT_FOUND x
    | Some g =>
        match o_type o with
        | MARKET | LIMIT => arrive false o g x
        | _ =>
            let o := drawn_to (drawn (followed (o_side o) g) o) o in
            if decide (u_on x = true /\ springs o g) then arrive false (sprung o) g x else remain o [] g x
        end
    end
  else denied (validate o) x.
Definition with_spotted (i : Z) (x : bourse) (f : order -> ring -> outcome) : outcome :=
  if decide (i = 0) then denied ORDER_ID_INVALID x else
  match spot i x with
  | None => denied ORDER_NOT_FOUND x
  | Some o => match u_rings x !! o_sym o with None => denied ORDER_BOOK_NOT_FOUND x | Some g => f o g end
  end.
Definition with_quantity (i q : Z) (x : bourse) (f : order -> ring -> outcome) : outcome :=
  if decide (i <> 0 /\ q = 0) then denied ORDER_QUANTITY_INVALID x else with_spotted i x f.
Definition gone (o : order) : ring -> ring := on_all (without (o_id o)).
Definition bourse_execute (p q : Z) (o : order) (g : ring) (x : bourse) : outcome :=
  let q := Z.min q (o_leaves o) in
  conclude (o_sym o) [(o, p, q)] (note_last [(o, p, q)] (on_half (o_side o) (with_now p) (cut q o g))) x.
(** Match(): all books, lowest symbol id first; the prices of the call are not forgotten. *)
Definition ring_ids (x : bourse) : list Z := merge_sort Z.le (map fst (map_to_list (u_rings x))).
Fixpoint clear_in (ids : list Z) (x : bourse) : list (order * Z * Z) * bourse :=
  match ids with
  | [] => ([], x)
  | i :: ids =>
      match u_rings x !! i with
      | None => clear_in ids x
      | Some g =>
          let '(xs, g1) := cleared g in
          let '(xs', x1) := clear_in ids (set_ring i g1 x) in (xs ++ xs', x1)
      end
  end.
Definition bourse_step (a : op) (x : bourse) : outcome :=
  match a with
  | AddSymbol sy =>
      match u_syms x !! sy_id sy with
      | Some _ => denied SYMBOL_DUPLICATE x
      | None => (OK, [], Bourse (u_on x) (<[sy_id sy := sy]> (u_syms x)) (u_rings x))
      end
  | DeleteSymbol i =>
      match u_syms x !! i with
      | None => denied SYMBOL_NOT_FOUND x
      | Some _ => (OK, [], Bourse (u_on x) (delete i (u_syms x)) (u_rings x))
      end
  | AddOrderBook sy =>
      match u_syms x !! sy_id sy, u_rings x !! sy_id sy with
      | None, _ => denied SYMBOL_NOT_FOUND x
      | Some _, Some _ => denied ORDER_BOOK_DUPLICATE x
      | Some _, None => (OK, [], set_ring (sy_id sy) empty_ring x)
      end
  | DeleteOrderBook i =>
      match u_rings x !! i with
      | None => denied ORDER_BOOK_NOT_FOUND x
      | Some _ => (OK, [], Bourse (u_on x) (u_syms x) (delete i (u_rings x)))
      end
  | AddOrder o => bourse_add o x
  | ReduceOrder i q => with_quantity i q x (fun o g =>
      conclude (o_sym o) [] (if decide (o_leaves o <= q) then gone o g else on_all (changed (set_leaves (o_leaves o - q) o)) g) x)
  | ModifyOrder i p q => with_quantity i q x (fun o g =>
      arrive true (set_price p (set_qty q (set_leaves q o))) (gone o g) x)
  | MitigateOrder i p q => with_quantity i q x (fun o g =>
      if decide (q <= o_exec o) then conclude (o_sym o) [] (gone o g) x
      else arrive true (set_price p (set_qty q (set_leaves (q - o_exec o) o))) (gone o g) x)
  | ReplaceOrder i ni p q =>
      if decide (i = 0 \/ ni = 0) then denied ORDER_ID_INVALID x else
      with_quantity i q x (fun o g =>
        if decide (o_type o = LIMIT) then arrive true (replacement ni p q o) (gone o g) x else denied ORDER_TYPE_INVALID x)
  | ReplaceWith i o => with_spotted i x (fun old g =>
      let '(er, xs, x1) := conclude (o_sym old) [] (gone old g) x in
      let '(er', xs', x2) := bourse_add o x1 in (er', xs ++ xs', x2))
  | DeleteOrder i => with_spotted i x (fun o g => conclude (o_sym o) [] (gone o g) x)
  | ExecuteOrder i q => with_quantity i q x (fun o g => bourse_execute (o_price o) q o g x)
  | ExecuteOrderAt i p q => with_quantity i q x (fun o g => bourse_execute p q o g x)
  | EnableMatching => let '(xs, x1) := clear_in (ring_ids x) (Bourse true (u_syms x) (u_rings x)) in (OK, xs, x1)
  | Match => let '(xs, x1) := clear_in (ring_ids x) x in (OK, xs, x1)
  | DisableMatching => (OK, [], Bourse false (u_syms x) (u_rings x))
  end.
Fixpoint bourse_run (ops : list op) (x : bourse) : list err * list (order * Z * Z) * bourse :=
  match ops with
  | [] => ([], [], x)
  | a :: ops =>
      let '(er, xs, x1) := bourse_step a x in
      let '(ers, xs', x2) := bourse_run ops x1 in
      (er :: ers, xs ++ xs', x2)
  end.

(** The trailing stop orders waiting on a side of the book of symbol [i], in the order of the levels and queues. *)
Definition trail_side (sd : oside) : kind := match sd with BUY => KTrailBuy | SELL => KTrailSell end.
Definition trailing (s : state) (i : Z) (sd : oside) : list order :=
  match get_book i s with
  | Some b => omap (fun j => get_order j s) (concat (map l_ids (s_lvls (get_side (trail_side sd) b))))
  | None => []
  end.
(** The manager and the exchange show the same symbols, books and orders, and both match or not. *)
Definition alike (x : bourse) (s : state) : Prop :=
  u_on x = st_match s /\
  (forall i, u_syms x !! i = get_symbol i s) /\
  (forall i, match u_rings x !! i, get_book i s with
     | Some g, Some _ => forall sd, q_rest (half_of sd g) = resting s i sd /\ q_stops (half_of sd g) = waiting s i sd /\ q_trails (half_of sd g) = trailing s i sd
     | None, None => True
     | _, _ => False end) /\
  (forall i, spot i x = get_order i s).
