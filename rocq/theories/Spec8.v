(** * Spec8.v -- a reference exchange (definitions only, no proofs).

    A small exchange kept on plain lists of orders: for every symbol with a book, the bids and the
    asks, best first.  It knows limit orders (Good-Till-Cancelled, Immediate-Or-Cancel and
    Fill-Or-Kill) and market orders, and always matches.  Every call returns its code, the
    executions and the new exchange. *)
From stdpp Require Import fin_maps gmap.
From Verif Require Import Types Book Engine Manager Spec Spec2 Spec3 Spec5 Spec6 Spec7.

Record exchange := Exchange { x_syms : gmap Z symbol; x_books : gmap Z (list order * list order) }.
Definition nothing : exchange := Exchange ∅ ∅.
Definition answer : Type := err * list (order * Z * Z) * exchange.
Definition refuse (er : err) (x : exchange) : answer := (er, [], x).
Definition accept (x : exchange) : answer := (OK, [], x).

Definition side_of (sd : oside) (y : list order * list order) : list order := match sd with BUY => fst y | SELL => snd y end.
Definition sides_of (sd : oside) (own other : list order) : list order * list order := match sd with BUY => (own, other) | SELL => (other, own) end.
Definition set_sides (i : Z) (y : list order * list order) (x : exchange) : exchange := Exchange (x_syms x) (<[i := y]> (x_books x)).
Definition in_book (i : Z) (f : list order * list order -> list order * list order) (x : exchange) : exchange :=
  match x_books x !! i with Some y => set_sides i (f y) x | None => x end.

(** All resting orders, and the one with a given id. *)
Definition everything (x : exchange) : list order := concat (map (fun z => fst (snd z) ++ snd (snd z)) (map_to_list (x_books x))).
Definition found (i : Z) (x : exchange) : option order := head (filter (fun o => o_id o = i) (everything x)).

(** Taking an order out, and changing it where it stands. *)
Definition without (i : Z) (rs : list order) : list order := filter (fun o => o_id o <> i) rs.
Definition take_out (o : order) : exchange -> exchange := in_book (o_sym o) (fun y => (without (o_id o) (fst y), without (o_id o) (snd y))).
Definition changed (o : order) (rs : list order) : list order := map (fun r => if decide (o_id r = o_id o) then o else r) rs.
Definition change (o : order) : exchange -> exchange := in_book (o_sym o) (fun y => (changed o (fst y), changed o (snd y))).

(** An order meets the opposite side; what is left of it rests, unless its id is in use. *)
Definition enter (o : order) (x : exchange) : answer :=
  match x_books x !! o_sym o with
  | None => refuse ORDER_BOOK_NOT_FOUND x
  | Some y =>
      let own := side_of (o_side o) y in
      let '(xs, rs, rest) := matched o (side_of (opposite (o_side o)) y) in
      let x1 := set_sides (o_sym o) (sides_of (o_side o) own rs) x in
      match rest with
      | None => (OK, xs, x1)
      | Some z =>
          if decide (found (o_id o) x1 = None)
          then (OK, xs, set_sides (o_sym o) (sides_of (o_side o) (place z own) rs) x)
          else (ORDER_DUPLICATE, xs, x1)
      end
  end.
Definition exchange_add (o : order) (x : exchange) : answer :=
  if decide (validate o = OK) then enter o x else refuse (validate o) x.

(** The checks common to the calls that name an order. *)
Definition with_found (i : Z) (x : exchange) (f : order -> answer) : answer :=
  if decide (i = 0) then refuse ORDER_ID_INVALID x else
  match found i x with None => refuse ORDER_NOT_FOUND x | Some o => f o end.
Definition with_quantity (i q : Z) (x : exchange) (f : order -> answer) : answer :=
  if decide (i = 0) then refuse ORDER_ID_INVALID x else
  if decide (q = 0) then refuse ORDER_QUANTITY_INVALID x else
  match found i x with None => refuse ORDER_NOT_FOUND x | Some o => f o end.

Definition exchange_execute (p q : Z) (o : order) (x : exchange) : answer :=
  let q := Z.min q (o_leaves o) in
  (OK, [(o, p, q)], if decide (q = o_leaves o) then take_out o x else change (after_fill q o) x).

Definition exchange_step (a : op) (x : exchange) : answer :=
  match a with
  | AddSymbol sy =>
      match x_syms x !! sy_id sy with
      | Some _ => refuse SYMBOL_DUPLICATE x
      | None => accept (Exchange (<[sy_id sy := sy]> (x_syms x)) (x_books x))
      end
  | DeleteSymbol i =>
      match x_syms x !! i with
      | None => refuse SYMBOL_NOT_FOUND x
      | Some _ => accept (Exchange (delete i (x_syms x)) (x_books x))
      end
  | AddOrderBook sy =>
      match x_syms x !! sy_id sy, x_books x !! sy_id sy with
      | None, _ => refuse SYMBOL_NOT_FOUND x
      | Some _, Some _ => refuse ORDER_BOOK_DUPLICATE x
      | Some _, None => accept (set_sides (sy_id sy) ([], []) x)
      end
  | DeleteOrderBook i =>
      match x_books x !! i with
      | None => refuse ORDER_BOOK_NOT_FOUND x
      | Some _ => accept (Exchange (x_syms x) (delete i (x_books x)))
      end
  | AddOrder o => exchange_add o x
  | ReduceOrder i q => with_quantity i q x (fun o =>
      accept (if decide (o_leaves o <= q) then take_out o x else change (set_leaves (o_leaves o - q) o) x))
  | ModifyOrder i p q => with_quantity i q x (fun o =>
      enter (set_price p (set_qty q (set_leaves q o))) (take_out o x))
  | MitigateOrder i p q => with_quantity i q x (fun o =>
      if decide (q <= o_exec o) then accept (take_out o x)
      else enter (set_price p (set_qty q (set_leaves (q - o_exec o) o))) (take_out o x))
  | ReplaceOrder i ni p q =>
      if decide (i = 0 \/ ni = 0) then refuse ORDER_ID_INVALID x else
      with_quantity i q x (fun o => enter (replacement ni p q o) (take_out o x))
  | ReplaceWith i o => with_found i x (fun old => exchange_add o (take_out old x))
  | DeleteOrder i => with_found i x (fun o => accept (take_out o x))
  | ExecuteOrder i q => with_quantity i q x (fun o => exchange_execute (o_price o) q o x)
  | ExecuteOrderAt i p q => with_quantity i q x (fun o => exchange_execute p q o x)
  | EnableMatching | DisableMatching | Match => accept x
  end.
(** A sequence of calls: all codes, all executions, the exchange in the end. *)
Fixpoint exchange_run (ops : list op) (x : exchange) : list err * list (order * Z * Z) * exchange :=
  match ops with
  | [] => ([], [], x)
  | a :: ops =>
      let '(er, xs, x1) := exchange_step a x in
      let '(ers, xs', x2) := exchange_run ops x1 in
      (er :: ers, xs ++ xs', x2)
  end.

(** The calls the reference exchange covers: no stop orders, no All-Or-None orders, and matching is
    not switched off. *)
Definition covered (a : op) : Prop :=
  a <> DisableMatching /\ forall o, added a = Some o -> (o_type o = LIMIT \/ o_type o = MARKET) /\ o_tif o <> AON.
(** The manager and the exchange show the same symbols, books and orders. *)
Definition agrees (x : exchange) (s : state) : Prop :=
  (forall i, x_syms x !! i = get_symbol i s) /\
  (forall i, x_books x !! i = match get_book i s with Some _ => Some (resting s i BUY, resting s i SELL) | None => None end) /\
  (forall i, found i x = get_order i s).
(** A sequence of calls, with the codes returned and the notifications. *)
Inductive performs : state -> list op -> list err -> list event -> state -> Prop :=
| pf_nil s : performs s [] [] [] s
| pf_cons s a s1 er evs ops ers evs' s' : op_ok s a -> call s a s1 er evs -> performs s1 ops ers evs' s' ->
    performs s (a :: ops) (er :: ers) (evs ++ evs') s'.
