(** * Spec4.v -- specification vocabulary for priority, stop orders and slippage (definitions only, no proofs). *)
From stdpp Require Import fin_maps.
From Verif Require Import Types Book Engine Manager Spec Spec2 Spec3.

(** The call is ModifyOrder or MitigateOrder on a live stop order. *)
Definition modifies_stop (s : state) (a : op) : Prop :=
  exists i o, refers a = Some i /\ get_order i s = Some o /\ stop_kind (o_type o) = true /\
    match a with ModifyOrder _ _ _ | MitigateOrder _ _ _ => True | _ => False end.

(** What a stop order becomes when it is triggered: a market order, or a limit order at its price;
    nothing else about it changes, but market orders are Immediate-Or-Cancel or Fill-Or-Kill. *)
Definition activated (y x : order) : Prop :=
  o_id x = o_id y /\ o_sym x = o_sym y /\ o_side x = o_side y /\ o_stop x = 0 /\ o_qty x = o_qty y /\ o_exec x = o_exec y /\
  o_leaves x = o_leaves y /\ o_maxvis x = o_maxvis y /\ o_slip x = o_slip y /\
  match o_type y with
  | STOP | TRAILING_STOP => o_type x = MARKET /\ o_tif x = (if decide (o_tif y = FOK) then FOK else IOC)
  | STOP_LIMIT | TRAILING_STOP_LIMIT => o_type x = LIMIT /\ o_price x = o_price y /\ o_tif x = o_tif y
  | _ => False
  end.
(** No sell (buy) level of [t] is priced below (above) the stop price of the buy (sell) order [y]. *)
Definition reached_in (t : levels_view) (y : order) : Prop :=
  match o_side y with
  | BUY => forall p, t ASK p <> None -> o_stop y <= p
  | SELL => forall p, t BID p <> None -> p <= o_stop y
  end.

(** [y] is queued before [r], in the same level, in the book of symbol [i]. *)
Definition ahead (s : state) (i y r : Z) : Prop :=
  exists b k p l1 l2, get_book i s = Some b /\ queue b k p = l1 ++ l2 /\ y ∈ l1 /\ r ∈ l2.
Definition side_type (sd : oside) : ltype := match sd with BUY => BID | SELL => ASK end.
(** [p] is the best price of its side among the levels of [t]. *)
Definition best_price_in (t : levels_view) (sd : oside) (p : Z) : Prop :=
  t (side_type sd) p <> None /\
  forall p', t (side_type sd) p' <> None -> match sd with BUY => p' <= p | SELL => p <= p' end.
(** The call takes order [i] out of its queue to queue it again: its turn is lost. *)
Definition requeues (a : op) (i : Z) : Prop :=
  match a with ModifyOrder j _ _ | MitigateOrder j _ _ => j = i | _ => False end.
