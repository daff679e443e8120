(** * Spec6.v -- specification vocabulary for trailing stops and market orders (definitions only). *)
From stdpp Require Import fin_maps.
From Verif Require Import Types Book Engine Manager Spec Spec2 Spec3 Spec4.

(** The price of the last execution on a side of the book of symbol [i] told by the notifications
    [log], since the book was added; without one, the worst price of the side. *)
Definition no_trade (sd : oside) : Z := match sd with BUY => 0 | SELL => MAX64 end.
Definition note_trade (sd : oside) (i : Z) (p : Z) (ev : event) : Z :=
  match ev with
  | EExecute o p' _ => if decide (o_sym o = i /\ o_side o = sd) then p' else p
  | EAddBook j => if decide (j = i) then no_trade sd else p
  | _ => p
  end.
Definition last_trade (sd : oside) (i : Z) (log : list event) : Z := fold_left (note_trade sd i) log (no_trade sd).

(** The market price trailing orders of side [sd] follow: the last execution on the opposite side or
    the best opposite price, the worse of the two. *)
Definition trailing_market (t : levels_view) (sd : oside) (last m : Z) : Prop :=
  match sd with
  | BUY => (exists p, best_price_in t SELL p /\ m = Z.max last p) \/ ((forall p, t ASK p = None) /\ m = MAX64)
  | SELL => (exists p, best_price_in t BUY p /\ m = Z.min last p) \/ ((forall p, t BID p = None) /\ m = 0)
  end.
Definition opposite (sd : oside) : oside := match sd with BUY => SELL | SELL => BUY end.
(** Distances and steps in price units; negative ones are in hundredths of a percent of the market. *)
Definition trail_units (d market : Z) : Z := if decide (d < 0) then (- d * market) / 10000 else d.
(** The stop price at the trailing distance from the market, within 64 bits. *)
Definition trail_target (o : order) (market : Z) : Z :=
  match o_side o with
  | BUY => Z.min MAX64 (market + trail_units (o_tdist o) market)
  | SELL => Z.max 0 (market - trail_units (o_tdist o) market)
  end.
Definition trailing_kind (t : otype) : bool := match t with TRAILING_STOP | TRAILING_STOP_LIMIT => true | _ => false end.
(** [x] is not worse for the market than [o]: a buy stop is not higher, a sell stop not lower. *)
Definition no_looser (o x : order) : Prop := match o_side o with BUY => o_stop x <= o_stop o | SELL => o_stop o <= o_stop x end.
(** [s'] comes after [s] and order [i] was live and not introduced anew by the calls between. *)
Inductive lives (i : Z) (s : state) : state -> Prop :=
| lv_here : reach s -> get_order i s <> None -> lives i s s
| lv_call s1 a s2 er evs : lives i s s1 -> op_ok s1 a -> call s1 a s2 er evs -> ~ introduces a i -> get_order i s2 <> None -> lives i s s2.
(** The notification brings the order [x] to the market: it is added or changes. *)
Definition arrival (ev : event) (x : order) : Prop := ev = EAddOrder x \/ ev = EUpdateOrder x.
(** The price [p] is at most the slippage of [x] away from [b], on the bad side. *)
Definition within_slippage (x : order) (b p : Z) : Prop := match o_side x with BUY => p <= b + o_slip x | SELL => b - o_slip x <= p end.
