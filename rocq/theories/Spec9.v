(** * Spec9.v -- specification vocabulary for fill accounting (definitions only, no proofs). *)
From stdpp Require Import fin_maps.
From Verif Require Import Types Book Engine Manager Spec Spec2.

(** The quantity reported executed for order id [i]. *)
Definition filled_for (i : Z) (evs : list event) : Z := sum_qty (execs_of i evs).
(** Orders that may wait in the book for as long as it takes: a limit order, or a stop order that
    becomes one, with no time limit. *)
Definition stays (o : order) : Prop :=
  (o_type o = LIMIT \/ o_type o = STOP_LIMIT \/ o_type o = TRAILING_STOP_LIMIT) /\ (o_tif o = GTC \/ o_tif o = AON).
(** Same order, but for what trading changes. *)
Definition same_order (o o' : order) : Prop :=
  o_id o' = o_id o /\ o_sym o' = o_sym o /\ o_side o' = o_side o /\ o_qty o' = o_qty o /\ o_maxvis o' = o_maxvis o /\ o_slip o' = o_slip o.
