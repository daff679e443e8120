(** * Spec20.v -- stop orders that arrive when their price is already reached. *)
From stdpp Require Import fin_maps.
From Verif Require Import Types Book Engine Manager Spec.
Open Scope Z_scope.

Definition a_stop_order (o : order) : Prop := o_type o = STOP \/ o_type o = STOP_LIMIT \/ o_type o = TRAILING_STOP \/ o_type o = TRAILING_STOP_LIMIT.
Definition other_side (o r : order) : Prop := o_sym r = o_sym o /\ o_side r <> o_side o.
(** No limit order that rests on the other side of the book has a better price than [stop]; so it is when none rests there at all. *)
Definition already_reached (s : state) (o : order) : Prop :=
  forall j r, get_order j s = Some r -> o_type r = LIMIT -> other_side o r -> match o_side o with BUY => o_stop o <= o_price r | SELL => o_price r <= o_stop o end.
Definition nobody_opposite (s : state) (o : order) : Prop := forall j r, get_order j s = Some r -> o_type r = LIMIT -> ~ other_side o r.
(** The order [x] that a triggered stop order [o] goes on as. *)
Definition goes_on_as (o x : order) : Prop :=
  o_id x = o_id o /\ o_sym x = o_sym o /\ o_side x = o_side o /\ o_qty x = o_qty o /\ o_exec x = o_exec o /\ o_leaves x = o_leaves o /\ o_stop x = 0 /\
  match o_type o with STOP | TRAILING_STOP => o_type x = MARKET | _ => o_type x = LIMIT end.
