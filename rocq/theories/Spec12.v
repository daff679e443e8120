(** * Spec12.v -- specification vocabulary for trailing stops that keep up with the market
    (definitions only). *)
From stdpp Require Import fin_maps.
From Verif Require Import Types Book Engine Manager Spec Spec2.

(** The call [a] made in state [s] is allowed in a history in which matching is enabled before the
    first order and stays enabled, the client leaves matching to the order calls, uses no
    All-Or-None orders, and no order is refused as a duplicate. *)
Definition trades_automatically (s : state) (a : op) : Prop :=
  (added a <> None \/ order_call a = true -> st_match s = true) /\
  (a = EnableMatching -> st_match s = false) /\
  a <> DisableMatching /\ a <> Match /\
  adds_no_aon a /\
  (forall s' er, step s a = Ok (s', er) -> er <> ORDER_DUPLICATE).

(** The stop price of [o] is at most a trailing step behind the price [target] it should trail at. *)
Definition at_most_a_step_behind (o : order) (target : Z) : Prop :=
  match o_side o with
  | BUY => o_stop o <= target \/ o_stop o - target < o_tstep o
  | SELL => target <= o_stop o \/ target - o_stop o < o_tstep o
  end.
