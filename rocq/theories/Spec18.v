(** * Spec18.v -- what a crossed book looks like when no All-Or-None order could be filled. *)
From stdpp Require Import fin_maps.
From Verif Require Import Types Book Engine Manager Spec.
Open Scope Z_scope.

(** [o] is the oldest order of the best level of the side. *)
Definition first_order (s : state) (sd : side) (o : order) : Prop :=
  exists l, l ∈ s_lvls sd /\ s_best sd = Some (l_price l) /\ head (l_ids l) = Some (o_id o) /\ get_order (o_id o) s = Some o.
(** The whole quantity that the levels of the side show. *)
Definition offered (sd : side) : Z := sumZ (map (fun l => li_total (l_info l)) (s_lvls sd)).
(** The symbol has no live All-Or-None limit order on that side. *)
Definition none_aon (s : state) (i : Z) (d : oside) : Prop :=
  forall j o, get_order j s = Some o -> o_sym o = i -> o_type o = LIMIT -> o_side o = d -> o_tif o <> AON.
(** The book is crossed and matching it is stuck: an All-Or-None order stands at one of the two best prices; if there is none among
    the sell orders, then all of them together do not fill the first buy order; if there is none among the buy orders and the first
    sell order is All-Or-None, then all buy orders together do not fill it. *)
Definition blocked (s : state) (i : Z) (b : book) : Prop :=
  exists bid ask x y z, s_best (b_bids b) = Some bid /\ s_best (b_asks b) = Some ask /\ ask <= bid /\
    first_order s (b_bids b) x /\ first_order s (b_asks b) y /\
    (get_order (o_id z) s = Some z /\ o_sym z = i /\ o_type z = LIMIT /\ o_tif z = AON /\ o_price z = match o_side z with BUY => bid | SELL => ask end) /\
    (none_aon s i SELL -> offered (b_asks b) < o_leaves x) /\
    (none_aon s i BUY -> o_tif y = AON -> offered (b_bids b) < o_leaves y).
