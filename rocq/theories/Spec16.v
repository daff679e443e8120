(** * Spec16.v -- the fate of a Fill-Or-Kill order in the notifications of a call. *)
From stdpp Require Import list.
From Verif Require Import Types Book Engine Manager Spec.
Open Scope Z_scope. Open Scope list_scope.

(** The notification [ev] offers the Fill-Or-Kill order [x] for matching: a new limit or market order, or a stop order that
    triggered and became one. *)
Definition offers (ev : event) (x : order) : Prop :=
  (ev = EAddOrder x \/ ev = EUpdateOrder x) /\ o_tif x = FOK /\ (o_type x = LIMIT \/ o_type x = MARKET).
(** Killed: the next notification is its deletion, with nothing executed. *)
Definition killed (x : order) (post : list event) : Prop :=
  exists y post', post = EDeleteOrder y :: post' /\ o_id y = o_id x /\ o_leaves y = o_leaves x /\ o_exec y = o_exec x.
(** Filled: executions of opposite orders which add up to its whole quantity, at one price, then its own execution at that price
    for its whole quantity, then its deletion. *)
Definition filled (x : order) (post : list event) : Prop :=
  exists mid y z p post', post = mid ++ EExecute y p (o_leaves x) :: EDeleteOrder z :: post' /\
    o_id y = o_id x /\ o_leaves y = o_leaves x /\ o_id z = o_id x /\ o_leaves z = 0 /\
    sum_qty (execs mid) = o_leaves x /\
    (forall r p' q, (r, p', q) ∈ execs mid -> o_sym r = o_sym x /\ o_side r <> o_side x /\ p' = p /\ 0 < q <= o_leaves r).
Definition all_or_nothing (evs : list event) : Prop :=
  forall pre ev post x, evs = pre ++ ev :: post -> offers ev x -> killed x post \/ filled x post.
