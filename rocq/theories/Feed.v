(** * Feed.v -- specification of a market data feed (definitions only, no proofs).

    What an order-by-order feed says about the live orders, written down as directly as possible: a
    map from order ids to live orders, changed by the messages.  This is independent of the managers
    that are compared with it. *)
From Coq Require Import Sorting.Sorted.
From stdpp Require Import fin_maps.
From Verif Require Import Types.

Record live := mkLive { v_sym : Z; v_side : oside; v_price : Z; v_qty : Z }.
Inductive feed :=
| FBook (sym : Z)                                    (* a new, empty book *)
| FAdd (id sym : Z) (sd : oside) (p q : Z)           (* a new order *)
| FReduce (id q : Z)                                 (* part (or all) of the order is cancelled *)
| FExecute (id q : Z)                                (* part (or all) of it trades *)
| FExecuteAt (id p q : Z)
| FModify (id p q : Z)                               (* new price and quantity (zero: cancelled) *)
| FReplace (id nid p q : Z)                          (* replaced by a new order, same symbol and side *)
| FReplaceTo (id nid sym p q : Z)                    (* same, for another symbol *)
| FDelete (id : Z).

Definition lower (q : Z) (v : live) : live := mkLive (v_sym v) (v_side v) (v_price v) (v_qty v - q).
(** the order takes the value [v] if it has quantity, else it is gone *)
Definition settle (id : Z) (v : live) (T : gmap Z live) : gmap Z live :=
  if decide (0 < v_qty v) then <[id := v]> T else delete id T.
Definition track (m : feed) (T : gmap Z live) : gmap Z live :=
  match m with
  | FBook _ => T
  | FAdd id sym sd p q => <[id := mkLive sym sd p q]> T
  | FReduce id q | FExecute id q | FExecuteAt id _ q => match T !! id with Some v => settle id (lower q v) T | None => T end
  | FModify id p q => match T !! id with Some v => settle id (mkLive (v_sym v) (v_side v) p q) T | None => T end
  | FReplace id nid p q => match T !! id with Some v => settle nid (mkLive (v_sym v) (v_side v) p q) (delete id T) | None => T end
  | FReplaceTo id nid sym p q => match T !! id with Some v => settle nid (mkLive sym (v_side v) p q) (delete id T) | None => T end
  | FDelete id => delete id T
  end.

(** Volume on offer at one price. *)
Definition volume (T : gmap Z live) (sym : Z) (sd : oside) (p : Z) : Z :=
  map_fold (fun _ v a => (if decide (v_sym v = sym /\ v_side v = sd /\ v_price v = p) then v_qty v else 0) + a) 0 T.

(** Messages a feed sends: they name live orders, cancel or trade no more than there is, and bring
    in orders under unused ids, with quantities and prices that fit the fields; order ids below
    [ids], symbols below [syms], and no level holds [cap] or more. *)
Definition fits (ids syms prices cap : Z) (T : gmap Z live) (id sym : Z) (sd : oside) (p q : Z) : Prop :=
  0 <= id < ids /\ 0 <= sym < syms /\ 0 < p < prices /\ 0 < q /\ volume T sym sd p + q < cap.
Definition feed_ok (ids syms prices cap : Z) (T : gmap Z live) (m : feed) : Prop :=
  match m with
  | FBook sym => 0 <= sym < syms /\ forall id v, T !! id = Some v -> v_sym v <> sym
  | FAdd id sym sd p q => T !! id = None /\ fits ids syms prices cap T id sym sd p q
  | FReduce id q | FExecute id q | FExecuteAt id _ q => exists v, T !! id = Some v /\ 0 <= q <= v_qty v
  | FModify id p q => exists v, T !! id = Some v /\ 0 < p < prices /\
      (q = 0 \/ fits ids syms prices cap (delete id T) id (v_sym v) (v_side v) p q)
  | FReplace id nid p q => exists v, T !! id = Some v /\ (nid = id \/ T !! nid = None) /\ 0 < p < prices /\
      (q = 0 \/ fits ids syms prices cap (delete id T) nid (v_sym v) (v_side v) p q)
  | FReplaceTo id nid sym p q => exists v, T !! id = Some v /\ (nid = id \/ T !! nid = None) /\ 0 < p < prices /\
      (q = 0 \/ fits ids syms prices cap (delete id T) nid sym (v_side v) p q)
  | FDelete id => exists v, T !! id = Some v
  end.
Fixpoint feeds_ok (ids syms prices cap : Z) (T : gmap Z live) (ms : list feed) : Prop :=
  match ms with [] => True | m :: ms => feed_ok ids syms prices cap T m /\ feeds_ok ids syms prices cap (track m T) ms end.
Definition track_all (T : gmap Z live) (ms : list feed) : gmap Z live := fold_left (fun T m => track m T) ms T.

(** [l] is one side of a book, best price first: the prices with volume, each with its volume. *)
Definition beats (sd : oside) (p p' : Z) : Prop := match sd with BUY => p' < p | SELL => p < p' end.
Definition depth_of (T : gmap Z live) (sym : Z) (sd : oside) (l : list (Z * Z)) : Prop :=
  StronglySorted (beats sd) (map fst l) /\ forall p v, (p, v) ∈ l <-> v = volume T sym sd p /\ 0 < v.
