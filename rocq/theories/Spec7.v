(** * Spec7.v -- a reference matching algorithm on plain lists of orders (definitions only, no proofs).

    The orders of one side of a book are a list, best price first and oldest first within a price;
    an incoming order takes from the front of the opposite list while its limit allows. *)
From stdpp Require Import fin_maps.
From Verif Require Import Types Book Engine Manager Spec Spec2 Spec3 Spec5 Spec6.

(** The orders resting on a side of the book of symbol [i]: level by level from the best price, in
    the order of the queues. *)
Definition resting (s : state) (i : Z) (sd : oside) : list order :=
  match get_book i s with
  | Some b => omap (fun j => get_order j s) (concat (map l_ids (s_lvls (get_side (side_kind sd) b))))
  | None => []
  end.

Global Instance within_limit_dec o p : Decision (within_limit o p).
Proof. unfold within_limit. destruct (o_side o); apply _. Defined.
(** [o] can trade with the resting order [r] at the price of [r]. *)
Definition takes (o r : order) : Prop := 0 < o_leaves o /\ within_limit o (o_price r).
Global Instance takes_dec o r : Decision (takes o r).
Proof. unfold takes. apply _. Defined.

(** The executions: the resting order, then the incoming one, at the price of the resting order. *)
Fixpoint fills (o : order) (rs : list order) : list (order * Z * Z) :=
  match rs with
  | [] => []
  | r :: rs =>
      if decide (takes o r) then
        let q := Z.min (o_leaves r) (o_leaves o) in
        (r, o_price r, q) :: (o, o_price r, q) :: fills (after_fill q o) rs
      else []
  end.
(** What becomes of the incoming order, and of the resting ones. *)
Fixpoint filled (o : order) (rs : list order) : order :=
  match rs with
  | [] => o
  | r :: rs => if decide (takes o r) then filled (after_fill (Z.min (o_leaves r) (o_leaves o)) o) rs else o
  end.
Fixpoint remaining (o : order) (rs : list order) : list order :=
  match rs with
  | [] => []
  | r :: rs =>
      if decide (takes o r) then
        let q := Z.min (o_leaves r) (o_leaves o) in
        (if decide (q = o_leaves r) then [] else [after_fill q r]) ++ remaining (after_fill q o) rs
      else r :: rs
  end.

(** A Fill-Or-Kill order: the quantity it can get, and what it takes from whom if that is enough. *)
Definition supply (o : order) (rs : list order) : Z :=
  sumZ (map o_leaves (filter (fun r => within_limit o (o_price r)) rs)).
Fixpoint taken (o : order) (rs : list order) : list (order * Z) :=
  match rs with
  | [] => []
  | r :: rs =>
      if decide (takes o r) then
        let q := Z.min (o_leaves r) (o_leaves o) in (r, q) :: taken (after_fill q o) rs
      else []
  end.

(** An order joins its side behind all orders of the same or a better price. *)
Definition goes_before (o r : order) : Prop := match o_side o with BUY => o_price r < o_price o | SELL => o_price o < o_price r end.
Global Instance goes_before_dec o r : Decision (goes_before o r).
Proof. unfold goes_before. destruct (o_side o); apply _. Defined.
Fixpoint place (o : order) (rs : list order) : list order :=
  match rs with
  | [] => [o]
  | r :: rs => if decide (goes_before o r) then o :: r :: rs else r :: place o rs
  end.

(** A market order arrives with the best opposite price, plus or minus its slippage, as its limit. *)
Definition arriving (o : order) (rs : list order) : order :=
  match o_type o, rs with
  | MARKET, r :: _ => set_price (match o_side o with BUY => Z.min MAX64 (o_price r + o_slip o) | SELL => Z.max 0 (o_price r - o_slip o) end) o
  | _, _ => o
  end.

(** A new limit or market order against the opposite side [rs]: the executions, the opposite side
    afterwards, and what is left of the order to rest, if anything. *)
Definition matched (o : order) (rs : list order) : list (order * Z * Z) * list order * option order :=
  let x := arriving o rs in
  if decide (o_tif o = FOK) then
    if decide (o_leaves x <= supply x rs)
    then (map (fun y => (fst y, o_price x, snd y)) (taken x rs) ++ [(x, o_price x, o_leaves x)], remaining x rs, None)
    else ([], rs, None)
  else
    (fills x rs, remaining x rs, if decide (0 < o_leaves (filled x rs) /\ o_tif o = GTC) then Some (filled x rs) else None).
(** ... with [own] on its own side: the executions, the opposite side and the own side afterwards. *)
Definition reference (o : order) (rs own : list order) : list (order * Z * Z) * list order * list order :=
  let '(xs, rs', rest) := matched o rs in
  (xs, rs', match rest with Some z => place z own | None => own end).

(** No live order of symbol [i] is All-Or-None. *)
Definition no_aon_in (s : state) (i : Z) : Prop := forall j o, get_order j s = Some o -> o_sym o = i -> o_tif o <> AON.
