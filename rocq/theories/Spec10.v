(** * Spec10.v -- specification vocabulary for driving the market manager by a feed (definitions
    only, no proofs). *)
From stdpp Require Import fin_maps.
From Verif Require Import Types Book Manager Factory Spec Spec5 Feed.

(** Quantity of all live orders together. *)
Definition open_interest (T : gmap Z live) : Z := map_fold (fun _ v a => v_qty v + a) 0 T.
(** Messages the manager can represent: 64-bit fields, positive ids and quantities, orders only for
    books announced before, all live orders together below 2^64. *)
Definition carries (B : list Z) (T : gmap Z live) (m : feed) : Prop :=
  feed_ok TWO64 (TWO32 - 1) TWO64 TWO64 T m /\
  match m with
  | FBook _ | FReduce _ _ | FExecute _ _ | FDelete _ => True
  | FAdd id sym _ _ q => 0 < id /\ sym ∈ B /\ open_interest T + q < TWO64
  | FExecuteAt _ p _ => 0 <= p < TWO64
  | FModify id _ q => 0 < q /\ open_interest (delete id T) + q < TWO64
  | FReplace id nid _ q => 0 < nid /\ 0 < q /\ open_interest (delete id T) + q < TWO64
  | FReplaceTo _ _ _ _ _ => False
  end.
Definition books_of (m : feed) : list Z := match m with FBook sym => [sym] | _ => [] end.
Fixpoint carries_all (B : list Z) (T : gmap Z live) (ms : list feed) : Prop :=
  match ms with [] => True | m :: ms => carries B T m /\ carries_all (books_of m ++ B) (track m T) ms end.

(** The calls made for a message (performance/market_manager.cpp:93-106; the name of a symbol is of
    no concern to the feed). *)
Definition drives (m : feed) (ops : list op) : Prop :=
  match m with
  | FBook sym => exists name, ops = [AddSymbol (mkSymbol sym name); AddOrderBook (mkSymbol sym name)]
  | FAdd id sym sd p q => ops = [AddOrder (LimitOrder id sym sd p q GTC MAX64)]
  | FReduce id q => ops = [ReduceOrder id q]
  | FExecute id q => ops = [ExecuteOrder id q]
  | FExecuteAt id p q => ops = [ExecuteOrderAt id p q]
  | FModify id p q => ops = [ModifyOrder id p q]
  | FReplace id nid p q => ops = [ReplaceOrder id nid p q]
  | FReplaceTo _ _ _ _ _ => False
  | FDelete id => ops = [DeleteOrder id]
  end.

(** One side of a book as the user reads it: price and TotalVolume of the levels, best first. *)
Definition shows (b : book) (sd : oside) : list (Z * Z) :=
  map (fun l => (l_price l, li_total (l_info l))) (s_lvls (get_side (side_kind sd) b)).
(** The order a feed order is represented by. *)
Definition stands_for (v : live) (o : order) : Prop :=
  o_type o = LIMIT /\ o_tif o = GTC /\ o_sym o = v_sym v /\ o_side o = v_side v /\ o_price o = v_price v /\ o_leaves o = v_qty v.
