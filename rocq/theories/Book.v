(** * Book.v -- operations of one order book (source/trader/matching/order_book.cpp). *)
From Verif Require Export Types.

(** Collection of a live order (the switch statements over order_ptr->Type in
    market_manager.cpp, e.g. 498-512, and the IsBuy() tests of order_book.cpp).
    A MARKET order is in no collection; the model never asks for it. *)
Definition kind_of (t : otype) (s : oside) : kind :=
  match t, s with
  | (MARKET | LIMIT), BUY => KBid
  | (MARKET | LIMIT), SELL => KAsk
  | (STOP | STOP_LIMIT), BUY => KBuyStop
  | (STOP | STOP_LIMIT), SELL => KSellStop
  | (TRAILING_STOP | TRAILING_STOP_LIMIT), BUY => KTrailBuy
  | (TRAILING_STOP | TRAILING_STOP_LIMIT), SELL => KTrailSell
  end.
Definition okind (o : order) : kind := kind_of (o_type o) (o_side o).

(** Level key of an order: Price for limit orders, StopPrice for stop orders
    (order_book.cpp:131, 283, 414). *)
Definition okey (o : order) : Z :=
  match o_type o with MARKET | LIMIT => o_price o | _ => o_stop o end.

(** Levels::find: order_book.inl:26-60 (prices are unique in a collection). *)
Fixpoint find_level (p : Z) (ls : list level) : option level :=
  match ls with
  | [] => None
  | l :: r => if l_price l =? p then Some l else find_level p r
  end.
Fixpoint upd_level (p : Z) (l' : level) (ls : list level) : list level :=
  match ls with
  | [] => []
  | l :: r => if l_price l =? p then l' :: r else l :: upd_level p l' r
  end.
(** Levels::insert, keeping the best-first order. *)
Fixpoint ins_level (k : kind) (l' : level) (ls : list level) : list level :=
  match ls with
  | [] => [l']
  | l :: r => if better k (l_price l') (l_price l) then l' :: l :: r else l :: ins_level k l' r
  end.
(** Levels::erase. *)
Fixpoint del_level (p : Z) (ls : list level) : list level :=
  match ls with
  | [] => []
  | l :: r => if l_price l =? p then r else l :: del_level p r
  end.
(** The levels from price [p] on, in best-first order: what repeated GetNextLevel visits
    (order_book.inl:62-98). *)
Fixpoint from_level (p : Z) (ls : list level) : list level :=
  match ls with
  | [] => []
  | l :: r => if l_price l =? p then l :: r else from_level p r
  end.
Definition next_level (p : Z) (ls : list level) : option Z :=
  match from_level p ls with _ :: l :: _ => Some (l_price l) | _ => None end.

(** LevelUpdate: include/trader/matching/level.h:112-130. *)
Inductive utype := UAdd | UUpdate | UDelete.
Record lupd := mkLupd { u_type : utype; u_info : linfo; u_top : bool }.

(** Level volumes += / -= (order_book.cpp:142-145, 163-166, 194-197; uint64 wrap). *)
Definition li_plus (o : order) (i : linfo) : linfo :=
  mkLinfo (li_type i) (li_price i) (u64 (li_total i + o_leaves o))
          (u64 (li_hidden i + hidden_q o)) (u64 (li_visible i + visible_q o)) (li_count i + 1).
Definition li_minus (q h v n : Z) (i : linfo) : linfo :=
  mkLinfo (li_type i) (li_price i) (u64 (li_total i - q)) (u64 (li_hidden i - h))
          (u64 (li_visible i - v)) (li_count i - n).

Definition new_level (k : kind) (p : Z) : level := mkLevel (mkLinfo (ltype_of k) p 0 0 0 0) [].
Definition is_best (p : Z) (s : side) : bool :=
  match s_best s with Some b => b =? p | None => false end.

(** AddOrder / AddStopOrder / AddTrailingStopOrder with AddLevel / AddStopLevel /
    AddTrailingStopLevel inlined: order_book.cpp:66-96+128-155, 218-248+280-300,
    349-379+411-431 (three copies of the same code). *)
Definition side_add (k : kind) (o : order) (s : side) : side * lupd :=
  let p := okey o in
  match find_level p (s_lvls s) with
  | Some l =>
      let l' := mkLevel (li_plus o (l_info l)) (l_ids l ++ [o_id o]) in
      let s' := mkSide (s_best s) (upd_level p l' (s_lvls s)) in
      (s', mkLupd UUpdate (l_info l') (is_best p s'))
  | None =>
      let l := new_level k p in
      let best' := match s_best s with
                   | None => Some p
                   | Some b => if better k p b then Some p else Some b
                   end in
      let l' := mkLevel (li_plus o (l_info l)) (l_ids l ++ [o_id o]) in
      let s' := mkSide best' (ins_level k l' (s_lvls s)) in
      (s', mkLupd UAdd (l_info l') (is_best p s'))
  end.

(** DeleteLevel / DeleteStopLevel / DeleteTrailingStopLevel: order_book.cpp:98-126, 250-278,
    381-409.  The tree-shape shortcut that finds the new best level is "the next level in
    best-first order"; Avl.v proves that the shortcut computes exactly that in every AVL
    search tree. *)
Definition side_del_level (p : Z) (s : side) : side :=
  mkSide (if is_best p s then next_level p (s_lvls s) else s_best s) (del_level p (s_lvls s)).

(** Shared tail of ReduceOrder/DeleteOrder and their stop versions: order_book.cpp:157-187,
    189-216, 302-347, 433-478.  [gone]: the order is unlinked.  The Level pointer of the order
    is the level at its key that contains its id; a missing one is a dangling pointer. *)
Definition side_sub (o : order) (q h v : Z) (gone : bool) (s : side) : res (side * lupd) :=
  let p := okey o in
  match find_level p (s_lvls s) with
  | None => Undef
  | Some l =>
      if negb (bool_decide (o_id o ∈ l_ids l)) then Undef else
      let ids' := if gone then filter (fun i => i <> o_id o) (l_ids l) else l_ids l in
      let i' := li_minus q h v (if gone then 1 else 0) (l_info l) in
      if li_total i' =? 0 then
        (* Level == nullptr after DeleteLevel, so Top is reported true *)
        Ok (side_del_level p s, mkLupd UDelete i' true)
      else
        let s' := mkSide (s_best s) (upd_level p (mkLevel i' ids') (s_lvls s)) in
        Ok (s', mkLupd UUpdate i' (is_best p s'))
  end.

Definition book_add (o : order) (b : book) : book * lupd :=
  let '(s', u) := side_add (okind o) o (get_side (okind o) b) in
  (set_side (okind o) s' b, u).

(** OrderBook::ReduceOrder & co: [o] already carries the reduced LeavesQuantity. *)
Definition book_reduce (o : order) (q h v : Z) (b : book) : res (book * lupd) :=
  do '(s', u) <- side_sub o q h v (o_leaves o =? 0) (get_side (okind o) b);
  Ok (set_side (okind o) s' b, u).

(** OrderBook::DeleteOrder & co. *)
Definition book_delete (o : order) (b : book) : res (book * lupd) :=
  do '(s', u) <- side_sub o (o_leaves o) (hidden_q o) (visible_q o) true (get_side (okind o) b);
  Ok (set_side (okind o) s' b, u).

(** CalculateTrailingStopPrice: order_book.cpp:480-518.  int64/uint64 conversions written as
    [u64]; the negation of INT64_MIN is excluded by Validate. *)
Definition trailing_abs (d market : Z) : Z :=
  (* (int64_t)((-d * market_price) / 10000) for negative d: uint64 product, quotient < 2^63 *)
  u64 (- d * market) / 10000.
Definition calc_trailing (o : order) (b : book) : Z :=
  let market := match o_side o with BUY => trailing_market_ask b | SELL => trailing_market_bid b end in
  let '(dist, step) :=
    if o_tdist o <? 0 then (trailing_abs (o_tdist o) market, trailing_abs (o_tstep o) market)
    else (o_tdist o, o_tstep o) in
  let old := o_stop o in
  match o_side o with
  | BUY =>
      let new := if market <? u64 (MAX64 - dist) then u64 (market + dist) else MAX64 in
      if (new <? old) && (u64 step <=? old - new) then new else old
  | SELL =>
      let new := if u64 dist <? market then u64 (market - dist) else 0 in
      if (old <? new) && (u64 step <=? new - old) then new else old
  end.
