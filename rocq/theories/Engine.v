(** * Engine.v -- the matching engine of one order book
    (source/trader/matching/market_manager.cpp, private part).

    The engine works on one book, the global order index and the log of handler
    notifications.  Simplifications that hold throughout:
    - [assert]s are off (release build);
    - the order index [_orders] is a finite map from id to order value; an order that is being
      modified or activated (it is in no level at that time) is taken out of the map and handed
      around as a value, and put back when it rests again; the C++ keeps its node in the map
      meanwhile, but never reads it through the map while it is in no level;
    - walking an intrusive list with a saved [next] pointer is recursion over the list of ids
      read at the start: inside each loop body only the current order is unlinked. *)
From Verif Require Export Book.

Record eng := mkEng { e_bk : book; e_ords : gmap Z order; e_log : list event }.

Definition set_bk (b : book) (e : eng) : eng := mkEng b (e_ords e) (e_log e).
Definition set_ords (m : gmap Z order) (e : eng) : eng := mkEng (e_bk e) m (e_log e).
Definition emit (ev : event) (e : eng) : eng := mkEng (e_bk e) (e_ords e) (e_log e ++ [ev]).
Definition sid_of (b : book) : Z := sy_id (b_sym b).
Definition lvls (k : kind) (e : eng) : list level := s_lvls (get_side k (e_bk e)).
Definition best (k : kind) (e : eng) : option Z := s_best (get_side k (e_bk e)).
Definition put (o : order) (e : eng) : eng := set_ords (<[ o_id o := o ]> (e_ords e)) e.
Definition drop_id (i : Z) (e : eng) : eng := set_ords (delete i (e_ords e)) e.

(** UpdateLevel: market_manager.cpp:1741-1759. *)
Definition emit_lupd (u : lupd) (e : eng) : eng :=
  let sid := sid_of (e_bk e) in
  let ev := match u_type u with
            | UAdd => EAddLevel sid (u_info u) (u_top u)
            | UUpdate => EUpdateLevel sid (u_info u) (u_top u)
            | UDelete => EDeleteLevel sid (u_info u) (u_top u)
            end in
  emit (EUpdateBook sid (u_top u)) (emit ev e).
(** Only the LIMIT branch of the switches calls UpdateLevel. *)
Definition emit_lim (o : order) (u : lupd) (e : eng) : eng :=
  if is_limit o then emit_lupd u e else e.

(** The switch statements over the order type that add/reduce/delete an order in its book,
    e.g. market_manager.cpp:633-650, 495-512, 585-602 (never reached for MARKET orders). *)
Definition eng_add (o : order) (e : eng) : eng :=
  let '(b, u) := book_add o (e_bk e) in emit_lim o u (set_bk b e).
Definition eng_sub_reduce (o : order) (q h v : Z) (e : eng) : res eng :=
  do '(b, u) <- book_reduce o q h v (e_bk e);
  Ok (emit_lim o u (set_bk b e)).
Definition eng_sub_delete (o : order) (e : eng) : res eng :=
  do '(b, u) <- book_delete o (e_bk e);
  Ok (emit_lim o u (set_bk b e)).

Definition upd_prices (s : oside) (p : Z) (e : eng) : eng :=
  set_bk (update_matching s p (update_last s p (e_bk e))) e.
Definition reset_m (e : eng) : eng := set_bk (reset_matching (e_bk e)) e.

(** ReduceOrder after the order was found: market_manager.cpp:484-545. *)
Definition reduce_order (o : order) (q0 : Z) (e : eng) : res eng :=
  let q := Z.min q0 (o_leaves o) in
  let o' := set_leaves (o_leaves o - q) o in
  let h := hidden_q o - hidden_q o' in
  let v := visible_q o - visible_q o' in
  if 0 <? o_leaves o' then
    eng_sub_reduce o' q h v (emit (EUpdateOrder o') (put o' e))
  else
    do e <- eng_sub_reduce o' q h v (emit (EDeleteOrder o') (put o' e));
    Ok (drop_id (o_id o') e).

(** DeleteOrder after the order was found: market_manager.cpp:840-865. *)
Definition delete_order (o : order) (e : eng) : res eng :=
  do e <- eng_sub_delete o e;
  Ok (drop_id (o_id o) (emit (EDeleteOrder o) e)).

(** ReduceOrder(id, quantity, true): market_manager.cpp:457-555; its result is ignored by all
    callers. *)
Definition reduce_core (i q : Z) (e : eng) : res eng :=
  if (i =? 0) || (q =? 0) then Ok e else
  match e_ords e !! i with
  | None => Ok e
  | Some o =>
      if negb (o_sym o =? sid_of (e_bk e)) then Undef else
      do e <- reduce_order o q e; Ok (reset_m e)
  end.

(** DeleteOrder(id, true): market_manager.cpp:820-875. *)
Definition delete_core (i : Z) (e : eng) : res eng :=
  if i =? 0 then Ok e else
  match e_ords e !! i with
  | None => Ok e
  | Some o =>
      if negb (o_sym o =? sid_of (e_bk e)) then Undef else
      do e <- delete_order o e; Ok (reset_m e)
  end.

(** onExecuteOrder + UpdateLastPrice + UpdateMatchingPrice + ExecutedQuantity += quantity:
    e.g. market_manager.cpp:1264-1277 for a resting order, 1282-1290 for the incoming one. *)
Definition exec_note (o : order) (price q : Z) (e : eng) : eng :=
  upd_prices (o_side o) price (emit (EExecute o price q) e).
Definition exec_incr (q : Z) (o : order) : order := set_exec (u64 (o_exec o + q)) o.

Definition exec_reduce (r : order) (price q : Z) (e : eng) : res eng :=
  reduce_core (o_id r) q (put (exec_incr q r) (exec_note r price q e)).
Definition exec_delete (r : order) (price q : Z) (e : eng) : res eng :=
  delete_core (o_id r) (put (exec_incr q r) (exec_note r price q e)).

(** "arbitrage" tests: a price [p] reaches a level at [lp] of collection [k]
    (market_manager.cpp:1217, 1345, 1463). *)
Definition arb (k : kind) (lp p : Z) : bool := if desc k then p <=? lp else lp <=? p.
Definition opp (s : oside) : kind := match s with BUY => KAsk | SELL => KBid end.

(** ** CalculateMatchingChain(book, level, price, volume): market_manager.cpp:1454-1497. *)
Fixpoint chain1_orders (volume avail : Z) (os : list order) : Z + Z :=
  match os with
  | [] => inr avail
  | o :: os =>
      let need := u64 (volume - avail) in
      let q := if is_aon o then o_leaves o else Z.min (o_leaves o) need in
      let avail := u64 (avail + q) in
      if volume =? avail then inl avail
      else if volume <? avail then inl 0
      else chain1_orders volume avail os
  end.
Fixpoint chain1 (k : kind) (price volume avail : Z) (ls : list (Z * list order)) : Z :=
  match ls with
  | [] => 0
  | (p, os) :: ls =>
      if negb (arb k p price) then 0 else
      match chain1_orders volume avail os with
      | inl r => r
      | inr avail => chain1 k price volume avail ls
      end
  end.
(** The orders of the levels from [p] on; a missing order is a dangling pointer. *)
Definition resolve (m : gmap Z order) (ls : list level) : option (list (Z * list order)) :=
  mapM (fun l => os ← mapM (fun i => m !! i) (l_ids l); Some (l_price l, os)) ls.
Definition chain_levels (k : kind) (p : Z) (e : eng) : res (list (Z * list order)) :=
  of_opt (resolve (e_ords e) (from_level p (lvls k e))).

(** ** CalculateMatchingChain(book, bid_level, ask_level): market_manager.cpp:1499-1575.
    [ll]/[sl]: the level pointers (as the remaining levels of their collection), [lo]/[so]: the
    order pointers (as the rest of their queue).  As in the C++, the swap at 1540-1547
    exchanges the order pointers but not the level pointers. *)
Fixpoint chain2_loop (fuel : nat) (ll sl : list (list order)) (lo so : list order)
    (req avail : Z) : res Z :=
  match fuel with
  | O => Fuel
  | S f =>
      match ll, sl with
      | _ :: llt, _ :: slt =>
          match lo, so with
          | _ :: lot, s :: sot =>
              let need := u64 (req - avail) in
              let q := if is_aon s then o_leaves s else Z.min (o_leaves s) need in
              let avail' := u64 (avail + q) in
              if req =? avail' then Ok req
              else if req <? avail' then chain2_loop f ll sl so lot avail' req
              else chain2_loop f ll sl lo sot req avail'
          | _, _ =>
              let '(ll', lo') := match lo with
                                 | [] => (llt, match llt with [] => [] | x :: _ => x end)
                                 | _ => (ll, lo) end in
              let '(sl', so') := match so with
                                 | [] => (slt, match slt with [] => [] | x :: _ => x end)
                                 | _ => (sl, so) end in
              chain2_loop f ll' sl' lo' so' req avail
          end
      | _, _ => Ok 0
      end
  end.
Definition c2_fuel (ll sl : list (list order)) : nat :=
  S (sum_list (map (fun l => S (length l)) ll) + sum_list (map (fun l => S (length l)) sl)).
Definition chain2 (bp ap : Z) (e : eng) : res Z :=
  do bl <- chain_levels KBid bp e;
  do al <- chain_levels KAsk ap e;
  let bl := map snd bl in
  let al := map snd al in
  match bl, al with
  | (b :: bt) :: _, (a :: at_) :: _ =>
      let swap := (is_aon b && is_aon a && (o_leaves b <? o_leaves a)) || (negb (is_aon b) && is_aon a) in
      if swap
      then chain2_loop (c2_fuel bl al) al bl (a :: at_) (b :: bt) (o_leaves a) 0
      else chain2_loop (c2_fuel bl al) bl al (b :: bt) (a :: at_) (o_leaves b) 0
  | _, _ => Undef
  end.

(** ** ExecuteMatchingChain: market_manager.cpp:1577-1644. *)
Fixpoint exec_chain_ids (ids : list Z) (price v : Z) (e : eng) : res (Z * eng) :=
  match ids with
  | [] => Ok (v, e)
  | i :: rest =>
      if v =? 0 then Ok (v, e) else
      do r <- of_opt (e_ords e !! i);
      if is_aon r then
        let q := o_leaves r in
        do e <- exec_delete r price q e;
        exec_chain_ids rest price (u64 (v - q)) e
      else
        let q := Z.min (o_leaves r) v in
        do e <- exec_reduce r price q e;
        exec_chain_ids rest price (u64 (v - q)) e
  end.
Fixpoint exec_chain_lvls (k : kind) (ps : list Z) (price v : Z) (e : eng) : res eng :=
  match ps with
  | [] => Ok e
  | p :: ps =>
      if v =? 0 then Ok e else
      do l <- of_opt (find_level p (lvls k e));
      do '(v, e) <- exec_chain_ids (l_ids l) price v e;
      exec_chain_lvls k ps price v e
  end.
Definition exec_chain (k : kind) (p0 price v : Z) (e : eng) : res eng :=
  match from_level p0 (lvls k e) with
  | [] => Undef
  | ls => exec_chain_lvls k (map l_price ls) price v e
  end.

(** ** MatchOrder: market_manager.cpp:1210-1301. *)
(** Inner loop 1248-1299; the boolean says "return from MatchOrder". *)
Fixpoint match_ids (ids : list Z) (o : order) (e : eng) : res (bool * order * eng) :=
  match ids with
  | [] => Ok (false, o, e)
  | i :: rest =>
      do r <- of_opt (e_ords e !! i);
      let q := Z.min (o_leaves r) (o_leaves o) in
      if is_aon r && (o_leaves o <? o_leaves r) then Ok (true, o, e) else
      let price := o_price r in
      do e <- exec_reduce r price q e;
      let e := exec_note o price q e in
      let o := set_leaves (o_leaves o - q) (exec_incr q o) in
      if o_leaves o =? 0 then Ok (true, o, e) else match_ids rest o e
  end.
Fixpoint match_order_loop (fuel : nat) (o : order) (e : eng) : res (order * eng) :=
  match fuel with
  | O => Fuel
  | S f =>
      let k := opp (o_side o) in
      match best k e with
      | None => Ok (o, e)
      | Some p =>
          do l <- of_opt (find_level p (lvls k e));
          if negb (arb k p (o_price o)) then Ok (o, e) else
          if is_fok o || is_aon o then
            do ls <- chain_levels k p e;
            let chain := chain1 k (o_price o) (o_leaves o) 0 ls in
            if chain =? 0 then Ok (o, e) else
            do e <- exec_chain k p (o_price o) chain e;
            let q := o_leaves o in
            Ok (set_leaves 0 (exec_incr q o), exec_note o (o_price o) q e)
          else
            do '(stop, o, e) <- match_ids (l_ids l) o e;
            if (stop : bool) then Ok (o, e) else match_order_loop f o e
      end
  end.
Definition match_order (o : order) (e : eng) : res (order * eng) :=
  match_order_loop (S (length (lvls (opp (o_side o)) e))) o e.

(** ** MatchMarket: market_manager.cpp:1172-1202. *)
Definition market_price (o : order) (best : Z) : Z :=
  match o_side o with
  | BUY => if MAX64 - o_slip o <? best then MAX64 else best + o_slip o
  | SELL => if best <? o_slip o then 0 else best - o_slip o
  end.
Definition match_market (o : order) (e : eng) : res (order * eng) :=
  match best (opp (o_side o)) e with
  | None => Ok (o, e)
  | Some p => match_order (set_price (market_price o p) o) e
  end.

(** ** ActivateStopOrder / ActivateStopLimitOrder: market_manager.cpp:1383-1452. *)
Definition to_market (o : order) : order :=
  let o := set_stop 0 (set_price 0 (set_type MARKET o)) in
  set_tif (if is_fok o then FOK else IOC) o.
Definition to_limit (o : order) : order := set_stop 0 (set_type LIMIT o).
Definition immediate (o : order) : bool := is_ioc o || is_fok o.

Definition activate_stop (o : order) (e : eng) : res eng :=
  do e <- eng_sub_delete o e;
  let e := drop_id (o_id o) e in
  let o := to_market o in
  do '(o, e) <- match_market o (emit (EUpdateOrder o) e);
  Ok (emit (EDeleteOrder o) e).

Definition activate_stop_limit (o : order) (e : eng) : res eng :=
  do e <- eng_sub_delete o e;
  let e := drop_id (o_id o) e in
  let o := to_limit o in
  do '(o, e) <- match_order o (emit (EUpdateOrder o) e);
  if (0 <? o_leaves o) && negb (immediate o)
  then Ok (eng_add o (put o e))
  else Ok (emit (EDeleteOrder o) e).

(** ** ActivateStopOrders(book, level, stop_price): market_manager.cpp:1338-1381. *)
Fixpoint activate_ids (ids : list Z) (res0 : bool) (e : eng) : res (bool * eng) :=
  match ids with
  | [] => Ok (res0, e)
  | i :: rest =>
      do o <- of_opt (e_ords e !! i);
      match o_type o with
      | STOP | TRAILING_STOP => do e <- activate_stop o e; activate_ids rest true e
      | STOP_LIMIT | TRAILING_STOP_LIMIT => do e <- activate_stop_limit o e; activate_ids rest true e
      | MARKET | LIMIT => activate_ids rest res0 e
      end
  end.
Definition activate_level (k : kind) (market : Z) (e : eng) : res (bool * eng) :=
  match best k e with
  | None => Ok (false, e)
  | Some p =>
      do l <- of_opt (find_level p (lvls k e));
      if negb (arb k p market) then Ok (false, e) else activate_ids (l_ids l) false e
  end.

(** ** RecalculateTrailingStopPrice: market_manager.cpp:1646-1739. *)
Definition retrail (new : Z) (o : order) : order :=
  match o_type o with
  | TRAILING_STOP => set_stop new o
  | TRAILING_STOP_LIMIT => set_price (u64 (new + (o_price o - o_stop o))) (set_stop new o)
  | _ => o
  end.
Fixpoint recalc_ids (ids : list Z) (rc : bool) (e : eng) : res (bool * eng) :=
  match ids with
  | [] => Ok (rc, e)
  | i :: rest =>
      do o <- of_opt (e_ords e !! i);
      let new := calc_trailing o (e_bk e) in
      if new =? o_stop o then recalc_ids rest rc e else
      do e <- eng_sub_delete o e;
      let o := retrail new o in
      recalc_ids rest true (eng_add o (put o (emit (EUpdateOrder o) e)))
  end.
Fixpoint recalc_walk (fuel : nat) (k : kind) (prev cur : option Z) (e : eng) : res eng :=
  match fuel with
  | O => Fuel
  | S f =>
      match cur with
      | None => Ok e
      | Some p =>
          do l <- of_opt (find_level p (lvls k e));
          do '(rc, e) <- recalc_ids (l_ids l) false e;
          if (rc : bool)
          then recalc_walk f k prev (match prev with Some q => Some q | None => best k e end) e
          else recalc_walk f k (Some p) (next_level p (lvls k e)) e
      end
  end.
Definition walk_fuel (e : eng) : nat :=
  let n := S (S (size (e_ords e))) in (n * n)%nat.
(** Called with _best_ask (side BUY: trailing buy stops) or _best_bid (side SELL). *)
Definition recalc (s : oside) (e : eng) : res eng :=
  match s with
  | BUY =>
      match best KAsk e with
      | None => Ok e
      | Some _ =>
          let old := b_trail_ask (e_bk e) in
          let new := trailing_market_ask (e_bk e) in
          let e := set_bk (set_trail_ask new (e_bk e)) e in
          if old <=? new then Ok e
          else recalc_walk (walk_fuel e) KTrailBuy None (best KTrailBuy e) e
      end
  | SELL =>
      match best KBid e with
      | None => Ok e
      | Some _ =>
          let old := b_trail_bid (e_bk e) in
          let new := trailing_market_bid (e_bk e) in
          let e := set_bk (set_trail_bid new (e_bk e)) e in
          if new <=? old then Ok e
          else recalc_walk (walk_fuel e) KTrailSell None (best KTrailSell e) e
      end
  end.

(** ** ActivateStopOrders(book): market_manager.cpp:1303-1336. *)
Definition activate_round (e : eng) : res (bool * eng) :=
  do '(r1, e) <- activate_level KBuyStop (market_ask (e_bk e)) e;
  do '(r1, e) <- (if (r1 : bool) then Ok (true, e) else activate_level KTrailBuy (market_ask (e_bk e)) e);
  do e <- recalc BUY e;
  do '(r2, e) <- activate_level KSellStop (market_bid (e_bk e)) e;
  do '(r2, e) <- (if (r2 : bool) then Ok (true, e) else activate_level KTrailSell (market_bid (e_bk e)) e);
  do e <- recalc SELL e;
  Ok (orb r1 r2, e).
Fixpoint activate_loop (fuel : nat) (res0 : bool) (e : eng) : res (bool * eng) :=
  match fuel with
  | O => Fuel
  | S f =>
      do '(r, e) <- activate_round e;
      if (r : bool) then activate_loop f true e else Ok (res0, e)
  end.
Definition fuel_of (e : eng) : nat := S (size (e_ords e)).
Definition activate_all (e : eng) : res (bool * eng) := activate_loop (fuel_of e) false e.

(** ** Match(book): market_manager.cpp:1066-1170. *)
Inductive flow := Return | Break.
(** The loop over crossed pairs 1085-1158.  [Return]: "return" at 1098 (no chain). *)
Fixpoint match_pairs (bp ap : Z) (bids asks : list Z) (e : eng) : res (flow * eng) :=
  match bids, asks with
  | bi :: brest, ai :: arest =>
      do b <- of_opt (e_ords e !! bi);
      do a <- of_opt (e_ords e !! ai);
      if is_aon b || is_aon a then
        do chain <- chain2 bp ap e;
        if chain =? 0 then Ok (Return, e) else
        if is_aon b then
          do e' <- exec_chain KBid bp (o_price b) chain e;
          do e' <- exec_chain KAsk ap (o_price b) chain e';
          Ok (Break, e')
        else
          do e' <- exec_chain KAsk ap (o_price a) chain e;
          do e' <- exec_chain KBid bp (o_price a) chain e';
          Ok (Break, e')
      else
        let '(x, r) := if o_leaves a <? o_leaves b then (a, b) else (b, a) in
        let q := o_leaves x in
        let price := o_price x in
        do e <- exec_delete x price q e;
        do e <- exec_reduce r price q e;
        match_pairs bp ap brest arest e
  | _, _ => Ok (Break, e)
  end.
Definition crossed (e : eng) : option (Z * Z) :=
  match best KBid e, best KAsk e with
  | Some bp, Some ap => if ap <=? bp then Some (bp, ap) else None
  | _, _ => None
  end.
(** The inner while loop 1072-1164; the boolean says "return from Match". *)
Fixpoint match_while (fuel : nat) (e : eng) : res (bool * eng) :=
  match fuel with
  | O => Fuel
  | S f =>
      match crossed e with
      | None => Ok (false, e)
      | Some (bp, ap) =>
          do bl <- of_opt (find_level bp (lvls KBid e));
          do al <- of_opt (find_level ap (lvls KAsk e));
          do '(fl, e) <- match_pairs bp ap (l_ids bl) (l_ids al) e;
          match fl with
          | Return => Ok (true, e)
          | Break =>
              do '(_, e) <- activate_level KBuyStop (market_ask (e_bk e)) e;
              do '(_, e) <- activate_level KSellStop (market_bid (e_bk e)) e;
              match_while f e
          end
      end
  end.
Fixpoint match_loop (fuel : nat) (e : eng) : res eng :=
  match fuel with
  | O => Fuel
  | S f =>
      do '(ret, e) <- match_while (fuel_of e) e;
      if (ret : bool) then Ok e else
      do '(again, e) <- activate_all e;
      if (again : bool) then match_loop f e else Ok e
  end.
Definition match_book (e : eng) : res eng := match_loop (fuel_of e) e.

(** ** Public order operations on one book. *)
(** "Automatic order matching ... Reset matching price", e.g. market_manager.cpp:232-239. *)
Definition finish (mt : bool) (e : eng) : res (eng * err) :=
  do e <- (if mt then match_book e else Ok e);
  Ok (reset_m e, OK).
Definition if_match (mt : bool) (f : order -> eng -> res (order * eng)) (o : order) (e : eng)
  : res (order * eng) := if mt then f o e else Ok (o, e).
(** Insert into _orders and the book, or report a duplicate: e.g. market_manager.cpp:207-225. *)
Definition insert_rest (mt : bool) (o : order) (e : eng) : res (eng * err) :=
  match e_ords e !! o_id o with
  | Some _ => Ok (emit (EDeleteOrder o) e, ORDER_DUPLICATE)
  | None => finish mt (eng_add o (put o e))
  end.

(** AddMarketOrder(order, false): market_manager.cpp:160-187. *)
Definition add_market (mt : bool) (o : order) (e : eng) : res (eng * err) :=
  do '(o, e) <- if_match mt match_market o (emit (EAddOrder o) e);
  finish mt (emit (EDeleteOrder o) e).

(** AddLimitOrder after onAddOrder: market_manager.cpp:201-240; same code at 376-409. *)
Definition add_limit_tail (mt : bool) (o : order) (e : eng) : res (eng * err) :=
  do '(o, e) <- if_match mt match_order o e;
  if (0 <? o_leaves o) && negb (immediate o)
  then insert_rest mt o e
  else finish mt (emit (EDeleteOrder o) e).
Definition add_limit (mt : bool) (o : order) (e : eng) : res (eng * err) :=
  add_limit_tail mt o (emit (EAddOrder o) e).

Definition is_trailing (o : order) : bool := is_trailing_stop o || is_trailing_stop_limit o.
(** The immediate trigger test: market_manager.cpp:263-267, 361-365. *)
Definition triggered (o : order) (b : book) : bool :=
  match o_side o with
  | BUY => o_stop o <=? market_ask b
  | SELL => market_bid b <=? o_stop o
  end.
(** "Add a new order": market_manager.cpp:294-331, 412-449. *)
Definition add_stop_rest (mt : bool) (o : order) (e : eng) : res (eng * err) :=
  if 0 <? o_leaves o then insert_rest mt o e else finish mt (emit (EDeleteOrder o) e).

(** AddStopOrder(order, false): market_manager.cpp:242-332. *)
Definition add_stop (mt : bool) (o : order) (e : eng) : res (eng * err) :=
  let o := if is_trailing o then set_stop (calc_trailing o (e_bk e)) o else o in
  let e := emit (EAddOrder o) e in
  if mt && triggered o (e_bk e) then
    let o := to_market o in
    do '(o, e) <- match_market o (emit (EUpdateOrder o) e);
    finish mt (emit (EDeleteOrder o) e)
  else add_stop_rest mt o e.

(** AddStopLimitOrder(order, false): market_manager.cpp:334-450. *)
Definition add_stop_limit (mt : bool) (o : order) (e : eng) : res (eng * err) :=
  let o := if is_trailing o then
             let s := calc_trailing o (e_bk e) in
             set_price (u64 (s + (o_price o - o_stop o))) (set_stop s o)
           else o in
  let e := emit (EAddOrder o) e in
  if mt && triggered o (e_bk e) then
    let o := to_limit o in
    add_limit_tail mt o (emit (EUpdateOrder o) e)
  else add_stop_rest mt o e.

(** AddOrder after validation: market_manager.cpp:143-157. *)
Definition add_order (mt : bool) (o : order) (e : eng) : res (eng * err) :=
  match o_type o with
  | MARKET => add_market mt o e
  | LIMIT => add_limit mt o e
  | STOP | TRAILING_STOP => add_stop mt o e
  | STOP_LIMIT | TRAILING_STOP_LIMIT => add_stop_limit mt o e
  end.

(** ModifyOrder / MitigateOrder: market_manager.cpp:583-678. *)
Definition modified (mitigate : bool) (new_price new_qty : Z) (o : order) : order :=
  let o' := set_leaves new_qty (set_qty new_qty (set_price new_price o)) in
  if mitigate then
    set_leaves (if o_exec o <? new_qty then new_qty - o_exec o else 0) o'
  else o'.
Definition modify_order (mt mitigate : bool) (o : order) (new_price new_qty : Z) (e : eng)
  : res (eng * err) :=
  do e <- eng_sub_delete o e;
  let e := drop_id (o_id o) e in
  let o := modified mitigate new_price new_qty o in
  if 0 <? o_leaves o then
    do '(o, e) <- if_match mt match_order o (emit (EUpdateOrder o) e);
    if 0 <? o_leaves o
    then finish mt (eng_add o (put o e))
    else finish mt (emit (EDeleteOrder o) e)
  else finish mt (emit (EDeleteOrder o) e).

(** ReplaceOrder(id, new_id, new_price, new_quantity): market_manager.cpp:711-797. *)
Definition replaced (new_id new_price new_qty : Z) (o : order) : order :=
  set_leaves new_qty (set_exec 0 (set_qty new_qty (set_price new_price (set_id new_id o)))).
Definition replace_order (mt : bool) (o : order) (new_id new_price new_qty : Z) (e : eng)
  : res (eng * err) :=
  do e <- delete_order o e;
  let o := replaced new_id new_price new_qty o in
  do '(o, e) <- if_match mt match_order o (emit (EAddOrder o) e);
  if 0 <? o_leaves o then insert_rest mt o e else finish mt (emit (EDeleteOrder o) e).

(** ExecuteOrder: market_manager.cpp:895-966 (price = order price) and 986-1057. *)
Definition execute_order (mt : bool) (o : order) (price q0 : Z) (e : eng) : res (eng * err) :=
  let q := Z.min q0 (o_leaves o) in
  let e := exec_note o price q e in
  let o' := set_leaves (o_leaves o - q) (exec_incr q o) in
  let h := hidden_q o - hidden_q o' in
  let v := visible_q o - visible_q o' in
  do e <- eng_sub_reduce o' q h v (put o' e);
  if 0 <? o_leaves o'
  then finish mt (emit (EUpdateOrder o') e)
  else finish mt (drop_id (o_id o') (emit (EDeleteOrder o') e)).
