(** * Fast2.v -- model of the optimized market manager.

    performance/market_manager_optimized.cpp, lines 21-664 without Symbol and the counters of
    MarketHandler (316-373); the handler calls that carry orders or levels are kept as a log.
    Conventions as in Fast.v.  Executable; no proofs. *)
From stdpp Require Import fin_maps.
From Verif Require Import Types.

(** lines 32-44 (LevelType is the side) *)
Record olevel := mkOl { ol_side : oside; ol_price : Z; ol_vol : Z; ol_orders : Z }.
(** LevelPool: lines 46-80 *)
Record opool := mkOpool { op_mem : list olevel; op_free : list nat }.
Definition op_get (i : nat) (P : opool) : res olevel := of_opt (op_mem P !! i).
Definition op_put (i : nat) (l : olevel) (P : opool) : opool := mkOpool (<[i := l]> (op_mem P)) (op_free P).
Definition op_alloc (P : opool) : nat * opool :=
  match op_free P with
  | [] => (length (op_mem P), mkOpool (op_mem P ++ [mkOl BUY 0 0 0]) [])
  | i :: f => (i, mkOpool (op_mem P) f)
  end.
Definition op_release (i : nat) (P : opool) : opool := mkOpool (op_mem P) (i :: op_free P).
(** lines 102-110 *)
Record oord := mkOord { oo_id : Z; oo_sym : Z; oo_side : oside; oo_price : Z; oo_qty : Z; oo_lvl : nat }.
Definition zero_ord : oord := mkOord 0 0 BUY 0 0 0.
(** lines 82-94 *)
Inductive ukind := UAdd | UUpdate | UDelete.
Record oupdate := mkOu { ou_kind : ukind; ou_level : olevel; ou_top : bool }.
(** the calls of MarketHandler *)
Inductive oevent := OAdd (o : oord) | OUpdate (o : oord) | ODelete (o : oord) | OExecute (o : oord) (p q : Z) | OLevel (sym : Z) (u : oupdate).
(** OrderBook: lines 118-152; best first *)
Record obook := mkObook { ob_bids : list (Z * nat); ob_asks : list (Z * nat) }.
Definition ob_side (sd : oside) (b : obook) : list (Z * nat) := match sd with BUY => ob_bids b | SELL => ob_asks b end.
Definition ob_put (sd : oside) (l : list (Z * nat)) (b : obook) : obook := match sd with BUY => mkObook l (ob_asks b) | SELL => mkObook (ob_bids b) l end.
(** a resting price that is worse than [p] ends the search: lines 164, 190 *)
Definition worse (sd : oside) (x p : Z) : bool := match sd with BUY => x <? p | SELL => p <? x end.
Fixpoint osearch (sd : oside) (p : Z) (l : list (Z * nat)) : option nat :=
  match l with [] => None | (x, k) :: l => if x =? p then Some k else if worse sd x p then None else osearch sd p l end.
Fixpoint oinsert (sd : oside) (p : Z) (k : nat) (l : list (Z * nat)) : list (Z * nat) :=
  match l with [] => [(p, k)] | (x, j) :: l' => if worse sd x p then (p, k) :: l else (x, j) :: oinsert sd p k l' end.
(** FindLevel: lines 154-208 *)
Definition find_olevel (o : oord) (b : obook) (P : opool) : nat * ukind * obook * opool :=
  let sd := oo_side o in
  match osearch sd (oo_price o) (ob_side sd b) with
  | Some k => (k, UUpdate, b, P)
  | None =>
      let '(k, P) := op_alloc P in
      (k, UAdd, ob_put sd (oinsert sd (oo_price o) k (ob_side sd b)) b, op_put k (mkOl sd (oo_price o) 0 0) P)
  end.
(** DeleteLevel: lines 210-245 *)
Fixpoint oerase (sd : oside) (p : Z) (l : list (Z * nat)) : list (Z * nat) :=
  match l with [] => [] | (x, k) :: l' => if x =? p then l' else if worse sd x p then l else (x, k) :: oerase sd p l' end.
Definition delete_olevel (o : oord) (b : obook) (P : opool) : obook * opool :=
  (ob_put (oo_side o) (oerase (oo_side o) (oo_price o) (ob_side (oo_side o) b)) b, op_release (oo_lvl o) P).
(** "level_ptr == best_bid() / best_ask()": pointers into the pool are equal when the indices are *)
Definition o_top (o : oord) (k : nat) (b : obook) : bool :=
  match head (ob_side (oo_side o) b) with Some (_, j) => Nat.eqb j k | None => false end.
(** OrderBook::AddOrder: lines 247-264 *)
Definition obook_add (o : oord) (b : obook) (P : opool) : res (oord * obook * opool * oupdate) :=
  let '(k, kind, b, P) := find_olevel o b P in
  do l <- op_get k P;
  let l := mkOl (ol_side l) (ol_price l) (u32 (ol_vol l + oo_qty o)) (u64 (ol_orders l + 1)) in
  Ok (mkOord (oo_id o) (oo_sym o) (oo_side o) (oo_price o) (oo_qty o) k, b, op_put k l P, mkOu kind l (o_top o k b)).
(** the common part of ReduceOrder (lines 266-288) and DeleteOrder (290-311): [q] off the volume,
    one order off the count if [last] *)
Definition obook_take (o : oord) (q : Z) (last : bool) (b : obook) (P : opool) : res (obook * opool * oupdate) :=
  do l <- op_get (oo_lvl o) P;
  let l := mkOl (ol_side l) (ol_price l) (u32 (ol_vol l - q)) (if last then u64 (ol_orders l - 1) else ol_orders l) in
  let P := op_put (oo_lvl o) l P in
  let top := o_top o (oo_lvl o) b in
  if ol_vol l =? 0 then let '(b, P) := delete_olevel o b P in Ok (b, P, mkOu UDelete l top) else Ok (b, P, mkOu UUpdate l top).
Definition obook_reduce (o : oord) (q : Z) (b : obook) (P : opool) : res (obook * opool * oupdate) := obook_take o q (oo_qty o =? 0) b P.
Definition obook_delete (o : oord) (b : obook) (P : opool) : res (obook * opool * oupdate) := obook_take o (oo_qty o) true b P.

(** MarketManagerOptimized: lines 375-664 *)
Record ostate := mkOstate { o_pool : opool; o_books : gmap Z obook; o_ords : gmap Z oord; o_log : list oevent }.
Definition opt_init : ostate := mkOstate (mkOpool [] []) ∅ ∅ [].
Definition obook_at (i : Z) (s : ostate) : obook := default (mkObook [] []) (o_books s !! i).
Definition get_obook (i : Z) (s : ostate) : res obook := if (0 <=? i) && (i <? 10000) then Ok (obook_at i s) else Undef.
Definition get_oord (i : Z) (s : ostate) : res oord := if (0 <=? i) && (i <? 300000000) then Ok (default zero_ord (o_ords s !! i)) else Undef.
Definition oemit (ev : oevent) (s : ostate) : ostate := mkOstate (o_pool s) (o_books s) (o_ords s) (o_log s ++ [ev]).
Definition oput (o : oord) (i : Z) (s : ostate) : ostate := mkOstate (o_pool s) (o_books s) (<[i := o]> (o_ords s)) (o_log s).
Definition owith (i : Z) (b : obook) (P : opool) (s : ostate) : ostate := mkOstate P (<[i := b]> (o_books s)) (o_ords s) (o_log s).
(** "UpdateLevel(*order_book_ptr, order_book_ptr->AddOrder(order_ptr))" *)
Definition o_enter (slot : Z) (o : oord) (s : ostate) : res ostate :=
  do b <- get_obook (oo_sym o) s;
  do '(o, b, P, u) <- obook_add o b (o_pool s);
  Ok (oemit (OLevel (oo_sym o) u) (oput o slot (owith (oo_sym o) b P s))).
Definition o_leave (take : oord -> obook -> opool -> res (obook * opool * oupdate)) (o : oord) (s : ostate) : res ostate :=
  do b <- get_obook (oo_sym o) s;
  do '(b, P, u) <- take o b (o_pool s);
  Ok (oemit (OLevel (oo_sym o) u) (owith (oo_sym o) b P s)).

(** AddOrderBook: lines 409-416 *)
Definition opt_add_book (i : Z) (s : ostate) : res ostate :=
  do _ <- get_obook i s; Ok (owith i (mkObook [] []) (o_pool s) s).
(** AddOrder: lines 424-439.  The price argument is not used: [Price] keeps what the slot held. *)
Definition opt_add (id sym : Z) (sd : oside) (price q : Z) (s : ostate) : res ostate :=
  do o <- get_oord id s;
  let o := mkOord id sym sd (oo_price o) q (oo_lvl o) in
  o_enter id o (oemit (OAdd o) (oput o id s)).
(** ReduceOrder: lines 441-471 *)
Definition opt_reduce (id q : Z) (s : ostate) : res ostate :=
  do o <- get_oord id s;
  let q := Z.min q (oo_qty o) in
  let o := mkOord (oo_id o) (oo_sym o) (oo_side o) (oo_price o) (oo_qty o - q) (oo_lvl o) in
  let s := oput o id s in
  if 0 <? oo_qty o then o_leave (fun o => obook_reduce o q) o (oemit (OUpdate o) s)
  else o_leave obook_delete o (oemit (ODelete o) s).
(** ModifyOrder: lines 473-500 (the int32_t price is stored into a uint32_t) *)
Definition opt_modify (id price q : Z) (s : ostate) : res ostate :=
  do o <- get_oord id s;
  do s <- o_leave obook_delete o s;
  let o := mkOord (oo_id o) (oo_sym o) (oo_side o) (u32 price) q (oo_lvl o) in
  let s := oput o id s in
  if 0 <? q then o_enter id o (oemit (OUpdate o) s) else Ok (oemit (ODelete o) s).
(** ReplaceOrder: lines 502-531, and 533-562 with the new symbol and side *)
Definition opt_replace (id nid : Z) (place : option (Z * oside)) (price q : Z) (s : ostate) : res ostate :=
  do o <- get_oord id s;
  do s <- o_leave obook_delete o s;
  let s := oemit (ODelete o) s in
  if 0 <? q then
    do _ <- get_oord nid s;
    let '(sym, sd) := default (oo_sym o, oo_side o) place in
    let o' := mkOord nid sym sd (u32 price) q (oo_lvl o) in
    o_enter nid o' (oemit (OAdd o') (oput o' nid s))
  else Ok s.
(** DeleteOrder: lines 564-575 *)
Definition opt_delete (id : Z) (s : ostate) : res ostate :=
  do o <- get_oord id s;
  do s <- o_leave obook_delete o s;
  Ok (oemit (ODelete o) s).
(** ExecuteOrder: lines 577-606 and 608-637 (with a price) *)
Definition opt_execute (id : Z) (price : option Z) (q : Z) (s : ostate) : res ostate :=
  do o <- get_oord id s;
  let q := Z.min q (oo_qty o) in
  let s := oemit (OExecute o (default (oo_price o) price) q) s in
  let o := mkOord (oo_id o) (oo_sym o) (oo_side o) (oo_price o) (oo_qty o - q) (oo_lvl o) in
  do s <- o_leave (fun o => obook_reduce o q) o (oput o id s);
  Ok (oemit (if 0 <? oo_qty o then OUpdate o else ODelete o) s).
