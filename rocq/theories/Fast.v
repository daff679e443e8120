(** * Fast.v -- model of the "aggressive" optimized market manager.

    performance/market_manager_optimized_aggressive.cpp (lines 20-361: LevelPool, OrderBook,
    MarketManagerOptimized).  The file is self-contained; it shares no code with the library.
    Executable; no proofs.

    Conventions.
    - A [std::vector] whose interesting end is the back ([_bids], [_asks], [_free]) is a list with
      the back FIRST.
    - [_orders] (300000000 slots) and [_order_books] (10000 slots) are finite maps over the slots
      written so far; a slot never written reads as zero; an index outside is undefined behaviour.
    - The loops "while (it-- != begin())" step one position before begin() when nothing is found;
      that pointer is never dereferenced and is treated as plain pointer arithmetic.
    - [_order_books[id] = OrderBook()] moves two empty vectors into the slot; the levels the slot
      held are not returned to the pool (the destructor runs for the emptied temporary only). *)
From stdpp Require Import fin_maps.
From Verif Require Import Types.

(** lines 20-24 *)
Record flevel := mkFl { fl_price : Z; fl_vol : Z }.
(** LevelPool: lines 26-60 *)
Record fpool := mkPool { p_mem : list flevel; p_free : list nat }.
(** lines 32-34 *)
Definition p_get (i : nat) (P : fpool) : res flevel := of_opt (p_mem P !! i).
Definition p_put (i : nat) (l : flevel) (P : fpool) : fpool := mkPool (<[i := l]> (p_mem P)) (p_free P).
(** lines 36-49 *)
Definition p_alloc (P : fpool) : nat * fpool :=
  match p_free P with
  | [] => (length (p_mem P), mkPool (p_mem P ++ [mkFl 0 0]) [])
  | i :: f => (i, mkPool (p_mem P) f)
  end.
(** lines 52-55 *)
Definition p_release (i : nat) (P : fpool) : fpool := mkPool (p_mem P) (i :: p_free P).

(** Order: lines 62-67 *)
Record ford := mkFord { fo_sym : Z; fo_qty : Z; fo_lvl : nat }.
(** OrderBook: lines 75-109; PriceLevel (lines 69-73) is a pair *)
Definition plevel : Type := Z * nat.
Record fbook := mkFbook { fb_bids : list plevel; fb_asks : list plevel }.
Definition no_levels : fbook := mkFbook [] [].
(** "(price > 0) ? &_bids : &_asks": lines 114, 145 *)
Definition pick (price : Z) (b : fbook) : list plevel := if 0 <? price then fb_bids b else fb_asks b.
Definition put_side (price : Z) (l : list plevel) (b : fbook) : fbook :=
  if 0 <? price then mkFbook l (fb_asks b) else mkFbook (fb_bids b) l.

(** the search loop of FindLevel: lines 117-125 *)
Fixpoint search (price : Z) (l : list plevel) : option nat :=
  match l with
  | [] => None
  | (p, k) :: l => if p =? price then Some k else if p <? price then None else search price l
  end.
(** "levels->insert(++it, ...)" at the place where the loop stopped: line 134 *)
Fixpoint insert_level (price : Z) (k : nat) (l : list plevel) : list plevel :=
  match l with
  | [] => [(price, k)]
  | (p, j) :: l' => if p <? price then (price, k) :: l else (p, j) :: insert_level price k l'
  end.
(** FindLevel: lines 111-137 *)
Definition find_flevel (price : Z) (b : fbook) (P : fpool) : nat * fbook * fpool :=
  match search price (pick price b) with
  | Some k => (k, b, P)
  | None =>
      let '(k, P) := p_alloc P in
      (k, put_side price (insert_level price k (pick price b)) b, p_put k (mkFl price 0) P)
  end.
(** the loop of DeleteLevel: lines 148-157 *)
Fixpoint erase (price : Z) (l : list plevel) : list plevel :=
  match l with
  | [] => []
  | (p, k) :: l => if p =? price then l else (p, k) :: erase price l
  end.
(** DeleteLevel: lines 139-161 *)
Definition delete_flevel (k : nat) (b : fbook) (P : fpool) : res (fbook * fpool) :=
  do l <- p_get k P;
  Ok (put_side (fl_price l) (erase (fl_price l) (pick (fl_price l) b)) b, p_release k P).
(** OrderBook::AddOrder: lines 163-174; returns the level index to cache in the order *)
Definition fbook_add (q price : Z) (b : fbook) (P : fpool) : res (nat * fbook * fpool) :=
  let '(k, b, P) := find_flevel price b P in
  do l <- p_get k P;
  Ok (k, b, p_put k (mkFl (fl_price l) (u32 (fl_vol l + q))) P).
(** OrderBook::ReduceOrder: lines 176-187; OrderBook::DeleteOrder (189-200) is the same with the
    order's quantity *)
Definition fbook_reduce (k : nat) (q : Z) (b : fbook) (P : fpool) : res (fbook * fpool) :=
  do l <- p_get k P;
  let l := mkFl (fl_price l) (u32 (fl_vol l - q)) in
  let P := p_put k l P in
  if fl_vol l =? 0 then delete_flevel k b P else Ok (b, P).
Definition best_bid (b : fbook) (P : fpool) : option flevel := (head (fb_bids b)) ≫= fun x => p_mem P !! snd x.
Definition best_ask (b : fbook) (P : fpool) : option flevel := (head (fb_asks b)) ≫= fun x => p_mem P !! snd x.

(** MarketManagerOptimized: lines 205-361 *)
Record fstate := mkFstate { f_pool : fpool; f_books : gmap Z fbook; f_ords : gmap Z ford }.
Definition fast_init : fstate := mkFstate (mkPool [] []) ∅ ∅.
Definition N_BOOKS : Z := 10000.
Definition N_ORDERS : Z := 300000000.
Definition book_at (i : Z) (s : fstate) : fbook := default no_levels (f_books s !! i).
Definition get_fbook (i : Z) (s : fstate) : res fbook :=
  if (0 <=? i) && (i <? N_BOOKS) then Ok (book_at i s) else Undef.
Definition get_ford (i : Z) (s : fstate) : res ford :=
  if (0 <=? i) && (i <? N_ORDERS) then Ok (default (mkFord 0 0 0) (f_ords s !! i)) else Undef.
(** negation of an int32_t: undefined for the smallest value *)
Definition neg32 (p : Z) : res Z := if p =? -2147483648 then Undef else Ok (- p).

(** AddOrderBook: lines 222-226 *)
Definition fast_add_book (i : Z) (s : fstate) : res fstate :=
  do _ <- get_fbook i s;
  Ok (mkFstate (f_pool s) (<[i := no_levels]> (f_books s)) (f_ords s)).
(** AddOrder: lines 228-237 *)
Definition fast_add (id sym price q : Z) (s : fstate) : res fstate :=
  do _ <- get_ford id s;
  do b <- get_fbook sym s;
  do '(k, b, P) <- fbook_add q price b (f_pool s);
  Ok (mkFstate P (<[sym := b]> (f_books s)) (<[id := mkFord sym q k]> (f_ords s))).
(** ReduceOrder: lines 239-249; ExecuteOrder: lines 334-344 and 346-356 are the same (the price is
    not used) *)
Definition fast_reduce (id q : Z) (s : fstate) : res fstate :=
  do o <- get_ford id s;
  let o := mkFord (fo_sym o) (u32 (fo_qty o - q)) (fo_lvl o) in
  do b <- get_fbook (fo_sym o) s;
  do '(b, P) <- fbook_reduce (fo_lvl o) q b (f_pool s);
  Ok (mkFstate P (<[fo_sym o := b]> (f_books s)) (<[id := o]> (f_ords s))).
(** ModifyOrder: lines 251-273 *)
Definition fast_modify (id price q : Z) (s : fstate) : res fstate :=
  do o <- get_ford id s;
  do l <- p_get (fo_lvl o) (f_pool s);
  do price <- if fl_price l <? 0 then neg32 price else Ok price;
  do b <- get_fbook (fo_sym o) s;
  do '(b, P) <- fbook_reduce (fo_lvl o) (fo_qty o) b (f_pool s);
  if 0 <? q then
    do '(k, b, P) <- fbook_add q price b P;
    Ok (mkFstate P (<[fo_sym o := b]> (f_books s)) (<[id := mkFord (fo_sym o) q k]> (f_ords s)))
  else
    Ok (mkFstate P (<[fo_sym o := b]> (f_books s)) (<[id := mkFord (fo_sym o) q (fo_lvl o)]> (f_ords s))).
(** ReplaceOrder with the symbol of the new order: lines 300-323; the other overload (lines 275-298)
    passes the old order's symbol *)
Definition fast_replace_to (id nid : Z) (nsym : option Z) (price q : Z) (s : fstate) : res fstate :=
  do o <- get_ford id s;
  do l <- p_get (fo_lvl o) (f_pool s);
  do price <- if fl_price l <? 0 then neg32 price else Ok price;
  do b <- get_fbook (fo_sym o) s;
  do '(b, P) <- fbook_reduce (fo_lvl o) (fo_qty o) b (f_pool s);
  let s := mkFstate P (<[fo_sym o := b]> (f_books s)) (f_ords s) in
  if 0 <? q then fast_add nid (default (fo_sym o) nsym) price q s else Ok s.
(** DeleteOrder: lines 325-332; the slot of the order is not touched *)
Definition fast_delete (id : Z) (s : fstate) : res fstate :=
  do o <- get_ford id s;
  do b <- get_fbook (fo_sym o) s;
  do '(b, P) <- fbook_reduce (fo_lvl o) (fo_qty o) b (f_pool s);
  Ok (mkFstate P (<[fo_sym o := b]> (f_books s)) (f_ords s)).
