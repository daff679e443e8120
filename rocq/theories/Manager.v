(** * Manager.v -- MarketManager: registries, public API, runs
    (include/trader/matching/market_manager.h/.inl, source/trader/matching/market_manager.cpp). *)
From Verif Require Export Engine.

(** std::vector<Symbol*> / std::vector<OrderBook*>: nullptr is [None]. *)
Definition vec (A : Type) := list (option A).
Definition vsize {A} (v : vec A) : Z := Z.of_nat (length v).
(** v[i]; [None] when out of range. *)
Definition vget {A} (i : Z) (v : vec A) : option (option A) :=
  if (0 <=? i) && (i <? vsize v) then v !! Z.to_nat i else None.
Definition vset {A} (i : Z) (x : option A) (v : vec A) : vec A := <[ Z.to_nat i := x ]> v.
(** v.resize(n, nullptr). *)
Definition vresize {A} (n : Z) (v : vec A) : vec A :=
  if vsize v <? n then v ++ replicate (Z.to_nat n - length v) None else take (Z.to_nat n) v.
(** GetSymbol / GetOrderBook: market_manager.inl:34-42. *)
Definition vfind {A} (i : Z) (v : vec A) : option A :=
  match vget i v with Some x => x | None => None end.

Record state := mkState {
  st_syms : vec symbol;
  st_books : vec book;
  st_ords : gmap Z order;
  st_match : bool;
  st_log : list event }.

(** MarketManager::MarketManager: market_manager.inl:17-32. *)
Definition init : state := mkState [] [] ∅ false [].

Inductive op :=
| AddSymbol (s : symbol)
| DeleteSymbol (i : Z)
| AddOrderBook (s : symbol)
| DeleteOrderBook (i : Z)
| AddOrder (o : order)
| ReduceOrder (i q : Z)
| ModifyOrder (i p q : Z)
| MitigateOrder (i p q : Z)
| ReplaceOrder (i ni p q : Z)
| ReplaceWith (i : Z) (o : order)      (* ReplaceOrder(id, const Order&) *)
| DeleteOrder (i : Z)
| ExecuteOrder (i q : Z)
| ExecuteOrderAt (i p q : Z)           (* ExecuteOrder(id, price, quantity) *)
| EnableMatching
| DisableMatching
| Match.

Definition get_symbol (i : Z) (s : state) : option symbol := vfind i (st_syms s).
Definition get_book (i : Z) (s : state) : option book := vfind i (st_books s).
(** GetOrder: market_manager.inl:44-52. *)
Definition get_order (i : Z) (s : state) : option order :=
  if i =? 0 then None else st_ords s !! i.

Definition logd (ev : event) (l : list event) := l ++ [ev].

(** AddSymbol: market_manager.cpp:36-59.  [symbol.Id + 1] is a uint32_t addition. *)
Definition add_symbol (sy : symbol) (s : state) : res (state * err) :=
  let v := if vsize (st_syms s) <=? sy_id sy
           then vresize (u32 (sy_id sy + 1)) (st_syms s) else st_syms s in
  match vget (sy_id sy) v with
  | None => Undef
  | Some (Some _) => Ok (mkState v (st_books s) (st_ords s) (st_match s) (st_log s), SYMBOL_DUPLICATE)
  | Some None =>
      Ok (mkState (vset (sy_id sy) (Some sy) v) (st_books s) (st_ords s) (st_match s)
                  (logd (EAddSymbol sy) (st_log s)), OK)
  end.

(** DeleteSymbol: market_manager.cpp:61-80. *)
Definition delete_symbol (i : Z) (s : state) : res (state * err) :=
  match vfind i (st_syms s) with
  | None => Ok (s, SYMBOL_NOT_FOUND)
  | Some sy =>
      Ok (mkState (vset i None (st_syms s)) (st_books s) (st_ords s) (st_match s)
                  (logd (EDeleteSymbol sy) (st_log s)), OK)
  end.

(** AddOrderBook: market_manager.cpp:82-112.  The book copies the registered symbol. *)
Definition add_order_book (sy : symbol) (s : state) : res (state * err) :=
  match vfind (sy_id sy) (st_syms s) with
  | None => Ok (s, SYMBOL_NOT_FOUND)
  | Some reg =>
      let v := if vsize (st_books s) <=? sy_id sy
               then vresize (u32 (sy_id sy + 1)) (st_books s) else st_books s in
      match vget (sy_id sy) v with
      | None => Undef
      | Some (Some _) =>
          Ok (mkState (st_syms s) v (st_ords s) (st_match s) (st_log s), ORDER_BOOK_DUPLICATE)
      | Some None =>
          Ok (mkState (st_syms s) (vset (sy_id sy) (Some (new_book reg)) v) (st_ords s) (st_match s)
                      (logd (EAddBook (sy_id sy)) (st_log s)), OK)
      end
  end.

(** DeleteOrderBook: market_manager.cpp:114-133, OrderBook::~OrderBook order_book.cpp:33-64:
    the levels are released, the orders stay in _orders. *)
Definition delete_order_book (i : Z) (s : state) : res (state * err) :=
  match vfind i (st_books s) with
  | None => Ok (s, ORDER_BOOK_NOT_FOUND)
  | Some _ =>
      Ok (mkState (st_syms s) (vset i None (st_books s)) (st_ords s) (st_match s)
                  (logd (EDeleteBook i) (st_log s)), OK)
  end.

(** Running an engine function on book [i] of the manager. *)
Definition on_book {A} (i : Z) (b : book) (f : eng -> res (eng * A)) (s : state) : res (state * A) :=
  do '(e, a) <- f (mkEng b (st_ords s) (st_log s));
  Ok (mkState (st_syms s) (vset i (Some (e_bk e)) (st_books s)) (e_ords e) (st_match s) (e_log e), a).

(** AddOrder: market_manager.cpp:135-158. *)
Definition api_add (o : order) (s : state) : res (state * err) :=
  match validate o with
  | OK =>
      match get_book (o_sym o) s with
      | None => Ok (s, ORDER_BOOK_NOT_FOUND)
      | Some b => on_book (o_sym o) b (add_order (st_match s) o) s
      end
  | er => Ok (s, er)
  end.

(** The common head of Reduce/Modify/Delete/Execute: id check, _orders.find, GetOrderBook
    (e.g. market_manager.cpp:826-840). *)
Definition with_order (i : Z) (f : order -> eng -> res (eng * err)) (s : state) : res (state * err) :=
  match st_ords s !! i with
  | None => Ok (s, ORDER_NOT_FOUND)
  | Some o =>
      match get_book (o_sym o) s with
      | None => Ok (s, ORDER_BOOK_NOT_FOUND)
      | Some b => on_book (o_sym o) b (f o) s
      end
  end.
Definition check_id (i : Z) (s : state) (k : res (state * err)) : res (state * err) :=
  if i =? 0 then Ok (s, ORDER_ID_INVALID) else k.
Definition check_qty (q : Z) (s : state) (k : res (state * err)) : res (state * err) :=
  if q =? 0 then Ok (s, ORDER_QUANTITY_INVALID) else k.

Definition api_reduce (i q : Z) (s : state) : res (state * err) :=
  check_id i s (check_qty q s
    (with_order i (fun o e => do e <- reduce_order o q e; finish (st_match s) e) s)).
Definition api_modify (mitigate : bool) (i p q : Z) (s : state) : res (state * err) :=
  check_id i s (check_qty q s
    (with_order i (fun o e => modify_order (st_match s) mitigate o p q e) s)).
Definition api_delete (i : Z) (s : state) : res (state * err) :=
  check_id i s
    (with_order i (fun o e => do e <- delete_order o e; finish (st_match s) e) s).
Definition api_execute (i q : Z) (s : state) : res (state * err) :=
  check_id i s (check_qty q s
    (with_order i (fun o e => execute_order (st_match s) o (o_price o) q e) s)).
Definition api_execute_at (i p q : Z) (s : state) : res (state * err) :=
  check_id i s (check_qty q s
    (with_order i (fun o e => execute_order (st_match s) o p q e) s)).
(** ReplaceOrder: market_manager.cpp:685-712: also requires a limit order. *)
Definition api_replace (i ni p q : Z) (s : state) : res (state * err) :=
  check_id i s (check_id ni s (check_qty q s
    (match st_ords s !! i with
     | None => Ok (s, ORDER_NOT_FOUND)
     | Some o =>
         if negb (is_limit o) then Ok (s, ORDER_TYPE_INVALID) else
         with_order i (fun o e => replace_order (st_match s) o ni p q e) s
     end))).
(** ReplaceOrder(id, new_order): market_manager.cpp:799-808. *)
Definition api_replace_with (i : Z) (o : order) (s : state) : res (state * err) :=
  do '(s, er) <- api_delete i s;
  match er with OK => api_add o s | _ => Ok (s, er) end.

(** Match(): market_manager.cpp:1059-1064: all books in index order; no ResetMatchingPrice. *)
Fixpoint match_books (idx : list nat) (s : state) : res state :=
  match idx with
  | [] => Ok s
  | n :: idx =>
      match get_book (Z.of_nat n) s with
      | None => match_books idx s
      | Some b =>
          do '(s, _) <- on_book (Z.of_nat n) b (fun e => do e <- match_book e; Ok (e, tt)) s;
          match_books idx s
      end
  end.
Definition match_all (s : state) : res state := match_books (seq 0 (length (st_books s))) s.

Definition set_matching (m : bool) (s : state) : state :=
  mkState (st_syms s) (st_books s) (st_ords s) m (st_log s).

(** One API call. Void functions return [OK]. *)
Definition step (s : state) (o : op) : res (state * err) :=
  match o with
  | AddSymbol sy => add_symbol sy s
  | DeleteSymbol i => delete_symbol i s
  | AddOrderBook sy => add_order_book sy s
  | DeleteOrderBook i => delete_order_book i s
  | AddOrder o => api_add o s
  | ReduceOrder i q => api_reduce i q s
  | ModifyOrder i p q => api_modify false i p q s
  | MitigateOrder i p q => api_modify true i p q s
  | ReplaceOrder i ni p q => api_replace i ni p q s
  | ReplaceWith i o => api_replace_with i o s
  | DeleteOrder i => api_delete i s
  | ExecuteOrder i q => api_execute i q s
  | ExecuteOrderAt i p q => api_execute_at i p q s
  | EnableMatching => do s <- match_all (set_matching true s); Ok (s, OK)
  | DisableMatching => Ok (set_matching false s, OK)
  | Match => do s <- match_all s; Ok (s, OK)
  end.

(** A history of API calls. *)
Fixpoint run (s : state) (ops : list op) : res state :=
  match ops with
  | [] => Ok s
  | o :: ops => do '(s, _) <- step s o; run s ops
  end.
