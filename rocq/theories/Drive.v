(** * Drive.v -- model of the ITCH handlers that drive the managers.

    performance/market_manager.cpp:80-118 (MyITCHHandler for the market manager) and
    performance/market_manager_optimized_aggressive.cpp:363-408 (the same for the aggressive
    optimized manager).  All callbacks return true; the calls are made while a message is handled,
    so the calls of a stream are those of its messages one after another.  The message counters are
    in Bench.v.  The symbol name (8 characters) is turned into one number. *)
From Coq Require Import String.
From stdpp Require Import fin_maps.
From Verif Require Import Types Manager Factory Itch Fast.
Open Scope Z_scope.

Definition field (f : string) (l : list (string * value)) : option value := snd <$> List.find (fun x => String.eqb (fst x) f) l.
Definition num (f : string) (l : list (string * value)) : Z := match field f l with Some (VNum x) => x | _ => 0 end.
Definition text (f : string) (l : list (string * value)) : list Z := match field f l with Some (VText s) => s | _ => [] end.
(** message.BuySellIndicator == 'B' *)
Definition is_b (l : list (string * value)) : bool := match text "BuySellIndicator" l with [c] => c =? 66 | _ => false end.

Open Scope string_scope.
(** market_manager.cpp:93-106 *)
Definition handler_calls (m : message) : list op :=
  let l := m_fields m in
  if String.eqb (m_struct m) "StockDirectoryMessage" then
    let sy := mkSymbol (num "StockLocate" l) (be (text "Stock" l)) in [AddSymbol sy; AddOrderBook sy]
  else if String.eqb (m_struct m) "AddOrderMessage" || String.eqb (m_struct m) "AddOrderMPIDMessage" then
    [AddOrder (LimitOrder (num "OrderReferenceNumber" l) (num "StockLocate" l) (if is_b l then BUY else SELL) (num "Price" l) (num "Shares" l) GTC MAX64)]
  else if String.eqb (m_struct m) "OrderExecutedMessage" then [ExecuteOrder (num "OrderReferenceNumber" l) (num "ExecutedShares" l)]
  else if String.eqb (m_struct m) "OrderExecutedWithPriceMessage" then
    [ExecuteOrderAt (num "OrderReferenceNumber" l) (num "ExecutionPrice" l) (num "ExecutedShares" l)]
  else if String.eqb (m_struct m) "OrderCancelMessage" then [ReduceOrder (num "OrderReferenceNumber" l) (num "CanceledShares" l)]
  else if String.eqb (m_struct m) "OrderDeleteMessage" then [DeleteOrder (num "OrderReferenceNumber" l)]
  else if String.eqb (m_struct m) "OrderReplaceMessage" then
    [ReplaceOrder (num "OriginalOrderReferenceNumber" l) (num "NewOrderReferenceNumber" l) (num "Price" l) (num "Shares" l)]
  else [].

(** (int32_t) of a uint32_t *)
Definition int32 (x : Z) : Z := (if x <? 2147483648 then x else x - 4294967296)%Z.
(** market_manager_optimized_aggressive.cpp:376-396 *)
Definition fast_handle (m : message) (s : fstate) : res fstate :=
  let l := m_fields m in
  if String.eqb (m_struct m) "StockDirectoryMessage" then fast_add_book (num "StockLocate" l) s
  else if String.eqb (m_struct m) "AddOrderMessage" || String.eqb (m_struct m) "AddOrderMPIDMessage" then
    do p <- if is_b l then Ok (int32 (num "Price" l)) else neg32 (int32 (num "Price" l));
    fast_add (num "OrderReferenceNumber" l) (num "StockLocate" l) p (num "Shares" l) s
  else if String.eqb (m_struct m) "OrderExecutedMessage" then fast_reduce (num "OrderReferenceNumber" l) (num "ExecutedShares" l) s
  else if String.eqb (m_struct m) "OrderExecutedWithPriceMessage" then fast_reduce (num "OrderReferenceNumber" l) (num "ExecutedShares" l) s
  else if String.eqb (m_struct m) "OrderCancelMessage" then fast_reduce (num "OrderReferenceNumber" l) (num "CanceledShares" l) s
  else if String.eqb (m_struct m) "OrderDeleteMessage" then fast_delete (num "OrderReferenceNumber" l) s
  else if String.eqb (m_struct m) "OrderReplaceMessage" then
    fast_replace_to (num "OriginalOrderReferenceNumber" l) (num "NewOrderReferenceNumber" l) None (int32 (num "Price" l)) (num "Shares" l) s
  else Ok s.
Fixpoint fast_handle_all (l : list message) (s : fstate) : res fstate :=
  match l with [] => Ok s | m :: l => do s <- fast_handle m s; fast_handle_all l s end.
