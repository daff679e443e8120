(** * Spec5.v -- specification vocabulary for return codes and for the direct effect of calls
    (definitions only, no proofs). *)
From stdpp Require Import fin_maps.
From Verif Require Import Types Book Engine Manager Spec Spec2 Spec3.

(** The code of a call that is refused at once, in the order of the checks; [None]: not refused.
    ReplaceOrder(id, order) is refused when there is nothing to replace. *)
Definition need_order (i : Z) (s : state) : option err := if get_order i s then None else Some ORDER_NOT_FOUND.
Definition refusal (s : state) (a : op) : option err :=
  match a with
  | AddSymbol sy => if get_symbol (sy_id sy) s then Some SYMBOL_DUPLICATE else None
  | DeleteSymbol i => if get_symbol i s then None else Some SYMBOL_NOT_FOUND
  | AddOrderBook sy =>
      if get_symbol (sy_id sy) s then if get_book (sy_id sy) s then Some ORDER_BOOK_DUPLICATE else None else Some SYMBOL_NOT_FOUND
  | DeleteOrderBook i => if get_book i s then None else Some ORDER_BOOK_NOT_FOUND
  | AddOrder o =>
      if decide (validate o = OK) then if get_book (o_sym o) s then None else Some ORDER_BOOK_NOT_FOUND else Some (validate o)
  | ReduceOrder i q | ModifyOrder i _ q | MitigateOrder i _ q | ExecuteOrder i q | ExecuteOrderAt i _ q =>
      if decide (i = 0) then Some ORDER_ID_INVALID else if decide (q = 0) then Some ORDER_QUANTITY_INVALID else need_order i s
  | ReplaceOrder i ni _ q =>
      if decide (i = 0 \/ ni = 0) then Some ORDER_ID_INVALID else if decide (q = 0) then Some ORDER_QUANTITY_INVALID else
      match get_order i s with
      | None => Some ORDER_NOT_FOUND
      | Some o => if decide (o_type o = LIMIT) then None else Some ORDER_TYPE_INVALID
      end
  | DeleteOrder i | ReplaceWith i _ => if decide (i = 0) then Some ORDER_ID_INVALID else need_order i s
  | EnableMatching | DisableMatching | Match => None
  end.

(** All orders but [i] are as before. *)
Definition others_kept (i : Z) (s s' : state) : Prop := forall j, j <> i -> get_order j s' = get_order j s.
(** Every queue of every book is as before, except that [i] may have left. *)
Definition queues_kept (s s' : state) : Prop := forall n,
  match get_book n s, get_book n s' with
  | Some b, Some b' => forall k p, queue b' k p = queue b k p
  | None, None => True
  | _, _ => False
  end.
Definition left_queues (i : Z) (s s' : state) : Prop := forall n,
  match get_book n s, get_book n s' with
  | Some b, Some b' => forall k p, queue b' k p = filter (fun j => j <> i) (queue b k p)
  | None, None => True
  | _, _ => False
  end.
(** [i] joined the queue of one level of the book of [n], at the end; all other queues are as before. *)
Definition joined_queue (i n : Z) (k : kind) (p : Z) (s s' : state) : Prop := forall m,
  match get_book m s, get_book m s' with
  | Some b, Some b' => forall k' p', queue b' k' p' = queue b k' p' ++ (if decide (m = n /\ k' = k /\ p' = p) then [i] else [])
  | None, None => True
  | _, _ => False
  end.
Definition side_kind (sd : oside) : kind := match sd with BUY => KBid | SELL => KAsk end.
(** The order with another leaves quantity, and after an execution of [q] (quantities are 64-bit). *)
Definition with_leaves (l : Z) (o : order) : order := set_leaves l o.
Definition with_execution (q : Z) (o : order) : order := set_leaves (o_leaves o - q) (set_exec ((o_exec o + q) mod 2 ^ 64) o).
(** All calls but ReplaceOrder(id, order), which is two calls in one. *)
Definition plain_op (a : op) : bool := match a with ReplaceWith _ _ => false | _ => true end.
(** [i] left its queue and joined the queue of one level of the book of [n], at the end. *)
Definition moved_last (i n : Z) (k : kind) (p : Z) (s s' : state) : Prop := forall m,
  match get_book m s, get_book m s' with
  | Some b, Some b' => forall k' p', queue b' k' p' = filter (fun j => j <> i) (queue b k' p') ++ (if decide (m = n /\ k' = k /\ p' = p) then [i] else [])
  | None, None => True
  | _, _ => False
  end.
(** The order ReplaceOrder makes of [o]. *)
Definition replacement (ni p q : Z) (o : order) : order :=
  mkOrder ni (o_sym o) (o_type o) (o_side o) p (o_stop o) q 0 q (o_tif o) (o_maxvis o) (o_slip o) (o_tdist o) (o_tstep o).
(** Calls that are made to trade. *)
Definition trading_call (a : op) : bool := match a with Match | EnableMatching => true | _ => is_execute a end.
