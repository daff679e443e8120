(** * Spec19.v -- what can be read off the printed text. *)
From Coq Require Import String.
From stdpp Require Import strings.
From Verif Require Import Types Book Engine Manager Print Spec Spec3 Spec15.
Open Scope Z_scope. Open Scope list_scope.

(** The attributes of an order a reader is told: all of them, the trailing ones for trailing orders only, and a maximal visible quantity
    or slippage only if there is a limit (2^64 - 1 stands for none). *)
Definition limit_of (z : Z) : option Z := if z <? 2 ^ 64 - 1 then Some z else None.
Definition trail_of (o : order) : option (Z * Z) :=
  match o_type o with TRAILING_STOP | TRAILING_STOP_LIMIT => Some (o_tdist o, o_tstep o) | _ => None end.
Definition facts (o : order) : Z * Z * otype * oside * Z * Z * Z * Z * Z * otif * option (Z * Z) * option Z * option Z :=
  (o_id o, o_sym o, o_type o, o_side o, o_price o, o_stop o, o_qty o, o_exec o, o_leaves o, o_tif o, trail_of o, limit_of (o_maxvis o), limit_of (o_slip o)).
(** Two notifications tell the same: the same callback with the same arguments, orders by their [facts], symbols by their id and the text
    of their name. *)
Definition tells_alike (wr : Z -> string) (ev ev' : event) : Prop :=
  match ev, ev' with
  | EAddSymbol s, EAddSymbol t | EDeleteSymbol s, EDeleteSymbol t => sy_id s = sy_id t /\ wr (sy_name s) = wr (sy_name t)
  | EAddBook _, EAddBook _ | EDeleteBook _, EDeleteBook _ | EUpdateBook _ _, EUpdateBook _ _
  | EAddLevel _ _ _, EAddLevel _ _ _ | EUpdateLevel _ _ _, EUpdateLevel _ _ _ | EDeleteLevel _ _ _, EDeleteLevel _ _ _ => ev = ev'
  | EAddOrder o, EAddOrder o' | EUpdateOrder o, EUpdateOrder o' | EDeleteOrder o, EDeleteOrder o' => facts o = facts o'
  | EExecute o p q, EExecute o' p' q' => facts o = facts o' /\ p = p' /\ q = q'
  | _, _ => False
  end.
(** The book passed to a callback about a book is the book of that symbol. *)
Definition about (n : event * book) : Prop :=
  match fst n with EAddBook i | EUpdateBook i _ | EDeleteBook i => sy_id (b_sym (snd n)) = i | _ => True end.
(** Nothing written for a name ends a line. *)
Definition clean (wr : Z -> string) : Prop := forall n, no_newline (wr n).
(** Two states show the same books: the same symbols have one, with the same bid and ask levels (price, volumes, number of orders). *)
Definition same_levels (s s' : state) : Prop := forall i,
  match get_book i s, get_book i s' with
  | Some b, Some b' => forall ty p, shown b ty p = shown b' ty p
  | None, None => True
  | _, _ => False
  end.
