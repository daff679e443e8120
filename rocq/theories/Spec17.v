(** * Spec17.v -- histories that delete order books under live orders. *)
From stdpp Require Import fin_maps.
From Verif Require Import Types Book Engine Manager Spec.
Open Scope Z_scope.

(** The calls of a history in which order books may be deleted at any time, but the book of a symbol is not added again while orders of
    that symbol are left over from the old one; everything else as in [op_ok]. *)
Definition fair (s : state) (a : op) : Prop :=
  match a with
  | DeleteOrderBook _ => True
  | AddOrderBook sy => 0 <= sy_id sy < TWO32 - 1 /\
      (get_book (sy_id sy) s = None -> forall j o, get_order j s = Some o -> o_sym o <> sy_id sy)
  | _ => op_ok s a
  end.
Inductive reach_fair : state -> Prop :=
| rf_init : reach_fair init
| rf_step s a s' er : reach_fair s -> fair s a -> step s a = Ok (s', er) -> reach_fair s'.
(** The calls that address the order [i] with valid arguments. *)
Definition addresses (a : op) (i : Z) (o : order) : Prop :=
  match a with
  | ReduceOrder j q | ExecuteOrder j q | ExecuteOrderAt j _ q | ModifyOrder j _ q | MitigateOrder j _ q => j = i /\ q <> 0
  | ReplaceOrder j nj _ q => j = i /\ nj <> 0 /\ q <> 0 /\ o_type o = LIMIT
  | DeleteOrder j | ReplaceWith j _ => j = i
  | _ => False
  end.
