(** * Spec23.v -- what is open, what a call adds to it, and what is executed (definitions only, no proofs). *)
From stdpp Require Import fin_maps.
From Verif Require Import Types Book Engine Manager Spec.
Open Scope Z_scope. Open Scope list_scope.

(** [n] is the quantity still open in all live orders together. *)
Fixpoint sum_leaves (l : list order) : Z := match l with [] => 0 | o :: l => o_leaves o + sum_leaves l end.
Definition open_quantity (s : state) (n : Z) : Prop :=
  exists l, NoDup (map o_id l) /\ (forall i o, get_order i s = Some o <-> o ∈ l /\ o_id o = i) /\ n = sum_leaves l.
(** The open quantity of order [i]. *)
Definition open_of (s : state) (i : Z) : Z := match get_order i s with Some o => o_leaves o | None => 0 end.
(** What a call adds to the open quantity if it is accepted and nothing is executed but by [ExecuteOrder]: a new order its leaves
    quantity, a modification or replacement the new quantity instead of what was open; a reduction or deletion takes away. *)
Definition change (s : state) (a : op) : Z :=
  match a with
  | AddOrder o => o_leaves o
  | ReduceOrder i q => - Z.min q (open_of s i)
  | ModifyOrder i _ q | MitigateOrder i _ q | ReplaceOrder i _ _ q => q - open_of s i
  | ReplaceWith i o => o_leaves o - open_of s i
  | DeleteOrder i => - open_of s i
  | _ => 0
  end.
(** What the call that returned [er] may have brought in: a refused call may have no effect. *)
Definition brings (s : state) (a : op) (er : err) : Z := if decide (er = OK) then change s a else Z.max 0 (change s a).
(** Histories, with the quantity they brought in altogether. *)
Inductive reach_bringing : state -> Z -> Prop :=
| rb_init : reach_bringing init 0
| rb_step s n a s' er : reach_bringing s n -> op_ok s a -> step s a = Ok (s', er) -> reach_bringing s' (n + brings s a er).
