(** * Spec21.v -- what the statistics should be. *)
From stdpp Require Import fin_maps.
From Verif Require Import Types Book Engine Manager Spec.
Open Scope Z_scope. Open Scope list_scope.

(** Exactly [n] numbers satisfy [P]. *)
Definition number (P : Z -> Prop) (n : Z) : Prop := exists l, NoDup l /\ Z.of_nat (length l) = n /\ forall j, j ∈ l <-> P j.
Definition live_orders (s : state) : Z -> Prop := fun j => get_order j s <> None.
Definition known_symbols (s : state) : Z -> Prop := fun j => get_symbol j s <> None.
Definition open_books (s : state) : Z -> Prop := fun j => get_book j s <> None.
(** [peak K s n]: there is a history to [s], and [n] is the largest number of things satisfying [K] after any of its calls. *)
Inductive peak (K : state -> Z -> Prop) : state -> Z -> Prop :=
| pk_init : peak K init 0
| pk_step s a s' er n k : peak K s n -> op_ok s a -> step s a = Ok (s', er) -> number (K s') k -> peak K s' (Z.max n k).
(** The notifications [l], each with some book. *)
Definition told (ns : list (event * book)) (l : list event) : Prop := map fst ns = l.
(** How many orders the notifications [l] add and delete. *)
Definition in1 (ev : event) : Z := match ev with EAddOrder _ => 1 | _ => 0 end.
Definition out1 (ev : event) : Z := match ev with EDeleteOrder _ => 1 | _ => 0 end.
Fixpoint ins (l : list event) : Z := match l with [] => 0 | ev :: l => in1 ev + ins l end.
Fixpoint outs (l : list event) : Z := match l with [] => 0 | ev :: l => out1 ev + outs l end.
