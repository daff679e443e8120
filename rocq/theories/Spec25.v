(** * Spec25.v -- what the throughput program should report (definitions only, no proofs). *)
From stdpp Require Import fin_maps.
From Verif Require Import Types Book Engine Feed.
Open Scope Z_scope. Open Scope list_scope.

(** What happens to orders. *)
Inductive deed := Arrives | Changes | Leaves | Trades.
Global Instance deed_eq_dec : EqDecision deed.
Proof. solve_decision. Defined.
(** [q] of the order [id] is taken. *)
Definition taken (T : gmap Z live) (id q : Z) : list deed :=
  match T !! id with Some v => if decide (q = v_qty v) then [Leaves] else [Changes] | None => [] end.
(** What a message of the feed does to the live orders [T]. *)
Definition deeds (T : gmap Z live) (m : feed) : list deed :=
  match m with
  | FBook _ => []
  | FAdd _ _ _ _ _ => [Arrives]
  | FReduce id q => if decide (q = 0) then [] else taken T id q
  | FExecute id q | FExecuteAt id _ q => if decide (q = 0) then [] else Trades :: taken T id q
  | FModify _ _ _ => [Changes]
  | FReplace _ _ _ _ | FReplaceTo _ _ _ _ _ => [Leaves; Arrives]
  | FDelete _ => [Leaves]
  end.
Fixpoint deeds_all (T : gmap Z live) (ms : list feed) : list deed := match ms with [] => [] | m :: ms => deeds T m ++ deeds_all (track m T) ms end.
Definition times (d : deed) (l : list deed) : Z := Z.of_nat (length (filter (fun x => x = d) l)).
(** The largest number of live orders after any of the messages. *)
Fixpoint most_live (T : gmap Z live) (ms : list feed) : Z :=
  match ms with [] => Z.of_nat (size T) | m :: ms => Z.max (Z.of_nat (size T)) (most_live (track m T) ms) end.
(** Market updates: two for a new book (the symbol and the book); a trade is one; an order that arrives, changes or leaves is two (the
    order and its level). *)
Definition weight (d : deed) : Z := match d with Trades => 1 | _ => 2 end.
Definition updates (books : Z) (l : list deed) : Z := 2 * books + foldr (fun d a => weight d + a) 0 l.
(** Of a message: not a modification (there are none in ITCH). *)
Definition is_modify (m : feed) : Prop := match m with FModify _ _ _ => True | _ => False end.
