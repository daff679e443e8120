(** * Spec26.v -- what the matching engine program makes of a stream (definitions only, no proofs). *)
From stdpp Require Import fin_maps.
From Verif Require Import Types Book Engine Manager Factory Itch ItchSpec Feed Spec Spec11 Spec25.
Open Scope Z_scope. Open Scope list_scope.

(** The calls a matching engine is to make for a feed message: executions are its own business, so those of the feed are passed over. *)
Definition asks (m : Feed.feed) (ops : list op) : Prop :=
  match m with
  | FBook sym => exists name, ops = [AddSymbol (mkSymbol sym name); AddOrderBook (mkSymbol sym name)]
  | FAdd id sym sd p q => ops = [AddOrder (LimitOrder id sym sd p q GTC MAX64)]
  | FReduce id q => ops = [ReduceOrder id q]
  | FExecute _ _ | FExecuteAt _ _ _ => ops = []
  | FReplace id nid p q => ops = [ReplaceOrder id nid p q]
  | FDelete id => ops = [DeleteOrder id]
  | FModify _ _ _ | FReplaceTo _ _ _ _ _ => False
  end.
(** The blocks are a stream of the ITCH packets [ks], cut anywhere and with an unfinished packet at the end, which says the feed messages
    [ms]; no more than 2^32 packets.  The messages need not make sense together. *)
Definition feeds (blocks : list (list Z)) (ks : list packet) (ms : list Feed.feed) : Prop :=
  exists tail, Forall (Forall is_byte) blocks /\ Forall packet_ok ks /\ incomplete tail /\ concat blocks = stream (map on_wire ks) ++ tail /\
  Spec11.says ks ms /\ Z.of_nat (length ks) <= TWO32.
(** The notification is about [d]. *)
Definition is_about (d : deed) (ev : event) : bool :=
  match d, ev with Arrives, EAddOrder _ | Changes, EUpdateOrder _ | Leaves, EDeleteOrder _ | Trades, EExecute _ _ _ => true | _, _ => false end.
Definition how_often (d : deed) (l : list event) : Z := Z.of_nat (length (List.filter (is_about d) l)).
(** All notifications but those that only say a book has changed. *)
Definition how_many (l : list event) : Z := Z.of_nat (length (List.filter (fun ev => match ev with EUpdateBook _ _ => false | _ => true end) l)).
