(** * Spec11.v -- what an ITCH stream says about the live orders (definitions only, no proofs). *)
From Coq Require Import String Ascii.
From stdpp Require Import fin_maps.
From Verif Require Import Types Itch ItchSpec Feed.
Open Scope Z_scope.

(** A packet: a message of one of the layouts with values for its fields. *)
Record packet := mkPacket { pk_type : ascii; pk_name : string; pk_layout : list (string * fkind); pk_values : list value }.
Definition pk_fields (k : packet) : list (string * value) := named (pk_layout k) (pk_values k).
Definition on_wire (k : packet) : list Z := encode (pk_layout k) (pk_values k).
(** The side is 'B' or 'S'. *)
Definition packet_ok (k : packet) : Prop :=
  (pk_type k, pk_name k, pk_layout k) ∈ layouts /\ wire_message (pk_type k) (pk_layout k) (pk_values k) /\
  forall t, ("BuySellIndicator"%string, VText t) ∈ pk_fields k -> t = [chr "B"] \/ t = [chr "S"].

(** [tells k m]: the packet is the feed message [m] (ITCH 5.0: Stock Directory 'R', Add Order 'A' and
    'F', Order Executed 'E' and 'C', Order Cancel 'X', Order Delete 'D', Order Replace 'U'). *)
Open Scope string_scope.
Definition has (k : packet) (f : string) (x : Z) : Prop := (f, VNum x) ∈ pk_fields k.
Inductive tells (k : packet) : Feed.feed -> Prop :=
| tells_book sym : pk_type k = "R"%char -> has k "StockLocate" sym -> tells k (FBook sym)
| tells_buy id sym p q : pk_type k = "A"%char \/ pk_type k = "F"%char -> has k "OrderReferenceNumber" id -> has k "StockLocate" sym -> has k "Price" p -> has k "Shares" q ->
    ("BuySellIndicator", VText [chr "B"]) ∈ pk_fields k -> tells k (FAdd id sym BUY p q)
| tells_sell id sym p q : pk_type k = "A"%char \/ pk_type k = "F"%char -> has k "OrderReferenceNumber" id -> has k "StockLocate" sym -> has k "Price" p -> has k "Shares" q ->
    ("BuySellIndicator", VText [chr "S"]) ∈ pk_fields k -> tells k (FAdd id sym SELL p q)
| tells_execute id q : pk_type k = "E"%char -> has k "OrderReferenceNumber" id -> has k "ExecutedShares" q -> tells k (FExecute id q)
| tells_execute_at id p q : pk_type k = "C"%char -> has k "OrderReferenceNumber" id -> has k "ExecutionPrice" p -> has k "ExecutedShares" q -> tells k (FExecuteAt id p q)
| tells_cancel id q : pk_type k = "X"%char -> has k "OrderReferenceNumber" id -> has k "CanceledShares" q -> tells k (FReduce id q)
| tells_delete id : pk_type k = "D"%char -> has k "OrderReferenceNumber" id -> tells k (FDelete id)
| tells_replace id nid p q : pk_type k = "U"%char -> has k "OriginalOrderReferenceNumber" id -> has k "NewOrderReferenceNumber" nid -> has k "Price" p -> has k "Shares" q ->
    tells k (FReplace id nid p q).
Definition about_book (t : ascii) : bool := existsb (Ascii.eqb t) ["R"; "A"; "F"; "E"; "C"; "X"; "D"; "U"]%char.
(** The feed messages of a day of packets, in order; all other packets say nothing about orders. *)
Inductive says : list packet -> list Feed.feed -> Prop :=
| says_nil : says [] []
| says_one k ks m ms : about_book (pk_type k) = true -> tells k m -> says ks ms -> says (k :: ks) (m :: ms)
| says_none k ks ms : about_book (pk_type k) = false -> says ks ms -> says (k :: ks) ms.
