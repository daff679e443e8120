(** * ItchSpec.v -- what the ITCH decoder is supposed to do (definitions only).

    The layouts are those of the NASDAQ TotalView-ITCH 5.0 specification the header refers to
    (itch_handler.h:370-384): field name (as in the message struct), kind and width. *)
From Verif Require Import Itch.
Open Scope Z_scope.

Definition is_byte (b : Z) : Prop := 0 <= b < 256.

Inductive fkind := Int (n : nat) | Alpha (n : nat).
Definition layout : Type := ascii * string * list (string * fkind).
Open Scope string_scope.
Definition head (l : list (string * fkind)) : list (string * fkind) :=
  [("Type", Alpha 1); ("StockLocate", Int 2); ("TrackingNumber", Int 2); ("Timestamp", Int 6)] ++ l.
Definition layouts : list layout := [
  ("S"%char, "SystemEventMessage", head [("EventCode", Alpha 1)]);
  ("R"%char, "StockDirectoryMessage", head
     [("Stock", Alpha 8); ("MarketCategory", Alpha 1); ("FinancialStatusIndicator", Alpha 1); ("RoundLotSize", Int 4);
      ("RoundLotsOnly", Alpha 1); ("IssueClassification", Alpha 1); ("IssueSubType", Alpha 2); ("Authenticity", Alpha 1);
      ("ShortSaleThresholdIndicator", Alpha 1); ("IPOFlag", Alpha 1); ("LULDReferencePriceTier", Alpha 1);
      ("ETPFlag", Alpha 1); ("ETPLeverageFactor", Int 4); ("InverseIndicator", Alpha 1)]);
  ("H"%char, "StockTradingActionMessage", head
     [("Stock", Alpha 8); ("TradingState", Alpha 1); ("Reserved", Alpha 1); ("Reason", Alpha 4)]);
  ("Y"%char, "RegSHOMessage", head [("Stock", Alpha 8); ("RegSHOAction", Alpha 1)]);
  ("L"%char, "MarketParticipantPositionMessage", head
     [("MPID", Alpha 4); ("Stock", Alpha 8); ("PrimaryMarketMaker", Alpha 1); ("MarketMakerMode", Alpha 1);
      ("MarketParticipantState", Alpha 1)]);
  ("V"%char, "MWCBDeclineMessage", head [("Level1", Int 8); ("Level2", Int 8); ("Level3", Int 8)]);
  ("W"%char, "MWCBStatusMessage", head [("BreachedLevel", Alpha 1)]);
  ("K"%char, "IPOQuotingMessage", head
     [("Stock", Alpha 8); ("IPOReleaseTime", Int 4); ("IPOReleaseQualifier", Alpha 1); ("IPOPrice", Int 4)]);
  ("A"%char, "AddOrderMessage", head
     [("OrderReferenceNumber", Int 8); ("BuySellIndicator", Alpha 1); ("Shares", Int 4); ("Stock", Alpha 8); ("Price", Int 4)]);
  ("F"%char, "AddOrderMPIDMessage", head
     [("OrderReferenceNumber", Int 8); ("BuySellIndicator", Alpha 1); ("Shares", Int 4); ("Stock", Alpha 8); ("Price", Int 4);
      ("Attribution", Alpha 4)]);
  ("E"%char, "OrderExecutedMessage", head [("OrderReferenceNumber", Int 8); ("ExecutedShares", Int 4); ("MatchNumber", Int 8)]);
  ("C"%char, "OrderExecutedWithPriceMessage", head
     [("OrderReferenceNumber", Int 8); ("ExecutedShares", Int 4); ("MatchNumber", Int 8); ("Printable", Alpha 1);
      ("ExecutionPrice", Int 4)]);
  ("X"%char, "OrderCancelMessage", head [("OrderReferenceNumber", Int 8); ("CanceledShares", Int 4)]);
  ("D"%char, "OrderDeleteMessage", head [("OrderReferenceNumber", Int 8)]);
  ("U"%char, "OrderReplaceMessage", head
     [("OriginalOrderReferenceNumber", Int 8); ("NewOrderReferenceNumber", Int 8); ("Shares", Int 4); ("Price", Int 4)]);
  ("P"%char, "TradeMessage", head
     [("OrderReferenceNumber", Int 8); ("BuySellIndicator", Alpha 1); ("Shares", Int 4); ("Stock", Alpha 8); ("Price", Int 4);
      ("MatchNumber", Int 8)]);
  ("Q"%char, "CrossTradeMessage", head
     [("Shares", Int 8); ("Stock", Alpha 8); ("CrossPrice", Int 4); ("MatchNumber", Int 8); ("CrossType", Alpha 1)]);
  ("B"%char, "BrokenTradeMessage", head [("MatchNumber", Int 8)]);
  ("I"%char, "NOIIMessage", head
     [("PairedShares", Int 8); ("ImbalanceShares", Int 8); ("ImbalanceDirection", Alpha 1); ("Stock", Alpha 8); ("FarPrice", Int 4);
      ("NearPrice", Int 4); ("CurrentReferencePrice", Int 4); ("CrossType", Alpha 1); ("PriceVariationIndicator", Alpha 1)]);
  ("N"%char, "RPIIMessage", head [("Stock", Alpha 8); ("InterestFlag", Alpha 1)]);
  ("J"%char, "LULDAuctionCollarMessage", head
     [("Stock", Alpha 8); ("AuctionCollarReferencePrice", Int 4); ("UpperAuctionCollarPrice", Int 4);
      ("LowerAuctionCollarPrice", Int 4); ("AuctionCollarExtension", Int 4)])
].
Close Scope string_scope.

(** Size of a message on the wire. *)
Definition width (k : fkind) : nat := match k with Int n | Alpha n => n end.
Definition wire_size (fs : list (string * fkind)) : nat := sum_list (map (fun f => width (snd f)) fs).

(** Field values on the wire: an n-byte unsigned number, n characters. *)
Definition wire_value (k : fkind) (v : value) : Prop :=
  match k, v with
  | Int n, VNum x => 0 <= x < 256 ^ Z.of_nat n
  | Alpha n, VText s => length s = n /\ Forall is_byte s
  | _, _ => False
  end.
(** Big-endian encoding, most significant byte first. *)
Fixpoint be_bytes (n : nat) (x : Z) : list Z :=
  match n with O => [] | S n => (x / 256 ^ Z.of_nat n) mod 256 :: be_bytes n x end.
Definition encode_value (k : fkind) (v : value) : list Z :=
  match v with VNum x => be_bytes (width k) x | VText s => s end.
Fixpoint encode (fs : list (string * fkind)) (vs : list value) : list Z :=
  match fs, vs with
  | (_, k) :: fs, v :: vs => encode_value k v ++ encode fs vs
  | _, _ => []
  end.
(** [vs] are values for a message of type [t] with fields [fs]. *)
Definition wire_message (t : ascii) (fs : list (string * fkind)) (vs : list value) : Prop :=
  Forall2 (fun f v => wire_value (snd f) v) fs vs /\ exists vs', vs = VText [chr t] :: vs'.
(** The callback that should be made. *)
Definition named (fs : list (string * fkind)) (vs : list value) : list (string * value) := zip (map fst fs) vs.

(** ** Streams: each message is preceded by its size as a 2-byte big-endian number. *)
Definition frame (m : list Z) : list Z := be_bytes 2 (Z.of_nat (length m)) ++ m.
Definition stream (ms : list (list Z)) : list Z := concat (map frame ms).
(** The beginning of a message that has not arrived completely. *)
Definition incomplete (tail : list Z) : Prop :=
  (length tail < 2)%nat \/ Z.of_nat (length tail) < 2 + be (take 2 tail).
(** Processing complete messages one by one until one is refused; empty ones are ignored. *)
Fixpoint deliver (bh : bool) (acc : list message -> bool) (ms : list (list Z)) (log : list message) : res (bool * list message) :=
  match ms with
  | [] => Ok (true, log)
  | [] :: ms => deliver bh acc ms log
  | m :: ms =>
      do '(ok, log) <- process_message bh acc m log;
      if (ok : bool) then deliver bh acc ms log else Ok (false, log)
  end.
(** Feeding chunks until Process returns false. *)
Fixpoint feed (bh : bool) (acc : list message -> bool) (chunks : list (list Z)) (d : dec) : res (bool * dec) :=
  match chunks with
  | [] => Ok (true, d)
  | c :: chunks =>
      do '(ok, d) <- process bh acc c d;
      if (ok : bool) then feed bh acc chunks d else Ok (false, d)
  end.

(** Decoder states after any history of Process and Reset calls, failed ones included. *)
Inductive dec_reach (bh : bool) : dec -> Prop :=
| dr_new : dec_reach bh new_dec
| dr_process acc buf d ok d' : dec_reach bh d -> Forall is_byte buf -> process bh acc buf d = Ok (ok, d') -> dec_reach bh d'
| dr_reset d : dec_reach bh d -> dec_reach bh (reset d).

(** What the callback really gets for field [f] with value [v] on the wire (C42): only the upper
    three of the six timestamp bytes, and only the first of the four characters of Reason ('H')
    and Attribution ('F'). *)
Definition delivered (f : string) (v : value) : value :=
  match v with
  | VNum x => if String.eqb f "Timestamp" then VNum (x / 2 ^ 24) else v
  | VText s => if String.eqb f "Reason" || String.eqb f "Attribution" then VText (take 1 s) else v
  end.
Definition delivered_fields (fs : list (string * fkind)) (vs : list value) : list (string * value) :=
  map (fun p => (fst p, delivered (fst p) (snd p))) (named fs vs).
