(** * ItchPrint.v -- what the ITCH example program prints.
    include/trader/providers/nasdaq/itch_handler.inl:12-336 (operator<< of the messages) and examples/itch_handler.cpp.
    Simplifications: operator<< of a number is its decimal numeral; CppCommon::WriteChar and CppCommon::WriteString are not part of the
    repository, the texts they write are the parameters [wc] and [ws]; standard input is the list of the blocks Read returns. *)
From Coq Require Import Ascii String DecimalString.
From stdpp Require Import strings.
From Verif Require Import Types Itch.
From Verif Require Print.
Open Scope Z_scope. Open Scope list_scope.

(** How a member is written: as a number, as a plain char, through WriteChar, through WriteString. *)
Inductive pk := PNum | PRaw | PChar | PStr.
(** One operator<<: the name, and for each part the label, the member written and how. *)
Record printer := mkPrinter { pr_name : string; pr_items : list (string * string * pk) }.
Open Scope string_scope.
(** operator<<(SystemEventMessage): itch_handler.inl:12-22. *)
Definition pr_SystemEvent : printer :=
  mkPrinter "SystemEventMessage" [("Type", "Type", PChar); ("StockLocate", "StockLocate", PNum); ("TrackingNumber", "TrackingNumber", PNum);
    ("Timestamp", "Timestamp", PNum); ("EventCode", "EventCode", PChar)].
(** operator<<(StockDirectoryMessage): itch_handler.inl:24-47. *)
Definition pr_StockDirectory : printer :=
  mkPrinter "StockDirectoryMessage" [("Type", "Type", PChar); ("StockLocate", "StockLocate", PNum); ("TrackingNumber", "TrackingNumber", PNum);
    ("Timestamp", "Timestamp", PNum); ("Stock", "Stock", PStr); ("MarketCategory", "MarketCategory", PChar); ("FinancialStatusIndicator",
    "FinancialStatusIndicator", PChar); ("RoundLotSize", "RoundLotSize", PNum); ("RoundLotsOnly", "RoundLotsOnly", PChar); ("IssueClassification",
    "IssueClassification", PChar); ("IssueSubType", "IssueSubType", PStr); ("Authenticity", "Authenticity", PChar); ("ShortSaleThresholdIndicator",
    "ShortSaleThresholdIndicator", PChar); ("IPOFlag", "IPOFlag", PChar); ("LULDReferencePriceTier", "LULDReferencePriceTier", PChar); ("ETPFlag",
    "ETPFlag", PChar); ("ETPLeverageFactor", "ETPLeverageFactor", PNum); ("InverseIndicator", "InverseIndicator", PChar)].
(** operator<<(StockTradingActionMessage): itch_handler.inl:49-62. *)
Definition pr_StockTradingAction : printer :=
  mkPrinter "StockTradingActionMessage" [("Type", "Type", PChar); ("StockLocate", "StockLocate", PNum); ("TrackingNumber", "TrackingNumber", PNum);
    ("Timestamp", "Timestamp", PNum); ("Stock", "Stock", PStr); ("TradingState", "TradingState", PChar); ("Reserved", "Reserved", PChar); ("Reason",
    "Reason", PChar)].
(** operator<<(RegSHOMessage): itch_handler.inl:64-75. *)
Definition pr_RegSHO : printer :=
  mkPrinter "RegSHOMessage" [("Type", "Type", PChar); ("StockLocate", "StockLocate", PNum); ("TrackingNumber", "TrackingNumber", PNum); ("Timestamp",
    "Timestamp", PNum); ("Stock", "Stock", PStr); ("RegSHOAction", "RegSHOAction", PChar)].
(** operator<<(MarketParticipantPositionMessage): itch_handler.inl:77-91. *)
Definition pr_MarketParticipantPosition : printer :=
  mkPrinter "MarketParticipantPositionMessage" [("Type", "Type", PChar); ("StockLocate", "StockLocate", PNum); ("TrackingNumber", "TrackingNumber",
    PNum); ("Timestamp", "Timestamp", PNum); ("MPID", "MPID", PStr); ("Stock", "Stock", PStr); ("PrimaryMarketMaker", "PrimaryMarketMaker", PChar);
    ("MarketMakerMode", "MarketMakerMode", PChar); ("MarketParticipantState", "MarketParticipantState", PChar)].
(** operator<<(MWCBDeclineMessage): itch_handler.inl:93-105. *)
Definition pr_MWCBDecline : printer :=
  mkPrinter "MWCBDeclineMessage" [("Type", "Type", PChar); ("StockLocate", "StockLocate", PNum); ("TrackingNumber", "TrackingNumber", PNum);
    ("Timestamp", "Timestamp", PNum); ("Level1", "Level1", PNum); ("Level2", "Level2", PNum); ("Level3", "Level3", PNum)].
(** operator<<(MWCBStatusMessage): itch_handler.inl:107-117. *)
Definition pr_MWCBStatus : printer :=
  mkPrinter "MWCBStatusMessage" [("Type", "Type", PChar); ("StockLocate", "StockLocate", PNum); ("TrackingNumber", "TrackingNumber", PNum);
    ("Timestamp", "Timestamp", PNum); ("BreachedLevel", "BreachedLevel", PRaw)].
(** operator<<(IPOQuotingMessage): itch_handler.inl:119-132. *)
Definition pr_IPOQuoting : printer :=
  mkPrinter "IPOQuotingMessage" [("Type", "Type", PChar); ("StockLocate", "StockLocate", PNum); ("TrackingNumber", "TrackingNumber", PNum);
    ("Timestamp", "Timestamp", PNum); ("Stock", "Stock", PStr); ("IPOReleaseTime", "IPOReleaseTime", PNum); ("IPOReleaseQualifier",
    "IPOReleaseQualifier", PRaw); ("IPOPrice", "IPOPrice", PNum)].
(** operator<<(AddOrderMessage): itch_handler.inl:134-148. *)
Definition pr_AddOrder : printer :=
  mkPrinter "AddOrderMessage" [("Type", "Type", PChar); ("StockLocate", "StockLocate", PNum); ("TrackingNumber", "TrackingNumber", PNum);
    ("Timestamp", "Timestamp", PNum); ("OrderReferenceNumber", "OrderReferenceNumber", PNum); ("BuySellIndicator", "BuySellIndicator", PChar);
    ("Shares", "Shares", PNum); ("Stock", "Stock", PStr); ("Price", "Price", PNum)].
(** operator<<(AddOrderMPIDMessage): itch_handler.inl:150-165. *)
Definition pr_AddOrderMPID : printer :=
  mkPrinter "AddOrderMPIDMessage" [("Type", "Type", PChar); ("StockLocate", "StockLocate", PNum); ("TrackingNumber", "TrackingNumber", PNum);
    ("Timestamp", "Timestamp", PNum); ("OrderReferenceNumber", "OrderReferenceNumber", PNum); ("BuySellIndicator", "BuySellIndicator", PChar);
    ("Shares", "Shares", PNum); ("Stock", "Stock", PStr); ("Price", "Price", PNum); ("Attribution", "Attribution", PChar)].
(** operator<<(OrderExecutedMessage): itch_handler.inl:167-179. *)
Definition pr_OrderExecuted : printer :=
  mkPrinter "OrderExecutedMessage" [("Type", "Type", PChar); ("StockLocate", "StockLocate", PNum); ("TrackingNumber", "TrackingNumber", PNum);
    ("Timestamp", "Timestamp", PNum); ("OrderReferenceNumber", "OrderReferenceNumber", PNum); ("ExecutedShares", "ExecutedShares", PNum);
    ("MatchNumber", "MatchNumber", PNum)].
(** operator<<(OrderExecutedWithPriceMessage): itch_handler.inl:181-195. *)
Definition pr_OrderExecutedWithPrice : printer :=
  mkPrinter "OrderExecutedWithPriceMessage" [("Type", "Type", PChar); ("StockLocate", "StockLocate", PNum); ("TrackingNumber", "TrackingNumber",
    PNum); ("Timestamp", "Timestamp", PNum); ("OrderReferenceNumber", "OrderReferenceNumber", PNum); ("ExecutedShares", "ExecutedShares", PNum);
    ("MatchNumber", "MatchNumber", PNum); ("Printable", "Printable", PChar); ("ExecutionPrice", "ExecutionPrice", PNum)].
(** operator<<(OrderCancelMessage): itch_handler.inl:197-208. *)
Definition pr_OrderCancel : printer :=
  mkPrinter "OrderCancelMessage" [("Type", "Type", PChar); ("StockLocate", "StockLocate", PNum); ("TrackingNumber", "TrackingNumber", PNum);
    ("Timestamp", "Timestamp", PNum); ("OrderReferenceNumber", "OrderReferenceNumber", PNum); ("CanceledShares", "CanceledShares", PNum)].
(** operator<<(OrderDeleteMessage): itch_handler.inl:210-220. *)
Definition pr_OrderDelete : printer :=
  mkPrinter "OrderDeleteMessage" [("Type", "Type", PChar); ("StockLocate", "StockLocate", PNum); ("TrackingNumber", "TrackingNumber", PNum);
    ("Timestamp", "Timestamp", PNum); ("OrderReferenceNumber", "OrderReferenceNumber", PNum)].
(** operator<<(OrderReplaceMessage): itch_handler.inl:222-235. *)
Definition pr_OrderReplace : printer :=
  mkPrinter "OrderReplaceMessage" [("Type", "Type", PChar); ("StockLocate", "StockLocate", PNum); ("TrackingNumber", "TrackingNumber", PNum);
    ("Timestamp", "Timestamp", PNum); ("OriginalOrderReferenceNumber", "OriginalOrderReferenceNumber", PNum); ("NewOrderReferenceNumber",
    "NewOrderReferenceNumber", PNum); ("Shares", "Shares", PNum); ("Price", "Price", PNum)].
(** operator<<(TradeMessage): itch_handler.inl:237-252. *)
Definition pr_Trade : printer :=
  mkPrinter "TradeMessage" [("Type", "Type", PChar); ("StockLocate", "StockLocate", PNum); ("TrackingNumber", "TrackingNumber", PNum); ("Timestamp",
    "Timestamp", PNum); ("OrderReferenceNumber", "OrderReferenceNumber", PNum); ("BuySellIndicator", "BuySellIndicator", PChar); ("Shares", "Shares",
    PNum); ("Stock", "Stock", PStr); ("Price", "Price", PNum); ("MatchNumber", "MatchNumber", PNum)].
(** operator<<(CrossTradeMessage): itch_handler.inl:254-268. *)
Definition pr_CrossTrade : printer :=
  mkPrinter "CrossTradeMessage" [("Type", "Type", PChar); ("StockLocate", "StockLocate", PNum); ("TrackingNumber", "TrackingNumber", PNum);
    ("Timestamp", "Timestamp", PNum); ("Shares", "Shares", PNum); ("Stock", "Stock", PStr); ("CrossPrice", "CrossPrice", PNum); ("MatchNumber",
    "MatchNumber", PNum); ("CrossType", "CrossType", PChar)].
(** operator<<(BrokenTradeMessage): itch_handler.inl:270-280. *)
Definition pr_BrokenTrade : printer :=
  mkPrinter "BrokenTradeMessage" [("Type", "Type", PChar); ("StockLocate", "StockLocate", PNum); ("TrackingNumber", "TrackingNumber", PNum);
    ("Timestamp", "Timestamp", PNum); ("MatchNumber", "MatchNumber", PNum)].
(** operator<<(NOIIMessage): itch_handler.inl:282-300. *)
Definition pr_NOII : printer :=
  mkPrinter "NOIIMessage" [("Type", "Type", PChar); ("StockLocate", "StockLocate", PNum); ("TrackingNumber", "TrackingNumber", PNum); ("Timestamp",
    "Timestamp", PNum); ("PairedShares", "PairedShares", PNum); ("ImbalanceShares", "ImbalanceShares", PNum); ("ImbalanceDirection",
    "ImbalanceDirection", PChar); ("Stock", "Stock", PStr); ("FarPrice", "FarPrice", PNum); ("NearPrice", "NearPrice", PNum);
    ("CurrentReferencePrice", "CurrentReferencePrice", PNum); ("CrossType", "CrossType", PChar); ("PriceVariationIndicator",
    "PriceVariationIndicator", PChar)].
(** operator<<(RPIIMessage): itch_handler.inl:302-313. *)
Definition pr_RPII : printer :=
  mkPrinter "RPIIMessage" [("Type", "Type", PChar); ("StockLocate", "StockLocate", PNum); ("TrackingNumber", "TrackingNumber", PNum); ("Timestamp",
    "Timestamp", PNum); ("Stock", "Stock", PStr); ("InterestFlag", "InterestFlag", PChar)].
(** operator<<(LULDAuctionCollarMessage): itch_handler.inl:315-329. *)
Definition pr_LULDAuctionCollar : printer :=
  mkPrinter "LULDAuctionCollarMessage" [("Type", "Type", PChar); ("StockLocate", "StockLocate", PNum); ("TrackingNumber", "TrackingNumber", PNum);
    ("Timestamp", "Timestamp", PNum); ("Stock", "Stock", PStr); ("AuctionCollarReferencePrice", "AuctionCollarReferencePrice", PNum);
    ("UpperAuctionCollarPrice", "UpperAuctionCollarPrice", PNum); ("LowerAuctionCollarPrice", "LowerAuctionCollarPrice", PNum);
    ("AuctionCollarExtension", "AuctionCollarExtension", PNum)].
(** operator<<(UnknownMessage): itch_handler.inl:331-336. *)
Definition pr_Unknown : printer :=
  mkPrinter "UnknownMessage" [("Type", "Type", PChar)].
(** The overload for the type of a message. *)
Definition printers : list (string * printer) :=
  [("SystemEventMessage", pr_SystemEvent);
   ("StockDirectoryMessage", pr_StockDirectory);
   ("StockTradingActionMessage", pr_StockTradingAction);
   ("RegSHOMessage", pr_RegSHO);
   ("MarketParticipantPositionMessage", pr_MarketParticipantPosition);
   ("MWCBDeclineMessage", pr_MWCBDecline);
   ("MWCBStatusMessage", pr_MWCBStatus);
   ("IPOQuotingMessage", pr_IPOQuoting);
   ("AddOrderMessage", pr_AddOrder);
   ("AddOrderMPIDMessage", pr_AddOrderMPID);
   ("OrderExecutedMessage", pr_OrderExecuted);
   ("OrderExecutedWithPriceMessage", pr_OrderExecutedWithPrice);
   ("OrderCancelMessage", pr_OrderCancel);
   ("OrderDeleteMessage", pr_OrderDelete);
   ("OrderReplaceMessage", pr_OrderReplace);
   ("TradeMessage", pr_Trade);
   ("CrossTradeMessage", pr_CrossTrade);
   ("BrokenTradeMessage", pr_BrokenTrade);
   ("NOIIMessage", pr_NOII);
   ("RPIIMessage", pr_RPII);
   ("LULDAuctionCollarMessage", pr_LULDAuctionCollar);
   ("UnknownMessage", pr_Unknown)].
Fixpoint pick {A} (f : string) (l : list (string * A)) : option A :=
  match l with [] => None | (g, x) :: l => if String.eqb f g then Some x else pick f l end.
Definition char_of (c : Z) : ascii := ascii_of_N (Z.to_N c).
Section text.
Context (wc : Z -> string) (ws : list Z -> string).
Definition value_text (k : pk) (v : option value) : string :=
  match k, v with
  | PNum, Some (VNum x) => Print.dec x
  | PRaw, Some (VText [c]) => String (char_of c) ""
  | PChar, Some (VText [c]) => wc c
  | PStr, Some (VText s) => ws s
  | _, _ => "?"   (* no such member, or of another type: does not compile *)
  end.
Fixpoint items_text (m : message) (l : list (string * string * pk)) : string :=
  match l with
  | [] => ""
  | (label, f, k) :: l => label +:+ "=" +:+ value_text k (pick f (m_fields m)) +:+ (match l with [] => "" | _ => "; " end) +:+ items_text m l
  end.
Definition message_text (m : message) : string :=
  match pick (m_struct m) printers with
  | Some p => pr_name p +:+ "(" +:+ items_text m (pr_items p) +:+ ")"
  | None => ""
  end.
(** MyITCHHandler::OutputMessage: examples/itch_handler.cpp:44-50; one line for each callback. *)
Fixpoint output (l : list message) : string :=
  match l with [] => "" | m :: l => message_text m +:+ String "010" (output l) end.
(** main: examples/itch_handler.cpp:53-67; the handler returns true, the result of Process is not looked at. *)
Fixpoint run_blocks (bh : bool) (blocks : list (list Z)) (d : dec) : res dec :=
  match blocks with
  | [] => Ok d
  | b :: blocks => do '(ok, d) <- process bh (fun _ => true) b d; run_blocks bh blocks d
  end.
Definition example (bh : bool) (blocks : list (list Z)) : res string := do d <- run_blocks bh blocks new_dec; Ok (output (d_log d)).
End text.
