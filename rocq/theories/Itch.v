(** * Itch.v -- the NASDAQ ITCH decoder
    (source/trader/providers/nasdaq/itch_handler.cpp, include/trader/providers/nasdaq/itch_handler.h/.inl).

    Executable model, no proofs.  Bytes are numbers 0..255 and a [char] is its byte.  A buffer
    argument is the list of its bytes, so that reading outside it is [Undef].  Simplifications:
    the buffer pointer and [index] of Process are replaced by the list of bytes not yet consumed;
    the virtual onMessage functions are one function [acc] from the list of callbacks made so
    far (this one last) to the returned boolean, so they may depend on everything the handler has
    seen; asserts are off; vector allocation does not fail. *)
From Verif Require Export Types.
From Coq Require Export String Ascii.
Open Scope Z_scope.
Open Scope list_scope.
Notation length := List.length.
Notation concat := List.concat.

Definition chr (a : ascii) : Z := Z.of_N (N_of_ascii a).

(** Field values handed to callbacks: integers, and text (a single char or a char array). *)
Inductive value := VNum (x : Z) | VText (s : list Z).
(** One callback: name of the message struct and its fields (itch_handler.h:25-372). *)
Record message := mkMsg { m_struct : string; m_fields : list (string * value) }.

(** ** Reading fields *)
(** [n] bytes at the pointer; fewer is an out-of-bounds read. *)
Definition get_bytes (n : nat) (bs : list Z) : res (list Z) :=
  if (length bs <? n)%nat then Undef else Ok (take n bs).
(** CppCommon::Endian::ReadBigEndian (external; assumed to read an unsigned big-endian number). *)
Definition be (bs : list Z) : Z := foldl (fun a b => a * 256 + b) 0 bs.
(** A number from its bytes in memory, on a little-endian and on a big-endian host. *)
Definition host_le (bs : list Z) : Z := foldr (fun b a => b + 256 * a) 0 bs.
Definition host_be (bs : list Z) : Z := be bs.
(** ITCHHandler::ReadTimestamp: itch_handler.inl:346-373. *)
Definition read_timestamp (big_endian_host : bool) (bs : list Z) : res Z :=
  do x <- get_bytes 3 bs;
  match x with
  | [b0; b1; b2] =>
      Ok (if big_endian_host then host_be [0; 0; 0; 0; 0; b0; b1; b2]
          else host_le [b2; b1; b0; 0; 0; 0; 0; 0])
  | _ => Undef
  end.

(** The read statements of the parsers: [*data++], ReadBigEndian of an n-byte integer,
    ReadTimestamp, ReadString<N> (itch_handler.inl:338-344). *)
Inductive rd := RChar | RBE (n : nat) | RTs | RStr (n : nat).
Definition read (bh : bool) (r : rd) (bs : list Z) : res (value * list Z) :=
  match r with
  | RChar => do x <- get_bytes 1 bs; Ok (VText x, drop 1 bs)
  | RBE n => do x <- get_bytes n bs; Ok (VNum (be x), drop n bs)
  | RTs => do x <- read_timestamp bh bs; Ok (VNum x, drop 6 bs)
  | RStr n => do x <- get_bytes n bs; Ok (VText x, drop n bs)
  end.
Fixpoint reads (bh : bool) (fs : list (string * rd)) (bs : list Z) : res (list (string * value)) :=
  match fs with
  | [] => Ok []
  | (f, r) :: fs =>
      do '(v, bs) <- read bh r bs;
      do vs <- reads bh fs bs;
      Ok ((f, v) :: vs)
  end.

(** ** The message parsers: expected size, message struct, and the reads in program order with the
    field each one is stored in. *)
Record parser := mkParser { p_size : nat; p_struct : string; p_reads : list (string * rd) }.
Open Scope string_scope.
(** ProcessSystemEventMessage: itch_handler.cpp:165-181. *)
Definition p_system_event : parser :=
  mkParser 12 "SystemEventMessage" [("Type", RChar); ("StockLocate", RBE 2); ("TrackingNumber", RBE 2);
    ("Timestamp", RTs); ("EventCode", RChar)].
(** ProcessStockDirectoryMessage: itch_handler.cpp:183-212. *)
Definition p_stock_directory : parser :=
  mkParser 39 "StockDirectoryMessage" [("Type", RChar); ("StockLocate", RBE 2); ("TrackingNumber", RBE 2);
    ("Timestamp", RTs); ("Stock", RStr 8); ("MarketCategory", RChar); ("FinancialStatusIndicator", RChar);
    ("RoundLotSize", RBE 4); ("RoundLotsOnly", RChar); ("IssueClassification", RChar); ("IssueSubType", RStr 2);
    ("Authenticity", RChar); ("ShortSaleThresholdIndicator", RChar); ("IPOFlag", RChar);
    ("LULDReferencePriceTier", RChar); ("ETPFlag", RChar); ("ETPLeverageFactor", RBE 4); ("InverseIndicator",
    RChar)].
(** ProcessStockTradingActionMessage: itch_handler.cpp:214-233. *)
Definition p_stock_trading_action : parser :=
  mkParser 25 "StockTradingActionMessage" [("Type", RChar); ("StockLocate", RBE 2); ("TrackingNumber", RBE 2);
    ("Timestamp", RTs); ("Stock", RStr 8); ("TradingState", RChar); ("Reserved", RChar); ("Reason", RChar)].
(** ProcessRegSHOMessage: itch_handler.cpp:235-252. *)
Definition p_reg_sho : parser :=
  mkParser 20 "RegSHOMessage" [("Type", RChar); ("StockLocate", RBE 2); ("TrackingNumber", RBE 2);
    ("Timestamp", RTs); ("Stock", RStr 8); ("RegSHOAction", RChar)].
(** ProcessMarketParticipantPositionMessage: itch_handler.cpp:254-274. *)
Definition p_market_participant_position : parser :=
  mkParser 26 "MarketParticipantPositionMessage" [("Type", RChar); ("StockLocate", RBE 2); ("TrackingNumber",
    RBE 2); ("Timestamp", RTs); ("MPID", RStr 4); ("Stock", RStr 8); ("PrimaryMarketMaker", RChar);
    ("MarketMakerMode", RChar); ("MarketParticipantState", RChar)].
(** ProcessMWCBDeclineMessage: itch_handler.cpp:276-294. *)
Definition p_mwcbdecline : parser :=
  mkParser 35 "MWCBDeclineMessage" [("Type", RChar); ("StockLocate", RBE 2); ("TrackingNumber", RBE 2);
    ("Timestamp", RTs); ("Level1", RBE 8); ("Level2", RBE 8); ("Level3", RBE 8)].
(** ProcessMWCBStatusMessage: itch_handler.cpp:296-312. *)
Definition p_mwcbstatus : parser :=
  mkParser 12 "MWCBStatusMessage" [("Type", RChar); ("StockLocate", RBE 2); ("TrackingNumber", RBE 2);
    ("Timestamp", RTs); ("BreachedLevel", RChar)].
(** ProcessIPOQuotingMessage: itch_handler.cpp:314-333. *)
Definition p_ipoquoting : parser :=
  mkParser 28 "IPOQuotingMessage" [("Type", RChar); ("StockLocate", RBE 2); ("TrackingNumber", RBE 2);
    ("Timestamp", RTs); ("Stock", RStr 8); ("IPOReleaseTime", RBE 4); ("IPOReleaseQualifier", RChar); ("IPOPrice",
    RBE 4)].
(** ProcessAddOrderMessage: itch_handler.cpp:335-355. *)
Definition p_add_order : parser :=
  mkParser 36 "AddOrderMessage" [("Type", RChar); ("StockLocate", RBE 2); ("TrackingNumber", RBE 2);
    ("Timestamp", RTs); ("OrderReferenceNumber", RBE 8); ("BuySellIndicator", RChar); ("Shares", RBE 4); ("Stock",
    RStr 8); ("Price", RBE 4)].
(** ProcessAddOrderMPIDMessage: itch_handler.cpp:357-378. *)
Definition p_add_order_mpid : parser :=
  mkParser 40 "AddOrderMPIDMessage" [("Type", RChar); ("StockLocate", RBE 2); ("TrackingNumber", RBE 2);
    ("Timestamp", RTs); ("OrderReferenceNumber", RBE 8); ("BuySellIndicator", RChar); ("Shares", RBE 4); ("Stock",
    RStr 8); ("Price", RBE 4); ("Attribution", RChar)].
(** ProcessOrderExecutedMessage: itch_handler.cpp:380-398. *)
Definition p_order_executed : parser :=
  mkParser 31 "OrderExecutedMessage" [("Type", RChar); ("StockLocate", RBE 2); ("TrackingNumber", RBE 2);
    ("Timestamp", RTs); ("OrderReferenceNumber", RBE 8); ("ExecutedShares", RBE 4); ("MatchNumber", RBE 8)].
(** ProcessOrderExecutedWithPriceMessage: itch_handler.cpp:400-420. *)
Definition p_order_executed_with_price : parser :=
  mkParser 36 "OrderExecutedWithPriceMessage" [("Type", RChar); ("StockLocate", RBE 2); ("TrackingNumber", RBE
    2); ("Timestamp", RTs); ("OrderReferenceNumber", RBE 8); ("ExecutedShares", RBE 4); ("MatchNumber", RBE 8);
    ("Printable", RChar); ("ExecutionPrice", RBE 4)].
(** ProcessOrderCancelMessage: itch_handler.cpp:422-439. *)
Definition p_order_cancel : parser :=
  mkParser 23 "OrderCancelMessage" [("Type", RChar); ("StockLocate", RBE 2); ("TrackingNumber", RBE 2);
    ("Timestamp", RTs); ("OrderReferenceNumber", RBE 8); ("CanceledShares", RBE 4)].
(** ProcessOrderDeleteMessage: itch_handler.cpp:441-457. *)
Definition p_order_delete : parser :=
  mkParser 19 "OrderDeleteMessage" [("Type", RChar); ("StockLocate", RBE 2); ("TrackingNumber", RBE 2);
    ("Timestamp", RTs); ("OrderReferenceNumber", RBE 8)].
(** ProcessOrderReplaceMessage: itch_handler.cpp:459-478. *)
Definition p_order_replace : parser :=
  mkParser 35 "OrderReplaceMessage" [("Type", RChar); ("StockLocate", RBE 2); ("TrackingNumber", RBE 2);
    ("Timestamp", RTs); ("OriginalOrderReferenceNumber", RBE 8); ("NewOrderReferenceNumber", RBE 8); ("Shares",
    RBE 4); ("Price", RBE 4)].
(** ProcessTradeMessage: itch_handler.cpp:480-501. *)
Definition p_trade : parser :=
  mkParser 44 "TradeMessage" [("Type", RChar); ("StockLocate", RBE 2); ("TrackingNumber", RBE 2);
    ("Timestamp", RTs); ("OrderReferenceNumber", RBE 8); ("BuySellIndicator", RChar); ("Shares", RBE 4); ("Stock",
    RStr 8); ("Price", RBE 4); ("MatchNumber", RBE 8)].
(** ProcessCrossTradeMessage: itch_handler.cpp:503-523. *)
Definition p_cross_trade : parser :=
  mkParser 40 "CrossTradeMessage" [("Type", RChar); ("StockLocate", RBE 2); ("TrackingNumber", RBE 2);
    ("Timestamp", RTs); ("Shares", RBE 8); ("Stock", RStr 8); ("CrossPrice", RBE 4); ("MatchNumber", RBE 8);
    ("CrossType", RChar)].
(** ProcessBrokenTradeMessage: itch_handler.cpp:525-541. *)
Definition p_broken_trade : parser :=
  mkParser 19 "BrokenTradeMessage" [("Type", RChar); ("StockLocate", RBE 2); ("TrackingNumber", RBE 2);
    ("Timestamp", RTs); ("MatchNumber", RBE 8)].
(** ProcessNOIIMessage: itch_handler.cpp:543-567. *)
Definition p_noii : parser :=
  mkParser 50 "NOIIMessage" [("Type", RChar); ("StockLocate", RBE 2); ("TrackingNumber", RBE 2); ("Timestamp",
    RTs); ("PairedShares", RBE 8); ("ImbalanceShares", RBE 8); ("ImbalanceDirection", RChar); ("Stock", RStr 8);
    ("FarPrice", RBE 4); ("NearPrice", RBE 4); ("CurrentReferencePrice", RBE 4); ("CrossType", RChar);
    ("PriceVariationIndicator", RChar)].
(** ProcessRPIIMessage: itch_handler.cpp:569-586. *)
Definition p_rpii : parser :=
  mkParser 20 "RPIIMessage" [("Type", RChar); ("StockLocate", RBE 2); ("TrackingNumber", RBE 2); ("Timestamp",
    RTs); ("Stock", RStr 8); ("InterestFlag", RChar)].
(** ProcessLULDAuctionCollarMessage: itch_handler.cpp:588-608. *)
Definition p_luldauction_collar : parser :=
  mkParser 35 "LULDAuctionCollarMessage" [("Type", RChar); ("StockLocate", RBE 2); ("TrackingNumber", RBE 2);
    ("Timestamp", RTs); ("Stock", RStr 8); ("AuctionCollarReferencePrice", RBE 4); ("UpperAuctionCollarPrice", RBE
    4); ("LowerAuctionCollarPrice", RBE 4); ("AuctionCollarExtension", RBE 4)].
Close Scope string_scope.

(** The switch of ProcessMessage: itch_handler.cpp:110-156. *)
Definition parser_of (t : Z) : option parser :=
  if t =? chr "S" then Some p_system_event else
  if t =? chr "R" then Some p_stock_directory else
  if t =? chr "H" then Some p_stock_trading_action else
  if t =? chr "Y" then Some p_reg_sho else
  if t =? chr "L" then Some p_market_participant_position else
  if t =? chr "V" then Some p_mwcbdecline else
  if t =? chr "W" then Some p_mwcbstatus else
  if t =? chr "K" then Some p_ipoquoting else
  if t =? chr "A" then Some p_add_order else
  if t =? chr "F" then Some p_add_order_mpid else
  if t =? chr "E" then Some p_order_executed else
  if t =? chr "C" then Some p_order_executed_with_price else
  if t =? chr "X" then Some p_order_cancel else
  if t =? chr "D" then Some p_order_delete else
  if t =? chr "U" then Some p_order_replace else
  if t =? chr "P" then Some p_trade else
  if t =? chr "Q" then Some p_cross_trade else
  if t =? chr "B" then Some p_broken_trade else
  if t =? chr "I" then Some p_noii else
  if t =? chr "N" then Some p_rpii else
  if t =? chr "J" then Some p_luldauction_collar else
  None.

(** One parser: the size test, the reads, and the callback (e.g. itch_handler.cpp:165-181). *)
Definition parse_with (bh : bool) (p : parser) (acc : list message -> bool) (buf : list Z) (log : list message)
  : res (bool * list message) :=
  if negb (length buf =? p_size p)%nat then Ok (false, log) else
  do fs <- reads bh (p_reads p) buf;
  let log := log ++ [mkMsg (p_struct p) fs] in
  Ok (acc log, log).
(** ProcessUnknownMessage: itch_handler.cpp:610-622. *)
Definition parse_unknown (acc : list message -> bool) (buf : list Z) (log : list message)
  : res (bool * list message) :=
  match buf with
  | [] => Ok (false, log)
  | t :: _ => let log := log ++ [mkMsg "UnknownMessage" [("Type"%string, VText [t])]] in Ok (acc log, log)
  end.
(** ProcessMessage: itch_handler.cpp:102-157.  [buf]: the [size] bytes of the message. *)
Definition process_message (bh : bool) (acc : list message -> bool) (buf : list Z) (log : list message)
  : res (bool * list message) :=
  match buf with
  | [] => Ok (false, log)
  | t :: _ =>
      match parser_of t with
      | Some p => parse_with bh p acc buf log
      | None => parse_unknown acc buf log
      end
  end.

(** ** The stream decoder: _size, _cache (itch_handler.h:442-443) and the callbacks made so far. *)
Record dec := mkDec { d_size : nat; d_cache : list Z; d_log : list message }.
(** ITCHHandler(): itch_handler.h:390; Reset(): itch_handler.cpp:159-163. *)
Definition reset (d : dec) : dec := mkDec 0 [] (d_log d).
Definition new_dec : dec := mkDec 0 [] [].

(** Process: itch_handler.cpp:16-100.  [data]: the bytes not consumed yet. *)
(** Lines 51-96, "Read a new message" with _size > 0.  [inl]: return; [inr]: next iteration. *)
Definition proc_body (bh : bool) (acc : list message -> bool) (data : list Z) (d : dec)
  : res ((bool * dec) + (list Z * dec)) :=
  let n := d_size d in
  let c := d_cache d in
  match c with
  | _ :: _ => (* 56-65: complete the cached message; the subtraction is on size_t *)
      let tail := if (n <? length c)%nat then length data else Nat.min (n - length c) (length data) in
      let c := c ++ take tail data in
      let data := drop tail data in
      if (length c <? n)%nat then Ok (inr (data, mkDec n c (d_log d))) else
      do m <- get_bytes n c;
      do '(ok, log) <- process_message bh acc m (d_log d);
      if (ok : bool) then Ok (inr (data, mkDec 0 [] log)) else Ok (inl (false, mkDec n c log))
  | [] =>
      if (length data <? n)%nat then (* 66-72 *) Ok (inr ([], mkDec n data (d_log d))) else
      do m <- get_bytes n data;
      do '(ok, log) <- process_message bh acc m (d_log d);
      if (ok : bool) then Ok (inr (drop n data, mkDec 0 [] log)) else Ok (inl (false, mkDec n [] log))
  end.
(** One iteration of the loop, for non-empty [data]. *)
Definition proc_iter (bh : bool) (acc : list message -> bool) (data : list Z) (d : dec)
  : res ((bool * dec) + (list Z * dec)) :=
  if (d_size d =? 0)%nat then
    let c := d_cache d in
    (* 28-32: collect the message size into the cache *)
    if ((length c =? 0)%nat && (length data <? 3)%nat) || (length c =? 1)%nat then
      match data with
      | [] => Undef
      | b :: data => Ok (inr (data, mkDec 0 (c ++ [b]) (d_log d)))
      end
    else
      (* 35-48: read a new message size from the buffer or from the cache *)
      do '(x, data, c) <- match c with
                          | [] => do x <- get_bytes 2 data; Ok (x, drop 2 data, [])
                          | _ => do x <- get_bytes 2 c; Ok (x, data, [])
                          end;
      let d := mkDec (Z.to_nat (be x)) c (d_log d) in
      if (d_size d =? 0)%nat then Ok (inr (data, d)) else proc_body bh acc data d
  else proc_body bh acc data d.
Fixpoint proc_loop (fuel : nat) (bh : bool) (acc : list message -> bool) (data : list Z) (d : dec)
  : res (bool * dec) :=
  match fuel with
  | O => Fuel
  | S f =>
      match data with
      | [] => Ok (true, d)
      | _ =>
          do r <- proc_iter bh acc data d;
          match r with
          | inl x => Ok x
          | inr (data, d) => proc_loop f bh acc data d
          end
      end
  end.
Definition process (bh : bool) (acc : list message -> bool) (buf : list Z) (d : dec) : res (bool * dec) :=
  proc_loop (2 * length buf + 2) bh acc buf d.
