(** * Example.v -- model of examples/market_manager.cpp.

    The program reads standard input in blocks (StdInput::Read: any cutting, at most 8192 bytes; the
    model takes the list of blocks), hands each to the ITCH decoder and looks at nothing the decoder
    returns (lines 119-126).  Its MyITCHHandler (52-110) makes the same calls as that of
    performance/market_manager.cpp without counting: [Drive.handler_calls].  Its MyMarketHandler (19-50)
    writes the line of each notification: [Print.stdout].  Every onMessage returns true, and its calls
    are made while the message is handled, so that the calls of a stream are those of its messages one
    after another; the model makes them after decoding, which no one can tell as the decoder does not
    look at the manager.  MarketManager (114): the state [init]; matching is never enabled. *)
From Verif Require Import Types Manager Itch Drive ItchPrint.
Open Scope list_scope.

(** main: examples/market_manager.cpp:112-129 *)
Definition market_example (bh : bool) (blocks : list (list Z)) : res state :=
  do d <- run_blocks bh blocks new_dec; run init (flat_map handler_calls (d_log d)).
