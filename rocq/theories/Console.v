(** * Console.v -- the text console of examples/matching_engine.cpp: a program that reads commands, one per line, and calls the
    market manager.
    Not modelled: what the program prints about the notifications and the help text, and the limits of memory.
    A regular expression is a list of tokens: the expressions of the program are anchored at both ends and a run of digits is
    always followed by a blank or the end, so the longest run of digits is the only one that can match. *)
From Coq Require Import Ascii String.
From stdpp Require Import strings.
From Verif Require Import Types Book Engine Manager Factory.
Open Scope Z_scope. Open Scope list_scope.

(** The tokens of the regular expressions: a literal text, [(buy|sell)], [(\d+)], [(.+)] at the end. *)
Inductive tok := Lit (s : string) | SideTok | Num | Any.
(** A captured group. *)
Inductive cap := CSide (sd : oside) | CNum (s : string) | CAny (s : string).

Definition digitb (c : ascii) : bool := let n := Z.of_nat (nat_of_ascii c) in (48 <=? n) && (n <=? 57).
(** [.] matches everything but the line terminators of ECMAScript (a line has no LF). *)
Definition dotb (c : ascii) : bool := let n := Z.of_nat (nat_of_ascii c) in negb (n =? 10) && negb (n =? 13).
Fixpoint all_chars (f : ascii -> bool) (s : string) : bool :=
  match s with EmptyString => true | String c s => f c && all_chars f s end.
(** The text behind the prefix [p]. *)
Fixpoint strip (p s : string) : option string :=
  match p, s with
  | EmptyString, _ => Some s
  | String a p, String b s => if Ascii.eqb a b then strip p s else None
  | String _ _, EmptyString => None
  end.
(** The longest run of digits and the rest. *)
Fixpoint digits (s : string) : string * string :=
  match s with
  | String c r => if digitb c then let '(d, r') := digits r in (String c d, r') else (EmptyString, s)
  | EmptyString => (EmptyString, EmptyString)
  end.
(** std::regex_search(command, match, pattern) with ^...$: examples/matching_engine.cpp:54-57, 79-82, 98-101 etc. *)
Fixpoint pmatch (ts : list tok) (s : string) : option (list cap) :=
  match ts with
  | [] => match s with EmptyString => Some [] | _ => None end
  | Lit p :: ts => match strip p s with Some r => pmatch ts r | None => None end
  | SideTok :: ts =>
      match strip "buy" s with
      | Some r => match pmatch ts r with Some l => Some (CSide BUY :: l) | None => None end
      | None =>
          match strip "sell" s with
          | Some r => match pmatch ts r with Some l => Some (CSide SELL :: l) | None => None end
          | None => None
          end
      end
  | Num :: ts =>
      match digits s with
      | (EmptyString, _) => None
      | (d, r) => match pmatch ts r with Some l => Some (CNum d :: l) | None => None end
      end
  | Any :: ts => match s with EmptyString => None | _ => if all_chars dotb s then Some [CAny s] else None end
  end.
(** std::stoi of a run of digits: throws std::out_of_range above 2^31-1 (None). *)
Fixpoint stoi_from (acc : Z) (s : string) : Z :=
  match s with EmptyString => acc | String c s => stoi_from (10 * acc + (Z.of_nat (nat_of_ascii c) - 48)) s end.
Definition stoi (s : string) : option Z := let n := stoi_from 0 s in if n <? 2 ^ 31 then Some n else None.
(** The conversions of all captured numbers; None: one of them throws. *)
Fixpoint stois (l : list cap) : option (list Z) :=
  match l with
  | [] => Some []
  | CNum s :: l => match stoi s, stois l with Some n, Some ns => Some (n :: ns) | _, _ => None end
  | _ :: l => stois l
  end.
(** std::string::find(p) != npos. *)
Fixpoint contains (p s : string) : bool :=
  match strip p s with
  | Some _ => true
  | None => match s with String _ s => contains p s | EmptyString => false end
  end.

(** What a line makes the program do: nothing (help, comment, empty line), end, one call, "Invalid ... command", "Unknown command",
    or an exception nobody catches. *)
Inductive reply := Quiet | Quit | Calls (a : op) | Invalid | Unknown | Thrown.

Fixpoint nums (n : nat) : list tok := match n with O => [] | S n => Lit " " :: Num :: nums n end.
(** The commands without a side: match, convert, call. *)
Definition plain_cmd (name : string) (n : nat) (f : list Z -> reply) (l : string) : reply :=
  match pmatch (Lit name :: nums n) l with
  | Some caps => match stois caps with Some ns => f ns | None => Thrown end
  | None => Invalid
  end.
(** The commands with a side. *)
Definition order_cmd (name : string) (n : nat) (f : oside -> list Z -> reply) (l : string) : reply :=
  match pmatch (Lit name :: Lit " " :: SideTok :: nums n) l with
  | Some (CSide sd :: caps) => match stois caps with Some ns => f sd ns | None => Thrown end
  | _ => Invalid
  end.

(** char name[8] is not initialised: [junk] are the eight bytes that were in it (61-63). A name is a number, first byte lowest. *)
Fixpoint name_from (n : nat) (s junk : string) : Z :=
  match n with
  | O => 0
  | S n =>
      let c := match s with String c _ => c | EmptyString => match junk with String c _ => c | EmptyString => Ascii.zero end end in
      Z.of_nat (nat_of_ascii c) + 256 * name_from n (match s with String _ s => s | EmptyString => EmptyString end) (match junk with String _ j => j | EmptyString => EmptyString end)
  end.
(** AddSymbol: 52-75. *)
Definition cmd_add_symbol (junk l : string) : reply :=
  match pmatch [Lit "add symbol "; Num; Lit " "; Any] l with
  | Some [CNum i; CAny s] => match stoi i with Some i => Calls (AddSymbol (mkSymbol i (name_from 8 s junk))) | None => Thrown end
  | _ => Invalid
  end.
(** DeleteSymbol: 77-94. *)
Definition cmd_delete_symbol : string -> reply := plain_cmd "delete symbol" 1 (fun ns => match ns with [i] => Calls (DeleteSymbol i) | _ => Invalid end).
(** AddOrderBook: 96-118 (the name is zeroed). *)
Definition cmd_add_book : string -> reply := plain_cmd "add book" 1 (fun ns => match ns with [i] => Calls (AddOrderBook (mkSymbol i 0)) | _ => Invalid end).
(** DeleteOrderBook: 120-137. *)
Definition cmd_delete_book : string -> reply := plain_cmd "delete book" 1 (fun ns => match ns with [i] => Calls (DeleteOrderBook i) | _ => Invalid end).
(** AddMarketOrder: 139-169. *)
Definition cmd_add_market : string -> reply := order_cmd "add market" 3 (fun sd ns => match ns with [i; s; q] => Calls (AddOrder (MarketOrder i s sd q MAX64)) | _ => Invalid end).
(** AddSlippageMarketOrder: 171-202. *)
Definition cmd_add_slippage : string -> reply := order_cmd "add slippage market" 4 (fun sd ns => match ns with [i; s; q; sl] => Calls (AddOrder (MarketOrder i s sd q sl)) | _ => Invalid end).
(** AddLimitOrder, AddIOCLimitOrder, AddFOKLimitOrder, AddAONLimitOrder: 204-334. *)
Definition cmd_limit (name : string) (tif : otif) : string -> reply :=
  order_cmd name 4 (fun sd ns => match ns with [i; s; p; q] => Calls (AddOrder (LimitOrder i s sd p q tif MAX64)) | _ => Invalid end).
Definition cmd_add_limit : string -> reply := cmd_limit "add limit" GTC.
Definition cmd_add_ioc : string -> reply := cmd_limit "add ioc limit" IOC.
Definition cmd_add_fok : string -> reply := cmd_limit "add fok limit" FOK.
Definition cmd_add_aon : string -> reply := cmd_limit "add aon limit" AON.
(** AddStopOrder: 336-367. *)
Definition cmd_add_stop : string -> reply := order_cmd "add stop" 4 (fun sd ns => match ns with [i; s; st; q] => Calls (AddOrder (StopOrder i s sd st q GTC MAX64)) | _ => Invalid end).
(** AddStopLimitOrder: 369-401. *)
Definition cmd_add_stop_limit : string -> reply := order_cmd "add stop-limit" 5 (fun sd ns => match ns with [i; s; st; p; q] => Calls (AddOrder (StopLimitOrder i s sd st p q GTC MAX64)) | _ => Invalid end).
(** AddTrailingStopOrder: 403-436. *)
Definition cmd_add_trailing : string -> reply := order_cmd "add trailing stop" 6 (fun sd ns => match ns with [i; s; st; q; d; t] => Calls (AddOrder (TrailingStopOrder i s sd st q d t GTC MAX64)) | _ => Invalid end).
(** AddTrailingStopLimitOrder: 438-472. *)
Definition cmd_add_trailing_limit : string -> reply := order_cmd "add trailing stop-limit" 7 (fun sd ns => match ns with [i; s; st; p; q; d; t] => Calls (AddOrder (TrailingStopLimitOrder i s sd st p q d t GTC MAX64)) | _ => Invalid end).
(** ReduceOrder .. DeleteOrder: 474-575. *)
Definition cmd_reduce : string -> reply := plain_cmd "reduce order" 2 (fun ns => match ns with [i; q] => Calls (ReduceOrder i q) | _ => Invalid end).
Definition cmd_modify : string -> reply := plain_cmd "modify order" 3 (fun ns => match ns with [i; p; q] => Calls (ModifyOrder i p q) | _ => Invalid end).
Definition cmd_mitigate : string -> reply := plain_cmd "mitigate order" 3 (fun ns => match ns with [i; p; q] => Calls (MitigateOrder i p q) | _ => Invalid end).
Definition cmd_replace : string -> reply := plain_cmd "replace order" 4 (fun ns => match ns with [i; ni; p; q] => Calls (ReplaceOrder i ni p q) | _ => Invalid end).
Definition cmd_delete : string -> reply := plain_cmd "delete order" 1 (fun ns => match ns with [i] => Calls (DeleteOrder i) | _ => Invalid end).

(** The chain of tests of main(): 584-657. *)
Definition dispatch (junk : string) : list (string * (string -> reply)) :=
  [("add symbol", cmd_add_symbol junk); ("delete symbol", cmd_delete_symbol); ("add book", cmd_add_book); ("delete book", cmd_delete_book);
   ("add market", cmd_add_market); ("add slippage market", cmd_add_slippage); ("add limit", cmd_add_limit); ("add ioc limit", cmd_add_ioc);
   ("add fok limit", cmd_add_fok); ("add aon limit", cmd_add_aon); ("add stop-limit", cmd_add_stop_limit); ("add stop", cmd_add_stop);
   ("add trailing stop-limit", cmd_add_trailing_limit); ("add trailing stop", cmd_add_trailing); ("reduce order", cmd_reduce);
   ("modify order", cmd_modify); ("mitigate order", cmd_mitigate); ("replace order", cmd_replace); ("delete order", cmd_delete)]%string.
Fixpoint first_cmd (cs : list (string * (string -> reply))) (l : string) : reply :=
  match cs with
  | [] => Unknown
  | (k, f) :: cs => if contains k l then f l else first_cmd cs l
  end.
Definition read_line (junk l : string) : reply :=
  if String.eqb l "help" then Quiet
  else if String.eqb l "exit" || String.eqb l "quit" then Quit
  else if (match strip "#" l with Some _ => true | None => false end) || String.eqb l "" then Quiet
  else if String.eqb l "enable matching" then Calls EnableMatching
  else if String.eqb l "disable matching" then Calls DisableMatching
  else first_cmd (dispatch junk) l.

(** main(): 577-661. The program ends at the end of the input or at exit/quit, or by an uncaught exception. For every line read
    what the line did, with the code of the call ("Failed ... command: code" unless OK). *)
Inductive ending := Ended | Crashed.
Inductive shown := Nothing | Answer (a : op) (er : err) | Complaint.
Fixpoint session (junk : nat -> string) (ls : list string) (s : state) : res (list shown * ending * state) :=
  match ls with
  | [] => Ok ([], Ended, s)
  | l :: ls =>
      match read_line (junk O) l with
      | Quit => Ok ([], Ended, s)
      | Thrown => Ok ([], Crashed, s)
      | Quiet => do '(o, e, s) <- session (fun n => junk (S n)) ls s; Ok (Nothing :: o, e, s)
      | Invalid | Unknown => do '(o, e, s) <- session (fun n => junk (S n)) ls s; Ok (Complaint :: o, e, s)
      | Calls a => do '(s, er) <- step s a; do '(o, e, s) <- session (fun n => junk (S n)) ls s; Ok (Answer a er :: o, e, s)
      end
  end.
(** getline on the input: the lines, without their LF; a last line without LF counts if it is not empty. *)
Fixpoint text_lines (s : string) : list string :=
  match s with
  | EmptyString => []
  | String c s =>
      if Ascii.eqb c "010" then EmptyString :: text_lines s
      else match text_lines s with
           | [] => [String c EmptyString]
           | l :: ls => String c l :: ls
           end
  end.
