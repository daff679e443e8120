(** * Spec15.v -- the documented commands of the console (the help text, examples/matching_engine.cpp:586-611). *)
From Coq Require Import Ascii String.
From stdpp Require Import strings.
From Verif Require Import Types Book Engine Manager Factory Console Spec.
Open Scope Z_scope. Open Scope list_scope.

Definition code (c : ascii) : Z := Z.of_nat (nat_of_ascii c).
(** A text of one or more decimal digits and its value. *)
Inductive numeral : string -> Z -> Prop :=
| numeral_one c d : 0 <= d <= 9 -> code c = 48 + d -> numeral (String c "") d
| numeral_more s n c d : numeral s n -> 0 <= d <= 9 -> code c = 48 + d -> numeral (s +:+ String c "") (10 * n + d).
(** Words separated by single blanks. *)
Fixpoint sentence (ws : list string) : string :=
  match ws with [] => "" | [w] => w | w :: ws => w +:+ " " +:+ sentence ws end.
(** The line consists of the words [ws] and numerals of the values [ns]. *)
Definition says (l : string) (ws : list string) (ns : list Z) : Prop :=
  exists fs, Forall2 numeral fs ns /\ l = sentence (ws ++ fs).
Definition side_word (sd : oside) : string := match sd with BUY => "buy" | SELL => "sell" end.
(** No line ends in the text. *)
Definition one_line (s : string) : Prop := forall k c, String.get k s = Some c -> code c <> 10 /\ code c <> 13.
(** The (up to eight) bytes of [s] are the first bytes of the symbol name [n]. *)
Definition carries (n : Z) (s : string) : Prop :=
  forall k c, (k < 8)%nat -> String.get k s = Some c -> (n / 256 ^ Z.of_nat k) mod 256 = code c.

(** The line [l], with the numbers [ns] in it, is the command for the call [a]. *)
Inductive enters : string -> op -> list Z -> Prop :=
| en_enable : enters "enable matching" EnableMatching []
| en_disable : enters "disable matching" DisableMatching []
| en_add_symbol l f i name n : numeral f i -> name <> ""%string -> one_line name -> carries n name -> l = sentence ["add"; "symbol"; f; name]%string -> enters l (AddSymbol (mkSymbol i n)) [i]
| en_delete_symbol l i : says l ["delete"; "symbol"]%string [i] -> enters l (DeleteSymbol i) [i]
| en_add_book l i : says l ["add"; "book"]%string [i] -> enters l (AddOrderBook (mkSymbol i 0)) [i]
| en_delete_book l i : says l ["delete"; "book"]%string [i] -> enters l (DeleteOrderBook i) [i]
| en_market l sd i s q : says l ["add"; "market"; side_word sd]%string [i; s; q] -> enters l (AddOrder (MarketOrder i s sd q MAX64)) [i; s; q]
| en_slippage l sd i s q sl : says l ["add"; "slippage"; "market"; side_word sd]%string [i; s; q; sl] -> enters l (AddOrder (MarketOrder i s sd q sl)) [i; s; q; sl]
| en_limit l sd i s p q : says l ["add"; "limit"; side_word sd]%string [i; s; p; q] -> enters l (AddOrder (LimitOrder i s sd p q GTC MAX64)) [i; s; p; q]
| en_ioc l sd i s p q : says l ["add"; "ioc"; "limit"; side_word sd]%string [i; s; p; q] -> enters l (AddOrder (LimitOrder i s sd p q IOC MAX64)) [i; s; p; q]
| en_fok l sd i s p q : says l ["add"; "fok"; "limit"; side_word sd]%string [i; s; p; q] -> enters l (AddOrder (LimitOrder i s sd p q FOK MAX64)) [i; s; p; q]
| en_aon l sd i s p q : says l ["add"; "aon"; "limit"; side_word sd]%string [i; s; p; q] -> enters l (AddOrder (LimitOrder i s sd p q AON MAX64)) [i; s; p; q]
| en_stop l sd i s st q : says l ["add"; "stop"; side_word sd]%string [i; s; st; q] -> enters l (AddOrder (StopOrder i s sd st q GTC MAX64)) [i; s; st; q]
| en_stop_limit l sd i s st p q : says l ["add"; "stop-limit"; side_word sd]%string [i; s; st; p; q] -> enters l (AddOrder (StopLimitOrder i s sd st p q GTC MAX64)) [i; s; st; p; q]
| en_trailing l sd i s st q d t : says l ["add"; "trailing"; "stop"; side_word sd]%string [i; s; st; q; d; t] -> enters l (AddOrder (TrailingStopOrder i s sd st q d t GTC MAX64)) [i; s; st; q; d; t]
| en_trailing_limit l sd i s st p q d t : says l ["add"; "trailing"; "stop-limit"; side_word sd]%string [i; s; st; p; q; d; t] -> enters l (AddOrder (TrailingStopLimitOrder i s sd st p q d t GTC MAX64)) [i; s; st; p; q; d; t]
| en_reduce l i q : says l ["reduce"; "order"]%string [i; q] -> enters l (ReduceOrder i q) [i; q]
| en_modify l i p q : says l ["modify"; "order"]%string [i; p; q] -> enters l (ModifyOrder i p q) [i; p; q]
| en_mitigate l i p q : says l ["mitigate"; "order"]%string [i; p; q] -> enters l (MitigateOrder i p q) [i; p; q]
| en_replace l i ni p q : says l ["replace"; "order"]%string [i; ni; p; q] -> enters l (ReplaceOrder i ni p q) [i; ni; p; q]
| en_delete l i : says l ["delete"; "order"]%string [i] -> enters l (DeleteOrder i) [i].
(** All numbers of a command are below 2^31. *)
Definition moderate (ns : list Z) : Prop := Forall (fun n => n < 2 ^ 31) ns.
(** A line that is no command of the market. *)
Definition aside (l : string) : Prop := l = "help"%string \/ l = ""%string \/ exists r, l = ("#" +:+ r)%string.
Definition farewell (l : string) : Prop := l = "exit"%string \/ l = "quit"%string.

(** A session: for every line up to the farewell or the end, nothing for an aside, a complaint for a line that is no command, and
    for a command the call, its code and what it notified. *)
Inductive sits : state -> list string -> list shown -> list event -> state -> Prop :=
| sits_end s : sits s [] [] [] s
| sits_bye s l ls : farewell l -> sits s (l :: ls) [] [] s
| sits_aside s l ls o evs s' : aside l -> sits s ls o evs s' -> sits s (l :: ls) (Nothing :: o) evs s'
| sits_other s l ls o evs s' : ~ aside l -> ~ farewell l -> (forall a ns, ~ enters l a ns) -> sits s ls o evs s' -> sits s (l :: ls) (Complaint :: o) evs s'
| sits_call s l ls a ns s1 er evs o evs' s' : enters l a ns -> call s a s1 er evs -> sits s1 ls o evs' s' ->
    sits s (l :: ls) (Answer a er :: o) (evs ++ evs') s'.
(** A book is deleted only when it has no live order. *)
Definition tidy_from (s0 : state) (ls : list string) : Prop :=
  forall ls1 l ls2 i ns o evs s, ls = ls1 ++ l :: ls2 -> (forall l', In l' ls1 -> ~ farewell l') -> enters l (DeleteOrderBook i) ns -> sits s0 ls1 o evs s ->
    forall j r, get_order j s = Some r -> o_sym r <> i.
Definition tidy : list string -> Prop := tidy_from init.
(** The calls of a session and their codes. *)
Definition calls_of (o : list shown) : list op := omap (fun x => match x with Answer a _ => Some a | _ => None end) o.
Definition codes_of (o : list shown) : list err := omap (fun x => match x with Answer _ er => Some er | _ => None end) o.
(** The same call, up to the bytes of a new symbol's name. *)
Definition same_call (a b : op) : Prop := a = b \/ exists i n m, a = AddSymbol (mkSymbol i n) /\ b = AddSymbol (mkSymbol i m).
(** The text of the lines. *)
Definition newline : string := String "010" "".
Definition no_newline (l : string) : Prop := forall k c, String.get k l = Some c -> c <> "010"%char.
Fixpoint unlines (ls : list string) : string := match ls with [] => "" | l :: ls => (l +:+ newline +:+ unlines ls)%string end.
(** No line of the text begins with "add aon limit". *)
Definition no_aon_line (ls : list string) : Prop := forall l, In l ls -> String.prefix "add aon limit" l = false.
