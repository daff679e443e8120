(** * PropsSettle.v -- what calls leave behind when matching is enabled: C01, C18, C36. *)
From Coq Require Import ZifyBool.
From stdpp Require Import fin_maps relations.
From Verif Require Import Types Book Engine Manager Factory LevelFacts BookInv EngInv EngPrim Steps StepsOk Refine3 Refine4 Api StateInv Micro Reach Calls Settle Witness PropsState Spec Spec2.

Lemma call_result s a s' er evs : reach s -> op_ok s a -> call s a s' er evs -> inv s /\ result s a s' er /\ inv s'.
Proof.
  intros Hr Hop [Hst Hlog]. pose proof (reach_inv _ Hr) as Hinv. split; [done|].
  pose proof (step_result _ _ _ _ Hinv Hop Hst) as Hres. split; [done|].
  destruct (step_ok s a Hinv Hop) as (s1 & er1 & Hst1 & _ & Hi1). congruence.
Qed.
Lemma call_outcome s a s' er evs : reach s -> op_ok s a -> order_call a = true -> call s a s' er evs ->
  inv s /\ outcome s a s' er /\ inv s'.
Proof.
  intros Hr Hop Ho Hc. destruct (call_result _ _ _ _ _ Hr Hop Hc) as (Hi & Hres & Hi'). split; [done|]. split; [|done].
  inversion Hres; subst; done.
Qed.
Lemma call_symbol_target s a : inv s -> call_symbol s a = target s a.
Proof. intros Hi. destruct a; cbn; try done; by rewrite get_order_inv. Qed.

(** ** C01
    Books are never left crossed once matching is enabled, in histories without All-Or-None
    orders. *)
Theorem C01_uncrossed_partial s : reach_with adds_no_aon s -> st_match s = true -> all_uncrossed s.
Proof.
  intros Hr. induction Hr as [|s a s' er Hr IH Hop HP Hst]; [done|]. intros Hmt.
  pose proof (reach_inv _ (reach_with_reach _ _ Hr)) as Hinv.
  eapply step_uncrossed; try done; [|by left].
  pose proof (reach_with_q _ adds_no_aon s closed_tif aon_keeps Hr) as H. exact H.
Qed.
Print Assumptions C01_uncrossed_partial.
(** Match() uncrosses all books, whatever they contained, if no live order is All-Or-None. *)
Theorem C01_match_partial s s' evs : reach s -> no_live_aon s -> call s Match s' OK evs -> all_uncrossed s'.
Proof.
  intros Hr Hna [Hst _]. pose proof (reach_inv _ Hr) as Hinv. intros i b Hb.
  assert (Hna' : no_live_aon s').
  { destruct (call_exists s Match Hinv I) as (s1 & er1 & evs1 & Hc). pose proof Hc as [Hst1 _]. rewrite Hst in Hst1. injection Hst1 as <- <-.
    destruct (call_q (fun o => o_tif o <> AON) s Match s' OK evs1 closed_tif I Hinv I Hc Hna) as [H _]. exact H. }
  cbn [step] in Hst. destruct (match_all s) as [s1| |] eqn:Em; [|done|done]. cbn in Hst. injection Hst as ->.
  destruct (match_all_settled s s' Hinv Em) as [Hi' Hs].
  destruct (settled_xset _ _ (Hs i) b Hb) as [?|(j & o & X1 & _ & _ & X4)]; [done|]. by destruct (Hna' j o X1).
Qed.
Print Assumptions C01_match_partial.
(** With All-Or-None orders: after a successful order call the call's book is uncrossed, or an
    All-Or-None limit order of that symbol is live; other books are as before. *)
Theorem C01_aon_partial s a s' i evs : reach s -> op_ok s a -> order_call a = true -> st_match s = true ->
  call s a s' OK evs -> call_symbol s a = Some i ->
  (forall j, j <> i -> get_book j s' = get_book j s) /\
  exists b, get_book i s' = Some b /\
    (uncrossed b \/ exists j o, get_order j s' = Some o /\ o_sym o = i /\ o_type o = LIMIT /\ o_tif o = AON).
Proof.
  intros Hr Hop Hoc Hmt Hc Hsy. destruct (call_outcome _ _ _ _ _ Hr Hop Hoc Hc) as (Hinv & Ho & Hinv').
  rewrite (call_symbol_target s a Hinv) in Hsy. destruct Hc as [_ Hlog].
  destruct (outcome_end s a s' OK evs Hinv Ho eq_refl Hlog) as (sid & b & e2 & Hb & Htg & -> & He2 & _ & Hend & Hfr).
  rewrite Hsy in Htg. injection Htg as <-. split.
  - intros j Hj. rewrite (get_book_put _ _ _ _ _ Hb). by rewrite decide_False.
  - exists (reset_matching (e_bk e2)). split; [rewrite (get_book_put _ _ _ _ _ Hb); by rewrite decide_True|].
    destruct (Hend Hmt) as [(j & x & X1 & X2 & X3 & X4 & X5)|[X1 X2]].
    + right. exists j, x. rewrite get_order_inv by done. split; [done|]. split; [done|]. split; [done|]. unfold is_aon in X4. by apply bool_decide_eq_true in X4.
    + left. apply crossed_uncrossed in X1. exact X1.
Qed.
Print Assumptions C01_aon_partial.
(** The unrestricted claim is false: Match() leaves a crossed book behind. *)
Theorem C01_uncrossed_refuted : exists s b, reach s /\ st_match s = true /\ get_book 0 s = Some b /\
  s_best (b_bids b) = Some 100 /\ s_best (b_asks b) = Some 100.
Proof.
  exists (hist (setup ++ [LIM BUY 1 100 30 GTC; LIM BUY 2 100 10 AON; SL 3 100 10; SL 4 100 10; EnableMatching])).
  eexists. split; [apply hist_reach|]. vm_compute. done.
Qed.
Print Assumptions C01_uncrossed_refuted.
Definition ex_cross : list op := setup ++ [BL 1 100 10; BL 2 101 20; SL 3 99 15; SL 4 100 5;
  AddOrder (StopOrder 5 0 SELL 98 3 GTC MAX64); EnableMatching; BL 6 104 3; SL 7 103 1].
Example C01_example : reach_with adds_no_aon (hist ex_cross) /\ st_match (hist ex_cross) = true /\
  s_best (b_bids (the_book (hist ex_cross))) = Some 104 /\ (length (st_log (hist ex_cross)) > 40)%nat.
Proof.
  split. { apply hist_reach_with. repeat (constructor; [intros ? [= <-]; done || (intros ? [=])|]). constructor. }
  vm_compute. split; [done|]. split; [done|]. lia.
Qed.

(** ** C18
    After a successful order call with matching enabled, a stop order that could trade is left
    behind only if the call itself reported an execution of an incoming order on the other side
    of the stop price.  Missing: percentage trailing stops; with All-Or-None orders; the
    unrestricted claim is false (below). *)
Theorem C18_no_triggered_stop_partial s a s' i evs b b' : reach s -> op_ok s a -> order_call a = true -> st_match s = true ->
  call s a s' OK evs -> call_symbol s a = Some i -> get_book i s = Some b -> fresh_prices b -> no_live_aon s' ->
  get_book i s' = Some b' ->
  forall j o, get_order j s' = Some o -> o_sym o = i -> stop_kind (o_type o) = true -> ~ percent_trailing o ->
  match o_side o with
  | BUY => (exists ask, s_best (b_asks b') = Some ask /\ ask < o_stop o) \/
           (exists x p q, (x, p, q) ∈ execs evs /\ o_side x = SELL /\ p < o_stop o)
  | SELL => (exists bid, s_best (b_bids b') = Some bid /\ o_stop o < bid) \/
            (exists x p q, (x, p, q) ∈ execs evs /\ o_side x = BUY /\ o_stop o < p)
  end.
Proof.
  intros Hr Hop Hoc Hmt Hc Hsy Hb [Hf1 Hf2] Hna Hb' j o Ho Hos Hk Hpt.
  destruct (call_outcome _ _ _ _ _ Hr Hop Hoc Hc) as (Hinv & Hout & Hinv').
  rewrite (call_symbol_target s a Hinv) in Hsy. destruct Hc as [_ Hlog].
  destruct (outcome_end s a s' OK evs Hinv Hout eq_refl Hlog) as (sid & b0 & e2 & Hb0 & Htg & -> & He2 & Hmp & Hend & Hfr).
  rewrite Hsy in Htg. injection Htg as <-. assert (b0 = b) as -> by congruence.
  rewrite (get_book_put _ _ _ _ _ Hb), decide_True in Hb' by done. injection Hb' as <-.
  rewrite get_order_inv in Ho by done. cbn in Ho.
  destruct (Hend Hmt) as [(j' & x & X1 & X2 & X3 & X4 & X5)|[X1 X2]].
  { exfalso. apply (Hna j' x X1). unfold is_aon in X4. by apply bool_decide_eq_true in X4. }
  pose proof (mo_live _ (proj1 He2) _ _ Ho) as Hl. pose proof (lo_stop _ _ Hl) as Hrange. unfold u64_range in Hrange.
  assert (Hst : stop_type o = true). { unfold stop_type, is_limit, is_market. destruct (o_type o); done. }
  assert (Htr : is_trailing o = true -> 0 < o_tdist o).
  { intros Hit. pose proof (lo_trail _ _ Hl) as Ht. unfold trailing_ok in Ht. unfold percent_trailing in Hpt.
    unfold is_trailing, is_trailing_stop, is_trailing_stop_limit in Hit.
    destruct (o_type o); try done; destruct Ht as [?|?]; auto; try lia; exfalso; apply Hpt; split; auto; lia. }
  specialize (X2 j o Ho Hos Hst Htr). destruct Hmp as [M1 M2]. rewrite Hf1 in M1. rewrite Hf2 in M2.
  destruct (o_side o) eqn:Esd.
  - assert (Hlt : market_ask (e_bk e2) < o_stop o).
    { clear -X2 Esd Hst. unfold arb, okind, act_market in X2. unfold stop_type, is_limit, is_market in Hst. rewrite Esd in *. destruct (o_type o); cbn in *; try done; lia. }
    unfold market_ask in Hlt. unfold best_ask_price in Hlt.
    destruct (Z.lt_ge_cases (b_match_ask (e_bk e2)) (o_stop o)) as [Hm|Hm].
    + right. destruct M2 as [E|[E|(x & q & Hx & Hs)]]; [lia|lia|]. exists x, (b_match_ask (e_bk e2)), q. auto.
    + left. destruct (s_best (b_asks (e_bk e2))) as [ask|] eqn:E; [|lia]. exists ask. split; [exact E|lia].
  - assert (Hlt : o_stop o < market_bid (e_bk e2)).
    { clear -X2 Esd Hst. unfold arb, okind, act_market in X2. unfold stop_type, is_limit, is_market in Hst. rewrite Esd in *. destruct (o_type o); cbn in *; try done; lia. }
    unfold market_bid in Hlt. unfold best_bid_price in Hlt.
    destruct (Z.lt_ge_cases (o_stop o) (b_match_bid (e_bk e2))) as [Hm|Hm].
    + right. destruct M1 as [E|[E|(x & q & Hx & Hs)]]; [lia|lia|]. exists x, (b_match_bid (e_bk e2)), q. auto.
    + left. destruct (s_best (b_bids (e_bk e2))) as [bid|] eqn:E; [|lia]. exists bid. split; [exact E|lia].
Qed.
Print Assumptions C18_no_triggered_stop_partial.
Corollary C18_quiet_calls_partial s a s' i evs b b' : reach s -> op_ok s a -> order_call a = true -> st_match s = true ->
  call s a s' OK evs -> call_symbol s a = Some i -> get_book i s = Some b -> fresh_prices b -> no_live_aon s' ->
  get_book i s' = Some b' -> execs evs = [] ->
  forall j o, get_order j s' = Some o -> o_sym o = i -> stop_kind (o_type o) = true -> ~ percent_trailing o ->
  match o_side o with
  | BUY => exists ask, s_best (b_asks b') = Some ask /\ ask < o_stop o
  | SELL => exists bid, s_best (b_bids b') = Some bid /\ o_stop o < bid
  end.
Proof.
  intros Hr Hop Hoc Hmt Hc Hsy Hb Hf Hna Hb' Hex j o Ho Hos Hk Hpt.
  pose proof (C18_no_triggered_stop_partial s a s' i evs b b' Hr Hop Hoc Hmt Hc Hsy Hb Hf Hna Hb' j o Ho Hos Hk Hpt) as H.
  rewrite Hex in H. destruct (o_side o); (destruct H as [H|(x & p & q & Hin & _)]; [done|by apply elem_of_nil in Hin]).
Qed.
Print Assumptions C18_quiet_calls_partial.
(** False in general: moving the best ask into the bids leaves buy stop 5 (stop price 150) although
    the best ask is now 200. *)
Theorem C18_no_triggered_stop_refuted : exists s a s' evs b' o, reach s /\ op_ok s a /\ st_match s = true /\ call s a s' OK evs /\
  no_live_aon s' /\ get_book 0 s' = Some b' /\ s_best (b_asks b') = Some 200 /\
  get_order 5 s' = Some o /\ o_type o = STOP /\ o_side o = BUY /\ o_stop o = 150.
Proof.
  pose (ops := setup ++ [EnableMatching; SL 1 100 5; SL 2 200 5; BL 3 90 5; AddOrder (StopOrder 5 0 BUY 150 3 GTC MAX64)]).
  exists (hist ops), (ModifyOrder 1 90 5), (after (hist ops) (ModifyOrder 1 90 5)). eexists _, _, _.
  split; [apply hist_reach|]. split; [by apply op_okb_ok|]. split; [done|].
  split. { exact (hist_call ops (ModifyOrder 1 90 5) eq_refl). }
  split. { intros i o Hi. apply elem_of_map_to_list in Hi.
    assert (H : forallb (fun x => negb (bool_decide (o_tif (snd x) = AON))) (map_to_list (st_ords (after (hist ops) (ModifyOrder 1 90 5)))) = true) by (vm_compute; reflexivity).
    rewrite forallb_forall in H. apply elem_of_list_In in Hi. specialize (H _ Hi). cbn in H. by apply negb_true_iff, bool_decide_eq_false in H. }
  vm_compute. done.
Qed.
Print Assumptions C18_no_triggered_stop_refuted.
Definition ex_stop : list op := setup ++ [EnableMatching; BL 1 100 5; SL 2 200 5; AddOrder (StopOrder 3 0 BUY 250 3 GTC MAX64);
   AddOrder (StopLimitOrder 4 0 SELL 90 85 3 GTC MAX64); AddOrder (TrailingStopOrder 6 0 BUY 1000 4 30 10 GTC MAX64)].
Example C18_example : let s := hist ex_stop in reach s /\ st_match s = true /\ fresh_prices (the_book s) /\ call_symbol s (BL 9 120 5) = Some 0 /\
  ret s (BL 9 120 5) = OK /\ execs (news s (BL 9 120 5)) = [] /\
  o_stop <$> get_order 3 (after s (BL 9 120 5)) = Some 250 /\ o_stop <$> get_order 6 (after s (BL 9 120 5)) <> None.
Proof. split; [apply hist_reach|]. vm_compute. done. Qed.

(** ** C36 *)
Theorem C36_reset_partial s a s' er evs : reach s -> op_ok s a -> call s a s' er evs ->
  (forall i b, get_book i s = Some b -> fresh_prices b) -> a <> Match -> a <> EnableMatching -> er <> ORDER_DUPLICATE ->
  forall i b, get_book i s' = Some b -> fresh_prices b.
Proof.
  intros Hr Hop Hc Hf Hnm Hne Hnd. destruct (call_result _ _ _ _ _ Hr Hop Hc) as (Hinv & Hres & Hinv').
  assert (Hout : forall s a s' er, inv s -> outcome s a s' er -> er <> ORDER_DUPLICATE ->
    (forall i b, get_book i s = Some b -> fresh_prices b) -> forall i b, get_book i s' = Some b -> fresh_prices b).
  { clear. intros s a s' er Hinv Ho Hnd Hf i b' Hb'. inversion Ho as [|sid b c e' ? Hb Htg Hhd Hc Hfr Hend]; subst; [by eapply Hf|].
    rewrite (get_book_put _ _ _ _ _ Hb) in Hb'. destruct (decide (sid = i)) as [<-|]; [|by eapply Hf].
    injection Hb' as <-. inversion Hend; subst; done. }
  inversion Hres as [? ? ? Hord Ho|i o ? H1 H2 Ho|i o s1 ? ? Ho1 Hi1 Hop1 Ho2|? Hm|? Hm| |sy v Hg Hv|sy v Hg Hi Hv|i Hg|i sy v Hg Hv|sy Hg|sy v Hg Hg' Hv|sy reg v Hg Hg' Hv|i Hg|i b v Hg Hv]; subst; try done.
  - exact (Hout _ _ _ _ Hinv Ho Hnd Hf).
  - eapply Hout; [exact Hi1|exact Ho2|done|]. eapply (Hout s _ s1 OK); [done|exact Ho1|done|done].
  - intros i b Hb. unfold get_book in Hb. cbn in Hb. rewrite Hv in Hb. by eapply Hf.
  - intros i b Hb. unfold get_book in Hb. cbn in Hb. rewrite Hv in Hb. destruct (decide _); [|by eapply Hf]. by injection Hb as <-.
  - intros j b' Hb. unfold get_book in Hb. cbn in Hb. rewrite Hv in Hb. destruct (decide _); [done|by eapply Hf].
Qed.
Print Assumptions C36_reset_partial.
(** A successful order call always resets its book. *)
Theorem C36_order_calls_reset s a s' i evs : reach s -> op_ok s a -> order_call a = true -> call s a s' OK evs -> call_symbol s a = Some i ->
  exists b, get_book i s' = Some b /\ fresh_prices b.
Proof.
  intros Hr Hop Hoc Hc Hsy. destruct (call_outcome _ _ _ _ _ Hr Hop Hoc Hc) as (Hinv & Hout & Hinv').
  rewrite (call_symbol_target s a Hinv) in Hsy. destruct Hc as [_ Hlog].
  destruct (outcome_end s a s' OK evs Hinv Hout eq_refl Hlog) as (sid & b & e2 & Hb & Htg & -> & He2 & _ & _ & _).
  rewrite Hsy in Htg. injection Htg as <-. eexists. split; [rewrite (get_book_put _ _ _ _ _ Hb); by rewrite decide_True|]. done.
Qed.
Print Assumptions C36_order_calls_reset.
(** False for EnableMatching()/Match(): two states with the same orders and levels behave differently
    on the same call, because the first one remembers an execution made by EnableMatching(). *)
Theorem C36_enable_refuted : exists s1 s2 a, reach s1 /\ reach s2 /\ st_match s1 = st_match s2 /\ st_ords s1 = st_ords s2 /\
  (forall k, get_side k (the_book s1) = get_side k (the_book s2)) /\ fresh_prices (the_book s2) /\ ~ fresh_prices (the_book s1) /\
  op_ok s1 a /\ op_ok s2 a /\
  o_stop <$> get_order 5 (after s1 a) = Some 250 /\ get_order 5 (after s2 a) = None.
Proof.
  pose (ops := setup ++ [BL 1 100 10; SL 2 300 5; AddOrder (StopOrder 3 0 SELL 120 3 GTC MAX64); EnableMatching]).
  exists (hist ops), (hist (ops ++ [BL 9 50 1; DeleteOrder 9])), (AddOrder (StopOrder 5 0 BUY 250 3 GTC MAX64)).
  split; [apply hist_reach|]. split; [apply hist_reach|]. split; [done|]. split; [apply (bool_decide_unpack _); vm_compute; exact I|].
  split; [intros []; vm_compute; reflexivity|]. split; [vm_compute; done|]. split; [vm_compute; intros [_ ?]; done|].
  split; [by apply op_okb_ok|]. split; [by apply op_okb_ok|]. vm_compute. done.
Qed.
Print Assumptions C36_enable_refuted.
(** False for calls that return ORDER_DUPLICATE: the incoming order has traded before. *)
Theorem C36_duplicate_refuted : exists s a s' evs, reach s /\ op_ok s a /\ call s a s' ORDER_DUPLICATE evs /\
  fresh_prices (the_book s) /\ ~ fresh_prices (the_book s') /\ execs evs <> [].
Proof.
  pose (ops := setup ++ [EnableMatching; SL 1 100 5; BL 2 50 5]). pose (a := BL 2 100 8).
  exists (hist ops), a, (after (hist ops) a), (news (hist ops) a). split; [apply hist_reach|]. split; [by apply op_okb_ok|].
  split. { exact (hist_call ops a eq_refl). }
  split; [vm_compute; done|]. split; [vm_compute; intros [? _]; done|]. vm_compute. done.
Qed.
Print Assumptions C36_duplicate_refuted.
Example C36_example : let ops := setup ++ [EnableMatching; SL 1 100 5; SL 2 120 5] in let s := hist ops in
  reach s /\ fresh_prices (the_book s) /\ ret s (BL 3 100 2) = OK /\ execs (news s (BL 3 100 2)) <> [] /\ fresh_prices (the_book (after s (BL 3 100 2))).
Proof. split; [apply hist_reach|]. vm_compute. done. Qed.
