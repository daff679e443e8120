(** * PropsTrades.v -- what executions are reported: C09, C10, C34. *)
From Coq Require Import ZifyBool.
From stdpp Require Import fin_maps relations.
From Verif Require Import Types Book Engine Manager Factory LevelFacts BookInv EngInv EngPrim Steps StepsOk Refine3 Refine4 Api StateInv Micro Reach Calls Trades Witness PropsState PropsSettle CallFacts Spec Spec2.

Definition xsum (i : Z) (sd : oside) (xs : list (order * Z * Z)) : Z :=
  foldr (fun x a => (if decide (o_sym (fst (fst x)) = i) then if decide (o_side (fst (fst x)) = sd) then snd x else 0 else 0) + a) 0 xs.
Lemma xsum_execs i sd evs : executed_in i sd evs = xsum i sd (execs evs).
Proof.
  induction evs as [|ev evs IH]; [done|]. change (executed_in i sd (ev :: evs)) with ((if decide (event_symbol ev = i) then exec_qty sd ev else 0) + executed_in i sd evs).
  rewrite IH. destruct ev as [| | | | | | | | | | |o p q]; cbn; by destruct (decide _).
Qed.
Lemma xsum_app i sd a b : xsum i sd (a ++ b) = xsum i sd a + xsum i sd b.
Proof. induction a as [|x a IH]; cbn; [done|]. unfold xsum in *. rewrite IH. lia. Qed.
Lemma trade_balanced i t : trade t -> xsum i BUY t = xsum i SELL t.
Proof.
  intros Ht. inversion Ht as [r o q Hs Hty Hsd Hw Hf Hq0 Hq|rs o Hf Hq0 Hall Hsum|x r q Hs Hty Hty' Hsd Hw Hq0 Hq Hq']; subst.
  - cbn. rewrite Hs. destruct (decide (o_sym o = i)); [|done]. destruct (o_side r), (o_side o); cbn; try done; lia.
  - rewrite !xsum_app.
    assert (H : forall sd, xsum i sd rs = if decide (o_sym o = i) then if decide (o_side o = sd) then 0 else sum_qty rs else 0).
    { intros sd. clear Hsum Ht. induction Hall as [|[[r p] q] rs (H1 & _ & H2 & _ & _ & _) _ IH]; cbn; [|fold (xsum i sd rs); fold (sum_qty rs)].
      - destruct (decide _); [destruct (decide _)|]; done.
      - rewrite IH, H1. destruct (decide (o_sym o = i)); [|done].
        destruct (decide (o_side r = sd)), (decide (o_side o = sd)); cbn; subst; try done; try lia.
        destruct sd, (o_side r), (o_side o); done. }
    rewrite !H, Hsum. unfold xsum. cbn [foldr fst snd]. destruct (decide (o_sym o = i)); [|done]. destruct (o_side o); repeat (destruct (decide _); try done); lia.
  - cbn. rewrite Hs. destruct (decide (o_sym r = i)); [|done]. destruct (o_side r), (o_side x); cbn; try done; lia.
Qed.
Lemma trades_balanced i xs : trades xs -> xsum i BUY xs = xsum i SELL xs.
Proof.
  intros (ts & -> & Hts). induction Hts as [|t ts Ht _ IH]; [done|]. change (concat (t :: ts)) with (t ++ concat ts). rewrite !xsum_app, IH, (trade_balanced i t Ht). done.
Qed.

(** ** C09
    Per symbol, without All-Or-None orders.  Missing: histories with All-Or-None orders, where
    the claim is false. *)
Theorem C09_conserved_partial s a s' er evs : reach s -> op_ok s a -> call s a s' er evs -> no_live_aon s -> adds_no_aon a ->
  is_execute a = false -> forall i, executed_in i BUY evs = executed_in i SELL evs.
Proof.
  intros Hr Hop Hc Hno Hadd Hex i. rewrite !xsum_execs. apply trades_balanced. eapply call_trades; try done. by apply reach_inv.
Qed.
Print Assumptions C09_conserved_partial.
(** ExecuteOrder reports the requested execution and then balanced executions. *)
Theorem C09_execute_partial s a s' evs : reach s -> op_ok s a -> call s a s' OK evs -> no_live_aon s -> is_execute a = true ->
  exists o price q rest, execs evs = (o, price, q) :: execs rest /\ get_order (o_id o) s = Some o /\ 0 < q <= o_leaves o /\
    forall i, executed_in i BUY rest = executed_in i SELL rest.
Proof.
  intros Hr Hop Hc Hno Hex. assert (Hoc : order_call a = true) by (by destruct a).
  destruct (call_outcome _ _ _ _ _ Hr Hop Hoc Hc) as (Hinv & Ho & Hinv'). destruct Hc as [Hst Hlog].
  destruct (outcome_execute s a s' evs Hinv Hop Ho Hno Hex Hlog) as (i & price & q0 & o & rest & Ha & Hi & Hx & Ht).
  pose proof (mo_live _ (iv_map _ Hinv) _ _ Hi) as Hl. pose proof (lo_id _ _ Hl) as Eid. subst i. pose proof (lo_leaves _ _ Hl).
  assert (0 < q0).
  { unfold call in *. cbn in Hst. destruct Ha as [[-> _]| ->]; cbn in Hst; unfold api_execute, api_execute_at, check_id, check_qty in Hst;
    (destruct (o_id o =? 0); [by injection Hst|]); (destruct (Z.eqb_spec q0 0); [by injection Hst|]); cbn in Hop; unfold u64_range in Hop; lia. }
  exists o, price, (Z.min q0 (o_leaves o)), (map (fun x => EExecute (fst (fst x)) (snd (fst x)) (snd x)) rest).
  assert (E : execs (map (fun x => EExecute (fst (fst x)) (snd (fst x)) (snd x)) rest) = rest).
  { clear. induction rest as [|[[x p] q] rest IH]; [done|]. cbn. f_equal. exact IH. }
  split; [by rewrite E|]. split; [by rewrite get_order_inv|]. split; [lia|]. intros i. rewrite !xsum_execs, E. by apply trades_balanced.
Qed.
Print Assumptions C09_execute_partial.
(** False with All-Or-None orders: this call sells 25 and buys 20. *)
Theorem C09_aon_refuted : exists s a s' evs, reach s /\ op_ok s a /\ is_execute a = false /\ call s a s' OK evs /\
  executed_in 0 BUY evs = 20 /\ executed_in 0 SELL evs = 25.
Proof.
  pose (ops := setup ++ [EnableMatching; LIM BUY 1 100 20 AON; SL 2 101 5; SL 3 100 10]). pose (a := LIM SELL 4 100 15 AON).
  exists (hist ops), a, (after (hist ops) a), (news (hist ops) a). split; [apply hist_reach|]. split; [by apply op_okb_ok|]. split; [done|].
  split. { exact (hist_call ops a eq_refl). } vm_compute. done.
Qed.
Print Assumptions C09_aon_refuted.
Definition ex_trade : list op := setup ++ [EnableMatching; SL 1 100 5; SL 2 101 5; BL 3 99 2; AddOrder (StopOrder 4 0 SELL 90 3 GTC MAX64)].
Lemma no_aon_list s : forallb (fun x => negb (bool_decide (o_tif (snd x) = AON))) (map_to_list (st_ords s)) = true -> no_live_aon s.
Proof.
  intros H i o Hi. apply elem_of_map_to_list in Hi. rewrite forallb_forall in H. apply elem_of_list_In in Hi. specialize (H _ Hi).
  by apply negb_true_iff, bool_decide_eq_false in H.
Qed.
Example C09_example : let s := hist ex_trade in reach s /\ no_live_aon s /\ adds_no_aon (BL 5 101 8) /\
  executed_in 0 BUY (news s (BL 5 101 8)) = 8 /\ (length (execs (news s (BL 5 101 8))) = 4)%nat.
Proof.
  split; [apply hist_reach|]. split; [by apply no_aon_list|]. split; [by intros ? [= <-]|]. vm_compute. done.
Qed.

(** ** C10 *)
Lemma trade_limits t : trade t -> Forall (fun x => within_limit (fst (fst x)) (snd (fst x))) t.
Proof.
  assert (Hself : forall o, within_limit o (o_price o)) by (intros o; unfold within_limit; destruct (o_side o); lia).
  intros Ht. inversion Ht as [r o q Hs Hty Hsd Hw Hf Hq0 Hq|rs o Hf Hq0 Hall Hsum|x r q Hs Hty Hty' Hsd Hw Hq0 Hq Hq']; subst.
  - repeat constructor; cbn; [apply Hself|done].
  - apply Forall_app. split; [|repeat constructor; apply Hself]. eapply Forall_impl; [exact Hall|]. intros [[r p] q] H. cbn. apply H.
  - repeat constructor; cbn; [apply Hself|done].
Qed.
Lemma trades_limits xs : trades xs -> Forall (fun x => within_limit (fst (fst x)) (snd (fst x))) xs.
Proof. intros (ts & -> & Hts). induction Hts as [|t ts Ht _ IH]; [constructor|]. change (concat (t :: ts)) with (t ++ concat ts). apply Forall_app. split; [by apply trade_limits|done]. Qed.
Theorem C10_limit_protection_partial s a s' er evs : reach s -> op_ok s a -> call s a s' er evs -> no_live_aon s -> adds_no_aon a ->
  is_execute a = false -> forall o p q, (o, p, q) ∈ execs evs -> within_limit o p.
Proof.
  intros Hr Hop Hc Hno Hadd Hex o p q Hin.
  assert (Ht : trades (execs evs)). { eapply call_trades; try done. by apply reach_inv. }
  apply trades_limits in Ht. rewrite Forall_forall in Ht. exact (Ht _ Hin).
Qed.
Print Assumptions C10_limit_protection_partial.
(** False with All-Or-None orders: sell order 2, limit 200, is executed at 100. *)
Theorem C10_aon_refuted : exists s a s' evs o q, reach s /\ op_ok s a /\ is_execute a = false /\ call s a s' OK evs /\
  (o, 100, q) ∈ execs evs /\ o_side o = SELL /\ o_price o = 200 /\ o_type o = LIMIT.
Proof.
  pose (ops := setup ++ [EnableMatching; LIM BUY 1 100 20 AON; SL 2 200 10]). pose (a := SL 3 100 10).
  exists (hist ops), a, (after (hist ops) a), (news (hist ops) a). eexists _, 10. split; [apply hist_reach|]. split; [by apply op_okb_ok|]. split; [done|].
  split. { exact (hist_call ops a eq_refl). }
  split. { apply elem_of_list_lookup_2 with 2%nat. vm_compute. reflexivity. }
  done.
Qed.
Print Assumptions C10_aon_refuted.

(** ** C34
    Executions come in pairs at the price of the first order reported, a limit order that was
    resting; the other order accepts that price. *)
Theorem C34_quoted_price_partial s a s' er evs : reach s -> op_ok s a -> call s a s' er evs -> no_live_aon s -> adds_no_aon a ->
  is_execute a = false -> (forall o p q, (o, p, q) ∈ execs evs -> o_tif o <> FOK) ->
  exists ts, execs evs = concat ts /\ Forall (fun t => exists x y q,
    t = [(x, o_price x, q); (y, o_price x, q)] /\ o_type x = LIMIT /\ o_sym x = o_sym y /\ o_side x <> o_side y /\ within_limit y (o_price x) /\
    q = Z.min (o_leaves x) (o_leaves y)) ts.
Proof.
  intros Hr Hop Hc Hno Hadd Hex Hfok.
  assert (Ht : trades (execs evs)). { eapply call_trades; try done. by apply reach_inv. }
  destruct Ht as (ts & E & Hts). exists ts. split; [done|]. rewrite E in Hfok. clear E. rewrite Forall_forall in Hts |- *.
  intros t Hin. specialize (Hts t Hin).
  assert (Hft : forall o p q, (o, p, q) ∈ t -> o_tif o <> FOK).
  { intros o p q Hx. apply (Hfok o p q). apply elem_of_list_In, in_concat. exists t. by rewrite <- !elem_of_list_In. }
  inversion Hts as [r o q Hs Hty Hsd Hw Hf Hq0 Hq|rs o Hf Hq0 Hall Hsum|x r q Hs Hty Hty' Hsd Hw Hq0 Hq Hq']; subst.
  - eexists _, _, _. split; [done|]. done.
  - exfalso. eapply (Hft o); [|done]. apply elem_of_app. right. left.
  - eexists _, _, _. split; [done|]. split; [done|]. split; [done|]. split; [done|]. split; [done|]. lia.
Qed.
Print Assumptions C34_quoted_price_partial.
(** False for Fill-Or-Kill orders: both sides are executed at the incoming order's own limit; for a
    market order that is the largest price there is. *)
Theorem C34_fok_refuted : exists s a s' evs, reach s /\ op_ok s a /\ call s a s' OK evs /\ no_live_aon s /\ adds_no_aon a /\
  map (fun x => (o_id (fst (fst x)), o_price (fst (fst x)), snd (fst x))) (execs evs) = [(1, 100, MAX64); (2, MAX64, MAX64)].
Proof.
  pose (ops := setup ++ [EnableMatching; SL 1 100 5]).
  pose (a := AddOrder (mkOrder 2 0 MARKET BUY 0 0 5 0 5 FOK MAX64 MAX64 0 0)).
  exists (hist ops), a, (after (hist ops) a), (news (hist ops) a). split; [apply hist_reach|]. split; [by apply op_okb_ok|].
  split. { exact (hist_call ops a eq_refl). } split; [by apply no_aon_list|]. split; [by intros ? [= <-]|]. vm_compute. done.
Qed.
Print Assumptions C34_fok_refuted.
