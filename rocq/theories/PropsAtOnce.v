(** * PropsAtOnce.v -- a stop order that arrives when its price is already reached: C64. *)
From Coq Require Import ZifyBool.
From stdpp Require Import fin_maps relations.
From Verif Require Import Types Book Engine Manager Factory Validate LevelFacts BookInv EngInv EngPrim Steps StepsOk Refine1 Refine3 Refine4 Trail2 Api StateInv Micro Reach Calls Witness PropsState PropsSettle CallFacts Follow PropsRef Spec Spec2 Spec20.
Open Scope Z_scope. Open Scope list_scope.

Lemma stop_types o : a_stop_order o -> stop_type o = true.
Proof. unfold stop_type, is_limit, is_market. by intros [-> | [-> | [-> | ->]]]. Qed.
Lemma placed_still o b : is_trailing o = false -> placed o b = o.
Proof. unfold placed, is_trailing, is_trailing_stop, is_trailing_stop_limit. by destruct (o_type o). Qed.
(** The conversion happens before anything else, whatever the kind of stop order. *)
Lemma add_stop_ending W sid e o : eng_ok sid e -> fly_ok sid (e_ords e) o -> 0 < o_leaves o -> a_stop_order o ->
  triggered (placed o (e_bk e)) (e_bk e) = true ->
  let o' := converted (placed o (e_bk e)) in
  exists e' er, add_order true o e = Ok (e', er) /\ ending W true sid (emit (EUpdateOrder o') (emit (EAddOrder (placed o (e_bk e))) e), Some o') e' er.
Proof.
  intros He Hf Hlv Hst Hg o'. destruct (is_trailing o) eqn:Htr; [by apply add_trigger_ending|].
  pose proof (placed_still o (e_bk e) Htr) as Ep. unfold o' in *. clear o'. rewrite Ep in *.
  set (e0 := emit (EAddOrder o) e). assert (He0 : eng_ok sid e0) by by apply emit_ok.
  assert (Hc : cfg_ok sid (emit (EUpdateOrder (converted o)) e0, Some (converted o))). { split; [done|]. by apply fly_trigger. }
  unfold add_order. unfold is_trailing, is_trailing_stop, is_trailing_stop_limit in Htr. destruct Hst as [Ety|[Ety|[Ety|Ety]]]; rewrite Ety in Htr |- *; try done.
  - unfold add_stop. assert (is_trailing o = false) as -> by (unfold is_trailing, is_trailing_stop, is_trailing_stop_limit; by rewrite Ety).
    cbv zeta. change (e_bk (emit (EAddOrder o) e)) with (e_bk e). rewrite Hg. cbn [andb].
    assert (Hcv : converted o = to_market o) by (unfold converted; by rewrite Ety). rewrite <- Hcv.
    apply (market_tail_ok sid _ (emit (EUpdateOrder (converted o)) e0) (converted o) (converted o) Hc eq_refl); [apply rtc_refl|by rewrite Hcv|rewrite Hcv; cbn; lia|eexists; by right].
  - unfold add_stop_limit. assert (is_trailing o = false) as -> by (unfold is_trailing, is_trailing_stop, is_trailing_stop_limit; by rewrite Ety).
    cbv zeta. change (e_bk (emit (EAddOrder o) e)) with (e_bk e). rewrite Hg. cbn [andb].
    assert (Hcv : converted o = to_limit o) by (unfold converted; by rewrite Ety). rewrite <- Hcv.
    apply (limit_tail_ok true sid _ (emit (EUpdateOrder (converted o)) e0) (converted o) (converted o) Hc eq_refl); [apply rtc_refl|done|by rewrite Hcv|rewrite Hcv; cbn; lia].
Qed.
(** The best order of a side of the book. *)
Lemma resting_best s sid b sd p : inv s -> get_book sid s = Some b -> best (opp sd) (eng_of b s) = Some p ->
  exists j r, get_order j s = Some r /\ o_type r = LIMIT /\ o_sym r = sid /\ o_side r <> sd /\ o_price r = p.
Proof.
  intros Hi Hb Hbest. pose proof (inv_eng _ _ _ Hi Hb) as He. pose proof (best_at _ _ _ He _ Hbest) as Hq.
  destruct (queue (e_bk (eng_of b s)) (opp sd) p) as [|j q] eqn:Eq; [done|].
  destruct (proj1 (queue_in _ _ _ (opp sd) p j (proj2 He))) as (r & Hr & Hs & Hk & Hkey); [rewrite Eq; left|]. cbn in Hr.
  exists j, r. rewrite get_order_inv by done. split; [done|]. pose proof (lo_type _ _ (mo_live _ (iv_map _ Hi) _ _ Hr)) as Ht.
  unfold okind in Hk. unfold okey in Hkey. destruct sd, (o_type r), (o_side r); cbn in Hk; try done.
Qed.
Lemma empty_best s sid b o : inv s -> get_book sid s = Some b -> o_sym o = sid -> nobody_opposite s o -> best (opp (o_side o)) (eng_of b s) = None.
Proof.
  intros Hi Hb Hs Hn. destruct (best (opp (o_side o)) (eng_of b s)) as [p|] eqn:E; [|done].
  destruct (resting_best s sid b (o_side o) p Hi Hb E) as (j & r & Hj & Ht & Hsr & Hsd & _). exfalso. apply (Hn j r Hj Ht). split; congruence.
Qed.
Lemma reached_triggered s sid b o : inv s -> get_book sid s = Some b -> o_sym o = sid -> fresh_prices b -> u64_range (o_stop o) -> already_reached s o -> triggered o b = true.
Proof.
  intros Hi Hb Hs Hfp Hr Ha. pose proof (inv_eng _ _ _ Hi Hb) as He. destruct (best (opp (o_side o)) (eng_of b s)) as [p|] eqn:E.
  - destruct (resting_best s sid b (o_side o) p Hi Hb E) as (j & r & Hj & Ht & Hsr & Hsd & Hp).
    specialize (Ha j r Hj Ht ltac:(split; congruence)). rewrite Hp in Ha. destruct Hfp as [F1 F2].
    unfold triggered, market_ask, market_bid, best_ask_price, best_bid_price. rewrite F1, F2. unfold best in E. unfold u64_range in Hr.
    pose proof (inv_eng _ _ _ Hi Hb) as Hee. assert (Hpr : u64_range p). { rewrite <- Hp. rewrite get_order_inv in Hj by done. apply (lo_price _ _ (mo_live _ (iv_map _ Hi) _ _ Hj)). }
    unfold u64_range in Hpr. destruct (o_side o); cbn in E, Ha; rewrite E; cbn; unfold MAX64, TWO64 in *; lia.
  - by apply (empty_triggered sid (eng_of b s)).
Qed.

(** What the engine does with a triggered newcomer, as notifications. *)
Lemma closed_not i : closed (fun o => o_id o <> i).
Proof.
  constructor; try done.
  - intros o H _. unfold converted, to_market, to_limit. destruct (o_type o); cbn; try done; by destruct (is_fok _).
  - intros o b H _. unfold retrail. by destruct (o_type o).
Qed.
Lemma converted_as o : a_stop_order o -> goes_on_as o (converted o).
Proof.
  unfold converted, to_market, to_limit. intros [E|[E|[E|E]]]; rewrite E; unfold goes_on_as; rewrite E; cbn; try done; unfold is_fok; cbn; destruct (o_tif o); done.
Qed.
Lemma placed_as o b : let p := placed o b in o_sym p = o_sym o /\ o_id p = o_id o /\ o_side p = o_side o /\ o_qty p = o_qty o /\ o_exec p = o_exec o /\ o_leaves p = o_leaves o /\ o_type p = o_type o.
Proof. unfold placed, retrail. destruct (o_type o) eqn:E; cbn; rewrite ?E; done. Qed.
Lemma goes_placed o b x : goes_on_as (placed o b) x -> goes_on_as o x.
Proof. destruct (placed_as o b) as (E1 & E2 & E3 & E4 & E5 & E6 & E7). unfold goes_on_as. rewrite E1, E2, E3, E4, E5, E6, E7. done. Qed.
Lemma stop_triggered s o b : inv s -> op_ok s (AddOrder o) -> validate o = OK -> a_stop_order o -> get_book (o_sym o) s = Some b -> fresh_prices b ->
  nobody_opposite s o \/ (is_trailing o = false /\ already_reached s o) -> triggered (placed o b) b = true.
Proof.
  intros Hi Hop Hval Hst Hb Hf H. destruct (fly_new _ _ Hi Hop Hval) as (Hfl & _). pose proof (placed_fly _ _ _ b Hfl) as Hfl'.
  destruct (placed_same o b) as (Pid & Pty & Pside & Plv & Ptif & Psym). destruct H as [H|[Ht H]].
  - apply (empty_triggered (o_sym o) (eng_of b s)); [exact (inv_eng _ _ _ Hi Hb)|done|rewrite Pside; by apply (empty_best s (o_sym o) b o)|apply Hfl'].
  - rewrite placed_still by done. eapply reached_triggered; [done|done|done|done|apply Hfl|done].
Qed.
(** Everything up to the first matching step. *)
Lemma call_triggered s o b s' er evs : reach s -> op_ok s (AddOrder o) -> st_match s = true -> call s (AddOrder o) s' er evs -> validate o = OK -> a_stop_order o ->
  get_book (o_sym o) s = Some b -> fresh_prices b -> nobody_opposite s o \/ (is_trailing o = false /\ already_reached s o) ->
  exists rest e' x, x = converted (placed o b) /\ evs = EAddOrder (placed o b) :: EUpdateOrder x :: rest /\ s' = put_eng (o_sym o) e' s /\
    add_order true o (eng_of b s) = Ok (e', er).
Proof.
  intros Hr Hop Hm [Hstep Hlog] Hval Hst Hb Hf H. pose proof (reach_inv _ Hr) as Hi. destruct (fly_new _ _ Hi Hop Hval) as (Hfl & Hlv & _).
  pose proof (inv_eng _ _ _ Hi Hb) as He. pose proof (stop_triggered _ _ _ Hi Hop Hval Hst Hb Hf H) as Ht.
  destruct (add_stop_ending True _ (eng_of b s) o He Hfl Hlv Hst Ht) as (e' & er' & Heq & Hend).
  cbn [step] in Hstep. unfold api_add in Hstep. rewrite Hval, Hb, Hm in Hstep.
  rewrite (on_book_run _ _ _ _ _ _ Heq) in Hstep. injection Hstep as <- <-.
  set (x := converted (placed o b)) in *.
  assert (Hc : cfg_ok (o_sym o) (emit (EUpdateOrder x) (emit (EAddOrder (placed o b)) (eng_of b s)), Some x)).
  { split; [done|]. apply fly_trigger. by apply placed_fly. }
  destruct (ending_micro True true (o_sym o) (wide True) _ _ _ Hend Hc) as [us Hu]; [apply allows_wide; by left|done|done|].
  destruct (usteps_ok _ _ _ _ _ Hu Hc) as [_ Hl]. cbn in Hl. exists us, e', x. split; [done|]. split; [|done].
  cbn in Hlog. rewrite Hl, <- !app_assoc in Hlog. by apply app_inv_head in Hlog.
Qed.

Theorem C64_at_once s o b s' er evs : reach s -> op_ok s (AddOrder o) -> st_match s = true -> call s (AddOrder o) s' er evs -> validate o = OK ->
  o_type o = STOP \/ o_type o = STOP_LIMIT -> get_book (o_sym o) s = Some b -> fresh_prices b -> already_reached s o ->
  exists x rest, evs = EAddOrder o :: EUpdateOrder x :: rest /\ goes_on_as o x /\ (o_type o = STOP_LIMIT -> o_price x = o_price o).
Proof.
  intros Hr Hop Hm Hc Hval Hty Hb Hf Ha. assert (Ht : is_trailing o = false). { unfold is_trailing, is_trailing_stop, is_trailing_stop_limit. by destruct Hty as [-> | ->]. }
  assert (Hst : a_stop_order o) by (unfold a_stop_order; tauto).
  destruct (call_triggered _ _ _ _ _ _ Hr Hop Hm Hc Hval Hst Hb Hf (or_intror (conj Ht Ha))) as (rest & e' & x & -> & -> & _ & _).
  rewrite (placed_still o b Ht). exists (converted o), rest. split; [done|]. split; [by apply converted_as|]. intros E. unfold converted. by rewrite E.
Qed.
Theorem C64_empty_market s o b s' er evs : reach s -> op_ok s (AddOrder o) -> st_match s = true -> call s (AddOrder o) s' er evs -> validate o = OK ->
  a_stop_order o -> get_book (o_sym o) s = Some b -> fresh_prices b -> nobody_opposite s o ->
  exists p x rest, evs = EAddOrder p :: EUpdateOrder x :: rest /\ o_id p = o_id o /\ goes_on_as o x.
Proof.
  intros Hr Hop Hm Hc Hval Hst Hb Hf Hn.
  destruct (call_triggered _ _ _ _ _ _ Hr Hop Hm Hc Hval Hst Hb Hf (or_introl Hn)) as (rest & e' & x & -> & -> & _ & _).
  eexists _, _, rest. split; [done|]. destruct (placed_as o b) as (_ & E & _). split; [done|]. apply (goes_placed o b). apply converted_as. unfold a_stop_order in *. destruct (placed_same o b) as (_ & -> & _). done.
Qed.
(** A stop order (not a stop-limit order) that arrives at an empty market is gone at once, without a trade. *)
Theorem C64_stop_lost s o b s' er evs : reach s -> op_ok s (AddOrder o) -> st_match s = true -> call s (AddOrder o) s' er evs -> validate o = OK ->
  o_type o = STOP \/ o_type o = TRAILING_STOP -> get_book (o_sym o) s = Some b -> fresh_prices b -> nobody_opposite s o -> get_order (o_id o) s = None ->
  er = OK /\ get_order (o_id o) s' = None /\
  exists p x rest, evs = EAddOrder p :: EUpdateOrder x :: EDeleteOrder x :: rest /\ o_id p = o_id o /\ goes_on_as o x /\
    forall y px q, EExecute y px q ∈ evs -> o_id y <> o_id o.
Proof.
  intros Hr Hop Hm Hc Hval Hty Hb Hf Hn Hfree. assert (Hst : a_stop_order o) by (unfold a_stop_order; tauto).
  pose proof (reach_inv _ Hr) as Hi. pose proof (inv_eng _ _ _ Hi Hb) as He. destruct (fly_new _ _ Hi Hop Hval) as (Hfl & Hlv & Hid & _).
  destruct (call_triggered _ _ _ _ _ _ Hr Hop Hm Hc Hval Hst Hb Hf (or_introl Hn)) as (rest & e' & x & Ex & -> & -> & Heq).
  destruct (placed_as o b) as (P1 & P2 & P3 & P4 & P5 & P6 & P7). assert (Hstp : a_stop_order (placed o b)) by (unfold a_stop_order in *; by rewrite P7).
  pose proof (stop_triggered _ _ _ Hi Hop Hval Hst Hb Hf (or_introl Hn)) as Ht.
  assert (Hxas : goes_on_as o x). { rewrite Ex. apply (goes_placed o b). by apply converted_as. }
  assert (Hcv : converted (placed o b) = to_market (placed o b)). { unfold converted. rewrite P7. by destruct Hty as [-> | ->]. }
  set (e2 := emit (EDeleteOrder x) (emit (EUpdateOrder x) (emit (EAddOrder (placed o b)) (eng_of b s)))).
  assert (He2 : eng_ok (o_sym o) e2) by (repeat apply emit_ok; done).
  assert (Hfin : finish true e2 = Ok (e', er)).
  { rewrite <- Heq. unfold add_order. assert (Hadd : add_stop true o (eng_of b s) = finish true e2).
    { unfold add_stop. assert ((if is_trailing o then set_stop (calc_trailing o (e_bk (eng_of b s))) o else o) = placed o b) as Ep.
      { unfold placed, retrail, is_trailing, is_trailing_stop, is_trailing_stop_limit. destruct Hty as [E|E]; rewrite E; done. }
      rewrite Ep. cbv zeta. change (e_bk (emit (EAddOrder (placed o b)) (eng_of b s))) with b. rewrite Ht. cbn [andb].
      unfold match_market.
      assert (best (opp (o_side (to_market (placed o b)))) (emit (EUpdateOrder (to_market (placed o b))) (emit (EAddOrder (placed o b)) (eng_of b s))) = None) as ->.
      { rewrite <- Hcv, <- Ex. destruct Hxas as (_ & _ & -> & _). by apply (empty_best s (o_sym o) b o). }
      cbn [rbind]. by rewrite <- Hcv, <- Ex. }
    rewrite Hadd. by destruct Hty as [-> | ->]. }
  destruct (finish_none (W := True) true _ e2 He2) as (e3 & er3 & Hfin' & Hend). rewrite Hfin in Hfin'. injection Hfin' as <- <-.
  assert (Hc2 : cfg_ok (o_sym o) (e2, None)) by done.
  destruct (ending_micro True true (o_sym o) (wide True) _ _ _ Hend Hc2) as [us Hu]; [apply allows_wide; by left|done|done|].
  destruct (usteps_ok _ _ _ _ _ Hu Hc2) as [[He' _] Hl]. cbn [fst] in Hl, He'.
  assert (Hq0 : all_q (o_sym o) (fun y => o_id y <> o_id o) (e2, None)).
  { split; [|done]. intros j y Hj _ Ey. cbn in Hj. rewrite get_order_inv in Hfree by done. pose proof (lo_id _ _ (mo_live _ (iv_map _ Hi) _ _ Hj)). congruence. }
  destruct (usteps_q _ _ _ _ _ _ (closed_not (o_id o)) Hu Hc2 Hq0) as [Hq1 Hq2].
  assert (Erest : rest = EDeleteOrder x :: us).
  { destruct Hc as [_ Hlog]. cbn in Hlog. rewrite Hl in Hlog. cbn in Hlog. rewrite <- !app_assoc in Hlog. apply app_inv_head in Hlog. by injection Hlog. }
  split. { destruct (finish_ok (W := True) true _ e2 He2) as (e4 & Hf4 & _). rewrite Hfin in Hf4. by injection Hf4. }
  split.
  { pose proof (call_result _ _ _ _ _ Hr Hop Hc) as (_ & _ & Hi'). rewrite get_order_inv by done. cbn.
    destruct (e_ords e' !! o_id o) as [y|] eqn:Ey; [|done]. exfalso. pose proof (lo_id _ _ (mo_live _ (proj1 He') _ _ Ey)) as Eid.
    destruct (decide (o_sym y = o_sym o)) as [Es|Es]; [by apply (proj1 Hq1 _ _ Ey Es)|].
    destruct (finish_ok (W := True) true _ e2 He2) as (e4 & Hf4 & Hrtc & _). rewrite Hfin in Hf4. injection Hf4 as -> _.
    destruct (msteps_ok (o_sym o) _ _ Hrtc Hc2) as [_ Hfr _ _]. cbn in Hfr, Ey. rewrite get_order_inv in Hfree by done.
    apply Hfr in Ey; [|done]. cbn in Ey. congruence. }
  exists (placed o b), x, us. rewrite Erest. split; [done|]. split; [done|]. split; [done|].
  intros y px q Hin. apply elem_of_cons in Hin as [?|Hin]; [done|]. apply elem_of_cons in Hin as [?|Hin]; [done|]. apply elem_of_cons in Hin as [?|Hin]; [done|].
  rewrite Forall_forall in Hq2. exact (Hq2 _ Hin).
Qed.
Print Assumptions C64_at_once.
Print Assumptions C64_empty_market.
Print Assumptions C64_stop_lost.

(** A buy stop at 100 arrives while the best offer is 105. *)
Definition ex_once : list op := setup ++ [EnableMatching; SL 1 105 10; BL 2 90 10].
Example C64_at_once_example : let s := hist ex_once in let o := StopOrder 3 0 BUY 100 4 GTC MAX64 in
  reach s /\ op_ok s (AddOrder o) /\ st_match s = true /\ validate o = OK /\ get_book (o_sym o) s = Some (the_book s) /\ fresh_prices (the_book s) /\ already_reached s o /\
  call s (AddOrder o) (after s (AddOrder o)) OK (news s (AddOrder o)) /\ map (fun x => (o_id (fst (fst x)), snd (fst x), snd x)) (execs (news s (AddOrder o))) = [(1, 105, 4); (3, 105, 4)].
Proof.
  cbv zeta. split; [apply hist_reach|]. split; [apply op_okb_ok; vm_compute; reflexivity|]. split; [vm_compute; reflexivity|].
  split; [vm_compute; reflexivity|]. split; [vm_compute; reflexivity|]. split; [vm_compute; split; reflexivity|].
  split. { intros j r Hj Ht Ho. revert j r Hj Ht Ho. apply (all_live (fun r => o_type r = LIMIT -> o_sym r = 0 /\ o_side r <> BUY -> 100 <= o_price r)). vm_compute. reflexivity. }
  split; [apply (hist_call ex_once); vm_compute; reflexivity|]. vm_compute. reflexivity.
Qed.
(** A buy stop, a trailing stop and a stop-limit order arrive at a market with bids and no offers. *)
Definition ex_once_empty : list op := setup ++ [EnableMatching; BL 2 90 10].
Definition lost (o : order) : Prop := let s := hist ex_once_empty in
  reach s /\ op_ok s (AddOrder o) /\ st_match s = true /\ validate o = OK /\ a_stop_order o /\ get_book (o_sym o) s = Some (the_book s) /\ fresh_prices (the_book s) /\
  nobody_opposite s o /\ get_order (o_id o) s = None /\ call s (AddOrder o) (after s (AddOrder o)) OK (news s (AddOrder o)).
Ltac lost t := unfold lost; cbv zeta; split; [apply hist_reach|]; split; [apply op_okb_ok; vm_compute; reflexivity|]; split; [vm_compute; reflexivity|];
  split; [vm_compute; reflexivity|]; split; [t|]; split; [vm_compute; reflexivity|]; split; [vm_compute; split; reflexivity|]; split;
  [let j := fresh "j" in let r := fresh "r" in let H := fresh "H" in intros j r H; revert j r H; apply (all_live (fun r => o_type r = LIMIT -> ~ (o_sym r = 0 /\ o_side r <> BUY))); vm_compute; reflexivity|];
  split; [vm_compute; reflexivity|apply (hist_call ex_once_empty); vm_compute; reflexivity].
Example C64_empty_example : lost (StopOrder 3 0 BUY 100 4 GTC MAX64) /\ lost (TrailingStopOrder 3 0 BUY 100 4 10 2 GTC MAX64) /\ lost (StopLimitOrder 3 0 BUY 100 101 4 GTC MAX64).
Proof.
  split; [lost ltac:(left; reflexivity)|]. split; [lost ltac:(right; right; left; reflexivity)|]. lost ltac:(right; left; reflexivity).
Qed.
(** So "a stop order waits until the market has moved to its price" is false of the code: this one is gone before there was any trade. *)
Theorem C64_waits_refuted : exists s o s' evs, reach s /\ op_ok s (AddOrder o) /\ st_match s = true /\ o_type o = STOP /\ o_side o = BUY /\ o_stop o = 100 /\
  (forall ev, ev ∈ st_log s -> forall y px q, ev <> EExecute y px q) /\ call s (AddOrder o) s' OK evs /\ execs evs = [] /\ get_order (o_id o) s' = None.
Proof.
  set (s := hist ex_once_empty). set (o := StopOrder 3 0 BUY 100 4 GTC MAX64). destruct C64_empty_example as [(H1 & H2 & H3 & H4 & H5 & H6 & H7 & H8 & H9 & H10) _].
  fold s in H1, H2, H3, H4, H5, H6, H7, H8, H9, H10. fold o in H2, H4, H5, H6, H8, H9, H10. destruct (C64_stop_lost s o _ _ _ _ H1 H2 H3 H10 H4 (or_introl eq_refl) H6 H7 H8 H9) as (_ & Hg & _).
  exists s, o, (after s (AddOrder o)), (news s (AddOrder o)). split; [done|]. split; [done|]. split; [done|]. split; [reflexivity|]. split; [reflexivity|]. split; [reflexivity|]. split.
  { intros ev Hin y px q ->. assert (E : execs (st_log s) = []) by (vm_compute; reflexivity). assert (Hf : forallb (fun ev => match ev with EExecute _ _ _ => false | _ => true end) (st_log s) = true) by (vm_compute; reflexivity).
    apply elem_of_list_In in Hin. pose proof (proj1 (forallb_forall _ _) Hf _ Hin) as Hx. discriminate Hx. }
  split; [done|]. split; [vm_compute; reflexivity|done].
Qed.
Print Assumptions C64_waits_refuted.
