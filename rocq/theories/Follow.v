(** * Follow.v -- trailing stop orders keep up with the market, over histories. *)
From Coq Require Import ZifyBool.
From stdpp Require Import fin_maps relations.
From Verif Require Import Types Book Engine Manager Validate LevelFacts BookInv EngInv EngPrim Steps StepsOk Refine1 Refine2 Refine3 Refine4 Trail Trail2 Api StateInv Micro Reach Calls Settle PropsState Spec Spec2 Spec3 Spec12.

(** The order in flight, should it rest as a trailing stop, is settled. *)
Definition fly_set (sid : Z) (c : cfg) : Prop := forall o, snd c = Some o -> is_trailing o = true -> 0 < o_tdist o ->
  calc_at o (recorded (o_side o) (e_bk (fst c))) = o_stop o.
Lemma trailing_not_side o s : is_trailing o = true -> okind o <> opp s.
Proof. unfold is_trailing, is_trailing_stop, is_trailing_stop_limit, okind. destruct (o_type o), (o_side o), s; cbn; done. Qed.
Lemma keeps_tkeep s e e' : keeps (opp s) e e' -> tkeep e e'.
Proof.
  intros [_ _ _ H4 [H5 H6]]. constructor; [unfold tprices; congruence|]. intros i x Hi Ht. exists i, x. split; [|done].
  apply (H4 i x); [by apply trailing_not_side|done].
Qed.
Lemma converted_trailing o : stop_type o = true -> is_trailing (converted o) = false.
Proof. unfold stop_type, is_limit, is_market, converted, is_trailing, is_trailing_stop, is_trailing_stop_limit. destruct (o_type o) eqn:E; cbn; try done. Qed.
Lemma fstep_set {F W} sid c c' : fstep F W c c' -> cfg_ok sid c -> tset sid (fst c) -> fly_set sid c -> tset sid (fst c') /\ fly_set sid c'.
Proof.
  intros (Hst & H1 & H2) [He Hf] Hj Hfl.
  inversion Hst as [e o e' o' Ht Hw Hp|e o p Hty Hb Ha|e o Hty Hre Hlv|e o|e o| | | | |]; subst; cbn in *; try (by destruct H1); try (by destruct H2).
  - pose proof (keeps_tkeep _ _ _ (tstep_keeps sid _ _ _ _ He Hf Ht)) as Hk. split; [by eapply tset_keep|].
    intros ? [= <-] Htr Hd. pose proof (tstep_kind _ _ _ _ Ht) as (K1 & K2 & K3 & K4 & _ & K6 & _ & _ & _ & _ & K11 & K12).
    pose proof (recorded_prices _ _ (tk_prices _ _ Hk)) as Hr. cbn. rewrite Hr.
    assert (Hkey : tkey o = tkey o') by (unfold tkey; congruence). rewrite K4. eapply calc_at_key; [exact Hkey|]. apply (Hfl o); [done| |lia].
    by rewrite (tkey_trailing _ _ Hkey).
  - split; [done|]. intros ? [= <-] Htr Hd. by apply (Hfl o).
  - split; [by eapply tset_keep; [apply emit_tkeep|]|]. intros ? [= <-] Htr Hd. by rewrite converted_trailing in Htr.
Qed.
Lemma fsteps_set {F W} sid c c' : rtc (fstep F W) c c' -> cfg_ok sid c -> tset sid (fst c) -> fly_set sid c -> tset sid (fst c') /\ fly_set sid c'.
Proof.
  induction 1 as [c|c c1 c' Hst Hr IH]; intros Hc Hj Hf; [done|]. destruct (fstep_set sid _ _ Hst Hc Hj Hf) as [Hj1 Hf1].
  apply IH; [|done|done]. by apply (fsteps_cfg sid _ _ (rtc_once _ _ Hst)).
Qed.
Lemma land_set {F W} sid c e : mstep F W c (e, None) -> is_Some (snd c) -> tset sid (fst c) -> fly_set sid c -> tset sid e.
Proof.
  intros Hst [o Ho] Hj Hf. inversion Hst as [| | |e0 o0 Hn Hlv Hty Hi Hs|e0 o0 Hv|e0 b a bp ap x r e1|e0 b a bp ap x k1 k2 v v1 e1 v2 e2| |e0 o0 e1 o1|e0 s0]; subst; cbn in *; try done.
  - injection Ho as ->. eapply tset_keep; [apply eng_add_tkeep|]. constructor; [apply Hj|].
    intros i x Hi0 Hs0 Ht Hd. cbn in Hi0. apply lookup_insert_Some in Hi0 as [[_ <-]|[_ Hi0]]; [by apply (Hf o)|by apply (ts_ord _ _ Hj i x)].
  - eapply tset_keep; [apply emit_tkeep|done].
Qed.
Lemma reset_tset sid e : tset sid e -> tset sid (reset_m e).
Proof. apply tset_keep, reset_tkeep. Qed.
Lemma reset_tcur e : tcur e -> tcur (reset_m e).
Proof. intros H s. specialize (H s). by destruct s. Qed.
(** What a call leaves behind on its book. *)
Record kept_up (sid : Z) (e : eng) : Prop := { ku_set : tset sid e; ku_cur : tcur e; ku_fresh : fresh_prices (e_bk e) }.
Lemma ending_set W sid c e' er : ending W true sid c e' er -> er <> ORDER_DUPLICATE -> cfg_ok sid c -> tset sid (fst c) -> fly_set sid c ->
  (forall i x, e_ords e' !! i = Some x -> o_tif x <> AON) -> kept_up sid e'.
Proof.
  intros Hend Hnd Hc Hj Hf Hna. inversion Hend as [e1 e2 H1 H2 Hmf Hms He2 Heq Hmb|]; subst; [|done]. specialize (Hmb eq_refl).
  assert (He1 : eng_ok sid e1 /\ tset sid e1).
  { destruct H1 as [->|(c1 & Hfl & Hs & _ & Hl)]; [split; [apply Hc|done]|].
    destruct (fsteps_set sid _ _ Hfl Hc Hj Hf) as [Hj1 Hf1]. split; [|by eapply land_set].
    pose proof (fsteps_cfg sid _ _ Hfl Hc) as Hc1. by destruct (msteps_cfg sid _ _ (rtc_once _ _ Hl) Hc1). }
  destruct He1 as [He1 Hj1]. destruct (match_book_tset sid e1 e2 He1 Hj1 Hmb) as [Hj2 Hcur].
  constructor; [by apply reset_tset| |done]. apply reset_tcur. destruct Hcur as [?|(i & x & Hx & _ & _ & Ha & _)]; [done|].
  exfalso. apply (Hna i x Hx). unfold is_aon in Ha. by apply bool_decide_eq_true in Ha.
Qed.

(** ** The head of a call *)
Lemma execute_head_tkeep o p q e e1 : (exists i, e_ords e !! i = Some o) -> execute_head o p q e = Ok e1 -> tkeep e e1.
Proof.
  intros [i Hi]. unfold execute_head. set (o' := executed _ o).
  destruct (eng_sub_reduce _ _ _ _ _) as [e2| |] eqn:E; cbn [rbind]; intros [= <-]. apply eng_sub_reduce_tkeep in E as [E _].
  eapply (tkeep_trans _ e2).
  - eapply tkeep_trans; [|exact E]. eapply tkeep_trans; [apply (note_tkeep o p (Z.min q (o_leaves o)))|]. apply tkeep_put. right. exists i, o. done.
  - destruct (0 <? _); [apply emit_tkeep|]. eapply tkeep_trans; [apply emit_tkeep|apply tkeep_drop].
Qed.
Lemma head_set sid e a c : eng_ok sid e -> tset sid e -> head e a c -> (forall o, a <> AddOrder o) -> 
  (forall i x, e_ords e !! i = Some x -> refers a = Some i -> o_sym x = sid) -> tset sid (fst c) /\ fly_set sid c.
Proof.
  intros He Hj Hh Hna Hsy. inversion Hh as [o Hv|i q o e1 Ho Hq Heq|i p q o e1 Ho Hq Heq|i p q o e1 Ho Hq Heq|i ni p q o e1 Ho Hq Hni Hty Heq|i o e1 Ho Heq|i q o e1 Ho Hq Heq|i p q o e1 Ho Hq Heq]; subst; cbn [fst snd].
  - by destruct (Hna o).
  - split; [|by intros ? [=]]. eapply tset_keep; [|exact Hj]. eapply reduce_order_tkeep; [by eexists|exact Heq].
  - assert (Hk : tkeep e (modify_head (modified false p q o) (drop_id i e1))).
    { apply eng_sub_delete_tkeep in Heq as [Heq _]. eapply tkeep_trans; [exact Heq|]. eapply tkeep_trans; [apply (tkeep_drop i)|]. unfold modify_head. destruct (0 <? _); [apply emit_tkeep|apply tkeep_refl]. }
    split; [by eapply tset_keep|]. intros ? [= <-] Ht Hd. cbn [fst]. rewrite (recorded_prices _ _ (tk_prices _ _ Hk)).
    eapply (calc_at_key o); [done|]. apply (ts_ord _ _ Hj i o); try done. by eapply Hsy.
  - assert (Hk : tkeep e (modify_head (modified true p q o) (drop_id i e1))).
    { apply eng_sub_delete_tkeep in Heq as [Heq _]. eapply tkeep_trans; [exact Heq|]. eapply tkeep_trans; [apply (tkeep_drop i)|]. unfold modify_head. destruct (0 <? _); [apply emit_tkeep|apply tkeep_refl]. }
    split; [by eapply tset_keep|]. intros ? [= <-] Ht Hd. cbn [fst]. rewrite (recorded_prices _ _ (tk_prices _ _ Hk)).
    eapply (calc_at_key o); [done|]. apply (ts_ord _ _ Hj i o); try done. by eapply Hsy.
  - split. { eapply tset_keep; [|exact Hj]. eapply tkeep_trans; [by eapply delete_order_tkeep|apply emit_tkeep]. }
    intros ? [= <-] Ht. exfalso. revert Ht. unfold is_trailing, is_trailing_stop, is_trailing_stop_limit. cbn. by rewrite Hty.
  - split; [|by intros ? [=]]. eapply tset_keep; [|exact Hj]. by eapply delete_order_tkeep.
  - split; [|by intros ? [=]]. eapply tset_keep; [|exact Hj]. eapply execute_head_tkeep; [by eexists|exact Heq].
  - split; [|by intros ? [=]]. eapply tset_keep; [|exact Hj]. eapply execute_head_tkeep; [by eexists|exact Heq].
Qed.

(** ** AddOrder *)
Lemma placed_trailing o b : is_trailing o = true -> placed o b = retrail (calc_trailing o b) o.
Proof. unfold is_trailing, is_trailing_stop, is_trailing_stop_limit, placed. by destruct (o_type o). Qed.
Lemma placed_settled o b : is_trailing o = true -> calc_trailing (placed o b) b = o_stop (placed o b).
Proof.
  intros Ht. rewrite placed_trailing by done. destruct (retrail_tail (calc_trailing o b) o Ht). eapply (calc_fix o); [|done|done|]; unfold retrail, is_trailing, is_trailing_stop, is_trailing_stop_limit in *; destruct (o_type o); done.
Qed.
(** With nothing on the other side it is triggered at once. *)
Lemma empty_triggered sid e o : eng_ok sid e -> fresh_prices (e_bk e) -> best (opp (o_side o)) e = None -> u64_range (o_stop o) -> triggered o (e_bk e) = true.
Proof.
  intros He [F1 F2] Hb Hr. unfold triggered, market_ask, market_bid, best_ask_price, best_bid_price. rewrite F1, F2. unfold u64_range in Hr.
  unfold best in Hb. destruct (o_side o); cbn in Hb; rewrite Hb; cbn; unfold MAX64, TWO64 in *; lia.
Qed.
Lemma add_trigger_ending W sid e o : eng_ok sid e -> fly_ok sid (e_ords e) o -> 0 < o_leaves o -> is_trailing o = true ->
  triggered (placed o (e_bk e)) (e_bk e) = true ->
  let o' := converted (placed o (e_bk e)) in
  exists e' er, add_order true o e = Ok (e', er) /\ ending W true sid (emit (EUpdateOrder o') (emit (EAddOrder (placed o (e_bk e))) e), Some o') e' er.
Proof.
  intros He Hf Hlv Htr Hg o'. pose proof (placed_fly sid _ _ (e_bk e) Hf) as Hf'.
  destruct (placed_same o (e_bk e)) as (Pid & Pty & Pside & Plv & Ptif & _).
  set (p := placed o (e_bk e)) in *. set (e0 := emit (EAddOrder p) e).
  assert (He0 : eng_ok sid e0) by by apply emit_ok.
  assert (Hc : cfg_ok sid (emit (EUpdateOrder o') e0, Some o')). { split; [done|]. by apply fly_trigger. }
  unfold add_order. unfold is_trailing, is_trailing_stop, is_trailing_stop_limit in Htr. destruct (o_type o) eqn:Ety; try done.
  - unfold add_stop. assert (is_trailing o = true) as Htr' by (unfold is_trailing, is_trailing_stop, is_trailing_stop_limit; by rewrite Ety).
    rewrite Htr'. assert (Eo : set_stop (calc_trailing o (e_bk e)) o = p) by (unfold p, placed, retrail; by rewrite Ety).
    rewrite Eo. cbv zeta. change (e_bk (emit (EAddOrder p) e)) with (e_bk e). rewrite Hg. cbn [andb].
    assert (Hcv : o' = to_market p) by (unfold o', converted; by rewrite Pty). rewrite <- Hcv.
    apply (market_tail_ok sid _ (emit (EUpdateOrder o') e0) o' o' Hc eq_refl); [apply rtc_refl|by rewrite Hcv|rewrite Hcv; cbn; lia|eexists; by right].
  - unfold add_stop_limit. assert (is_trailing o = true) as Htr' by (unfold is_trailing, is_trailing_stop, is_trailing_stop_limit; by rewrite Ety).
    rewrite Htr'. assert (Eo : set_price (u64 (calc_trailing o (e_bk e) + (o_price o - o_stop o))) (set_stop (calc_trailing o (e_bk e)) o) = p) by (unfold p, placed, retrail; by rewrite Ety).
    cbv zeta. rewrite Eo. change (e_bk (emit (EAddOrder p) e)) with (e_bk e). rewrite Hg. cbn [andb].
    assert (Hcv : o' = to_limit p) by (unfold o', converted; by rewrite Pty). rewrite <- Hcv.
    apply (limit_tail_ok true sid _ (emit (EUpdateOrder o') e0) o' o' Hc eq_refl); [apply rtc_refl|done|by rewrite Hcv|rewrite Hcv; cbn; lia].
Qed.
Lemma add_kept sid e o e' er : eng_ok sid e -> kept_up sid e -> fly_ok sid (e_ords e) o -> 0 < o_leaves o ->
  add_order true o e = Ok (e', er) -> er <> ORDER_DUPLICATE -> (forall i x, e_ords e' !! i = Some x -> o_tif x <> AON) -> kept_up sid e'.
Proof.
  intros He [Hj Hcu Hfr] Hf Hlv Heq Hnd Hna. pose proof (placed_fly sid _ _ (e_bk e) Hf) as Hf'.
  destruct (placed_same o (e_bk e)) as (Pid & Pty & Pside & Plv & Ptif & _).
  assert (Hgen : fly_set sid (emit (EAddOrder (placed o (e_bk e))) e, Some (placed o (e_bk e))) -> kept_up sid e').
  { intros Hfly. destruct (add_order_ok (W := True) true sid e o He Hf Hlv) as (e1 & er1 & Heq1 & Hend). rewrite Heq in Heq1. injection Heq1 as <- <-.
    eapply ending_set; [exact Hend|done|split; done| |exact Hfly|done]. eapply tset_keep; [apply emit_tkeep|done]. }
  destruct (is_trailing o) eqn:Ht.
  2: { apply Hgen. intros ? [= <-] Ht'. exfalso. revert Ht Ht'. unfold is_trailing, is_trailing_stop, is_trailing_stop_limit. rewrite Pty. congruence. }
  destruct (best (opp (o_side o)) e) as [p|] eqn:Hb.
  - apply Hgen. intros ? [= <-] Ht' Hd. cbn [fst emit e_bk]. rewrite Pside. rewrite (Hcu (o_side o)) by (by rewrite Hb).
    pose proof (placed_settled o (e_bk e) Ht) as Hse. rewrite calc_at_eq, Pside in Hse. exact Hse.
  - assert (Hg : triggered (placed o (e_bk e)) (e_bk e) = true).
    { eapply empty_triggered; [done|done|by rewrite Pside|apply Hf']. }
    destruct (add_trigger_ending True sid e o He Hf Hlv Ht Hg) as (e1 & er1 & Heq1 & Hend). rewrite Heq in Heq1. injection Heq1 as <- <-.
    assert (Hst : stop_type (placed o (e_bk e)) = true).
    { unfold stop_type, is_limit, is_market. rewrite Pty. unfold is_trailing, is_trailing_stop, is_trailing_stop_limit in Ht. by destruct (o_type o). }
    eapply ending_set; [exact Hend|done| | | |done].
    + split; [done|]. by apply fly_trigger.
    + eapply tset_keep; [|exact Hj]. eapply tkeep_trans; apply emit_tkeep.
    + intros ? [= <-] Ht'. by rewrite converted_trailing in Ht'.
Qed.

(** ** Histories *)
Definition all_kept (s : state) : Prop := forall sid b, get_book sid s = Some b -> kept_up sid (eng_of b s).
Lemma kept_ext sid e e' : e_bk e' = e_bk e -> (forall j o, o_sym o = sid -> e_ords e' !! j = Some o -> e_ords e !! j = Some o) -> kept_up sid e -> kept_up sid e'.
Proof.
  intros Hb Ho [[H1 H2] H3 H4]. constructor; [|intros s; unfold best; rewrite Hb; apply H3|by rewrite Hb].
  constructor; [intros s; by rewrite Hb|]. intros i x Hi Hs. rewrite Hb. apply (H2 i x); [by apply Ho|done].
Qed.
Lemma untouched_kept s s' sid b : untouched s s' sid -> all_kept s -> get_book sid s' = Some b -> kept_up sid (eng_of b s').
Proof.
  intros [H1 H2] Hk Hb. rewrite H1 in Hb. eapply (kept_ext sid (eng_of b s)); [done| |by apply Hk]. intros j o Ho. cbn. by apply H2.
Qed.
Lemma put_kept s sid b e : get_book sid s = Some b -> frame sid (st_ords s) (e_ords e) -> kept_up sid e -> all_kept s -> all_kept (put_eng sid e s).
Proof.
  intros Hb Hf Hk Ha j b' Hj. destruct (decide (j = sid)) as [->|Hne].
  - rewrite (get_book_put _ _ _ _ _ Hb), decide_True in Hj by done. injection Hj as <-. eapply (kept_ext sid e); try done.
  - eapply untouched_kept; [by eapply put_untouched|done|done].
Qed.
Lemma outcome_kept s a s' er : inv s -> outcome s a s' er -> st_match s = true -> er <> ORDER_DUPLICATE -> (forall o, a <> AddOrder o) ->
  no_live_aon s' -> all_kept s -> all_kept s'.
Proof.
  intros Hinv Ho Hmt Hnd Hna Hno Ha. inversion Ho as [|sid b c e' ? Hb Htg Hhd Hc Hfr Hend]; subst; [done|].
  pose proof (inv_eng _ _ _ Hinv Hb) as He.
  assert (Hfr' : frame sid (st_ords s) (e_ords e')). { eapply frame_trans; [done|]. by eapply ending_frame. }
  destruct (head_set sid (eng_of b s) a c He (ku_set _ _ (Ha _ _ Hb)) Hhd Hna) as [Hj Hf].
  { intros i x Hx Hr. unfold target in Htg. cbn in Hx. destruct a; cbn in *; try done; injection Hr as ->; rewrite Hx in Htg; by injection Htg. }
  eapply put_kept; try done. rewrite Hmt in Hend. eapply ending_set; [exact Hend|done..].
Qed.
Lemma added_kept s o s' er : inv s -> op_ok s (AddOrder o) -> st_match s = true -> step s (AddOrder o) = Ok (s', er) -> er <> ORDER_DUPLICATE ->
  no_live_aon s' -> all_kept s -> all_kept s'.
Proof.
  intros Hinv Hop Hmt Hst Hnd Hno Ha. pose proof (step_result _ _ _ _ Hinv Hop Hst) as Hres.
  cbn [step] in Hst. unfold api_add in Hst. destruct (validate o) eqn:Ev; try (by injection Hst as <- <-).
  destruct (get_book (o_sym o) s) as [b|] eqn:Hb; [|by injection Hst as <- <-].
  pose proof (inv_eng _ _ _ Hinv Hb) as He. pose proof Hop as [Hrg Htot]. destruct (validate_ok o Ev Hrg) as (Hid & Hlv & _ & Htr & _).
  assert (Hf : fly_ok (o_sym o) (e_ords (eng_of b s)) o).
  { destruct Hrg as (? & ? & ? & ? & ? & ? & ? & ? & ? & _). constructor; try done; unfold u64_range in *; lia. }
  destruct (add_order_ok (W := True) (st_match s) (o_sym o) (eng_of b s) o He Hf Hlv) as (e' & er' & Heq & Hend).
  rewrite (on_book_run _ _ _ _ _ _ Heq) in Hst. injection Hst as <- ->.
  assert (Hc : cfg_ok (o_sym o) (emit (EAddOrder (placed o b)) (eng_of b s), Some (placed o b))) by (split; [done|by apply placed_fly]).
  eapply put_kept; [done| | |done].
  - change (st_ords s) with (e_ords (fst (emit (EAddOrder (placed o b)) (eng_of b s), Some (placed o b)))). by eapply ending_frame.
  - rewrite Hmt in Heq. eapply add_kept; try done. by apply Ha.
Qed.
Lemma new_kept sid sy ords log : map_ok ords -> kept_up sid (mkEng (new_book sy) ords log).
Proof.
  intros Hm. constructor; [|by intros []|done]. constructor; [intros []; cbn; unfold MAX64; lia|].
  intros i x Hi Hs Ht Hd. cbn in Hi. pose proof (mo_live _ Hm _ _ Hi) as Hl. pose proof (lo_trail _ _ Hl) as Htr. pose proof (lo_stop _ _ Hl) as Hst.
  unfold u64_range in Hst. specialize (Htr ltac:(unfold is_trailing, is_trailing_stop, is_trailing_stop_limit in Ht; destruct (o_type x); cbn in Ht; try done; auto)).
  assert (HM : MAX64 = 18446744073709551615) by reflexivity. assert (HT : TWO63 = 9223372036854775808) by reflexivity.
  assert (0 < o_tdist x < TWO63 /\ 0 <= o_tstep x < o_tdist x) as [? ?] by (destruct Htr as [|[? _]]; lia).
  unfold calc_at. rewrite (proj2 (Z.ltb_ge (o_tdist x) 0)) by lia. rewrite (u64_small (o_tstep x)) by lia.
  destruct (o_side x); cbn [recorded new_book b_trail_ask b_trail_bid].
  - rewrite (u64_small (MAX64 - o_tdist x)) by lia. rewrite (proj2 (Z.ltb_ge MAX64 _)) by lia. destruct (_ && _) eqn:E; lia.
  - rewrite (u64_small (o_tdist x)) by lia. rewrite (proj2 (Z.ltb_ge _ 0)) by lia. destruct (_ && _) eqn:E; lia.
Qed.

(** Enabling matching before the first order changes nothing. *)
Lemma match_book_empty e : (forall k, best k e = None) -> match_book e = Ok e.
Proof.
  intros H. unfold match_book, fuel_of. cbn [match_loop]. unfold fuel_of. cbn [match_while]. unfold crossed. rewrite (H KBid). cbn [rbind].
  unfold activate_all, fuel_of. cbn [activate_loop]. unfold activate_round. 
  unfold activate_level at 1. rewrite (H KBuyStop). cbn [rbind]. unfold activate_level at 1. rewrite (H KTrailBuy). cbn [rbind].
  unfold recalc at 1. rewrite (H KAsk). cbn [rbind].
  unfold activate_level at 1. rewrite (H KSellStop). cbn [rbind]. unfold activate_level at 1. rewrite (H KTrailSell). cbn [rbind].
  unfold recalc at 1. rewrite (H KBid). cbn [rbind]. done.
Qed.
Lemma match_books_empty idx : forall s s', inv s -> st_ords s = ∅ -> all_kept s -> match_books idx s = Ok s' -> all_kept s' /\ st_ords s' = ∅.
Proof.
  induction idx as [|n idx IH]; intros s s' Hinv He Ha Hm; cbn [match_books] in Hm; [by injection Hm as <-|].
  destruct (get_book (Z.of_nat n) s) as [b|] eqn:Hb; [|by eapply IH].
  pose proof (inv_eng _ _ _ Hinv Hb) as Hok.
  assert (Hbest : forall k, best k (eng_of b s) = None).
  { intros k. destruct (best k (eng_of b s)) as [p|] eqn:E; [|done]. exfalso. destruct (best_some _ _ _ _ _ (proj2 Hok) E) as [Hq _].
    destruct (queue (e_bk (eng_of b s)) k p) as [|i l] eqn:Eq; [done|]. destruct (queue_facts _ _ k p i Hok) as (o & Ho & _); [rewrite Eq; left|]. cbn in Ho. by rewrite He, lookup_empty in Ho. }
  rewrite (on_book_run (Z.of_nat n) b _ s (eng_of b s) tt) in Hm by (by rewrite match_book_empty). cbn [rbind] in Hm.
  eapply (IH _ _); [| | |exact Hm].
  - by eapply put_inv.
  - done.
  - eapply put_kept; [exact Hb|apply frame_refl|by apply Ha|done].
Qed.

Record kept_state (s : state) : Prop := {
  ks_inv : inv s; ks_aon : no_live_aon s; ks_kept : all_kept s; ks_off : st_match s = false -> st_ords s = ∅
}.
Lemma books_kept s s' : (forall i b, get_book i s' = Some b -> get_book i s = Some b \/ exists sy, b = new_book sy) -> st_ords s' = st_ords s -> inv s -> all_kept s -> all_kept s'.
Proof.
  intros Hb Ho Hi Ha i b Hg. destruct (Hb _ _ Hg) as [H|[sy ->]].
  - eapply (kept_ext i (eng_of b s)); [done| |by apply Ha]. intros j o _. cbn. by rewrite Ho.
  - unfold eng_of. apply new_kept. rewrite Ho. apply Hi.
Qed.
Lemma step_kept s a s' er : kept_state s -> op_ok s a -> trades_automatically s a -> step s a = Ok (s', er) -> kept_state s'.
Proof.
  intros [Hinv Hno Ha Hoff] Hop (Hmt & Hen & Hnd & Hnm & Had & Hdup) Hst. specialize (Hdup _ _ Hst).
  destruct (step_ok s a Hinv Hop) as (s1 & er1 & Hst1 & Hr & Hinv'). rewrite Hst in Hst1. injection Hst1 as <- <-.
  assert (Hno' : no_live_aon s').
  { destruct (call_exists s a Hinv Hop) as (s1 & er1 & evs & Hc). pose proof Hc as [Hst1 _]. rewrite Hst in Hst1. injection Hst1 as <- <-.
    destruct (call_q (fun o => o_tif o <> AON) s a s' er evs closed_tif (aon_keeps a Had) Hinv Hop Hc Hno) as [H _]. exact H. }
  pose proof (step_match s a s' er Hinv Hop Hst) as Hsm.
  assert (Hok : forall P : Prop, (added a <> None \/ order_call a = true) -> st_match s' = false -> P).
  { intros P H E. specialize (Hmt H). rewrite Hsm in E. destruct a; cbn in H; try (by destruct H); congruence. }
  assert (all_kept s' /\ (st_match s' = false -> st_ords s' = ∅)) as [? ?]; [|by constructor].
  destruct (order_call a) eqn:Eo.
  { assert (Hm : st_match s = true) by auto. split; [|apply Hok; auto].
    assert (Hout : outcome s a s' er) by (inversion Hr; subst; done).
    destruct a; try done; try (by eapply (outcome_kept s _ s' er Hinv Hout)). by eapply (added_kept s o s' er). }
  inversion Hr as [? ? ? Hord Hout|i o ? H1 H2 Hout|i o s1 ? ? Ho1 Hi1 Hop1 Ho2|? Hm|? Hm| |sy v Hg Hv|sy v Hg Hi Hv|i Hg|i sy v Hg Hv|sy Hg|sy v Hg Hg' Hv|sy reg v Hg Hg' Hv|i Hg|i b v Hg Hv]; subst; try done; try (by destruct a).
  - (* ReplaceWith *) clear Hr Ho1 Hi1 Hop1 Ho2 s1. assert (Hmt' : st_match s = true) by (apply Hmt; left; by cbn). split; [|apply Hok; left; by cbn].
    cbn [step] in Hst. unfold api_replace_with in Hst. destruct Hop as (Hi & Hrg & Htot).
    destruct (order_op_ok s (DeleteOrder i) Hinv Hi eq_refl) as (s1 & er1 & Heq1 & Ho1). pose proof Heq1 as Heq1'. cbn [step] in Heq1'. rewrite Heq1' in Hst. cbn [rbind] in Hst.
    pose proof (outcome_inv _ _ _ _ Hinv Ho1) as Hinv1.
    assert (Hno1 : no_live_aon s1).
    { destruct (call_exists s (DeleteOrder i) Hinv Hi) as (s2 & er2 & evs & Hc). pose proof Hc as [Hst2 _]. rewrite Heq1 in Hst2. injection Hst2 as <- <-.
      destruct (call_q (fun o => o_tif o <> AON) s (DeleteOrder i) s1 er1 evs closed_tif I Hinv Hi Hc Hno) as [H _]. exact H. }
    destruct (decide (er1 = OK)) as [->|Hne].
    + assert (Hk1 : all_kept s1) by (eapply (outcome_kept s); done).
      assert (Hop1 : op_ok s1 (AddOrder o)). { split; [done|]. pose proof (outcome_total s _ s1 Hinv Ho1). lia. }
      eapply (added_kept s1 o); try done. by rewrite (outcome_match _ _ _ _ Ho1).
    + assert (Hs1 : s1 = s) by (inversion Ho1 as [? Hn Hd|sid b c e' ? Hb Htg Hhd Hc Hfr Hend]; subst; [done|]; inversion Hend; subst; [done|]; inversion Hhd; subst; done).
      subst s1. destruct er1; try done; by injection Hst as <- <-.
  - (* EnableMatching *) clear Hm. specialize (Hen eq_refl). specialize (Hoff Hen). split; [|by intros E; rewrite Hsm in E].
    cbn [step] in Hst. destruct (match_all (set_matching true s)) as [s1| |] eqn:Em; cbn [rbind] in Hst; [|done|done]. injection Hst as <-.
    eapply match_books_empty; [| | |exact Em]; [destruct Hinv; by constructor|done|]. exact Ha.
  - split; [|done]. apply (books_kept s); [intros ? ? H; left; exact H|done|exact Hinv|exact Ha].
  - split; [|done]. apply (books_kept s); [intros ? ? H; left; exact H|done|exact Hinv|exact Ha].
  - split; [|done]. apply (books_kept s); [|done|exact Hinv|exact Ha]. intros i b. unfold get_book. cbn. rewrite Hv. by left.
  - split; [|done]. apply (books_kept s); [|done|exact Hinv|exact Ha]. intros i b. unfold get_book. cbn. rewrite Hv. destruct (decide _); [intros [= <-]; right; eauto|by left].
  - split; [|done]. apply (books_kept s); [|done|exact Hinv|exact Ha]. intros j b'. unfold get_book. cbn. rewrite Hv. destruct (decide _); [done|by left].
Qed.
Lemma reach_kept s : reach_if trades_automatically s -> kept_state s.
Proof.
  induction 1 as [|s a s' er _ IH Hop HP Hst]; [|by eapply step_kept].
  constructor; [apply inv_init|intros i o; cbn; by rewrite lookup_empty| |done]. intros i b Hb. unfold get_book in Hb. cbn in Hb. by rewrite vfind_nil in Hb.
Qed.
