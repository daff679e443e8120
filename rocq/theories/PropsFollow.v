(** * PropsFollow.v -- trailing stops keep up with the market: C56. *)
From Coq Require Import ZifyBool.
From stdpp Require Import fin_maps relations.
From Verif Require Import Types Book Engine Manager Factory Validate LevelFacts BookInv EngInv EngPrim Steps StepsOk Refine1 Refine2 Refine3 Refine4 Trail Trail2 Api StateInv Micro Reach Calls Settle Witness PropsState Follow PropsMirror2 PropsTrail Spec Spec2 Spec3 Spec4 Spec6 Spec12.

Lemma settled_behind o m : is_trailing o = true -> trailing_ok o -> 0 <= o_tdist o -> u64_range (o_stop o) -> rec_ok (o_side o) m ->
  calc_at o m = o_stop o -> at_most_a_step_behind o (trail_target o m).
Proof.
  intros Ht Hok Hd Hst. specialize (Hok ltac:(unfold is_trailing, is_trailing_stop, is_trailing_stop_limit in Ht; destruct (o_type o); cbn in Ht; try done; auto)).
  assert (0 < o_tdist o < TWO63 /\ 0 <= o_tstep o < o_tdist o) as [? ?] by (destruct Hok as [|[? _]]; lia).
  assert (HM : MAX64 = 18446744073709551615) by reflexivity. assert (HT : TWO63 = 9223372036854775808) by reflexivity.
  unfold calc_at, at_most_a_step_behind, trail_target, trail_units, rec_ok, u64_range in *. rewrite (decide_False (P := o_tdist o < 0)) by lia.
  rewrite (proj2 (Z.ltb_ge (o_tdist o) 0)) by lia. rewrite (u64_small (o_tstep o)) by lia. destruct (o_side o); intros Hm.
  - rewrite (u64_small (MAX64 - o_tdist o)) by lia. set (new := if m <? _ then _ else _).
    assert (E : new = Z.min MAX64 (m + o_tdist o)).
    { unfold new. destruct (Z.ltb_spec m (MAX64 - o_tdist o)); [rewrite u64_small by lia|]; lia. }
    destruct ((new <? o_stop o) && (o_tstep o <=? o_stop o - new)) eqn:Ec; lia.
  - rewrite (u64_small (o_tdist o)) by lia. set (new := if _ <? m then _ else _).
    assert (E : new = Z.max 0 (m - o_tdist o)).
    { unfold new. destruct (Z.ltb_spec (o_tdist o) m); [rewrite u64_small by lia|]; lia. }
    destruct ((o_stop o <? new) && (o_tstep o <=? new - o_stop o)) eqn:Ec; lia.
Qed.
Lemma tmarket_seen s c i b sd : reach s -> mirrors c s -> get_book i s = Some b ->
  exists t, c i = Some t /\ trailing_market t sd (last_trade (opposite sd) i (st_log s)) (tmarket sd b).
Proof.
  intros Hr Hm Hb. pose proof (Hm i) as Hmi. rewrite Hb in Hmi. destruct (c i) as [t|]; [|done]. exists t. split; [done|].
  rewrite <- (reach_lasts _ Hr _ _ _ Hb). apply (market_seen (st_ords s) i); [by apply (iv_book _ (reach_inv _ Hr))|done|].
  rewrite (reach_lasts _ Hr _ _ _ Hb). apply last_range. by apply reach_price.
Qed.
Lemma empty_settled o m : is_trailing o = true -> trailing_ok o -> 0 <= o_tdist o -> u64_range (o_stop o) ->
  (match o_side o with BUY => MAX64 <= m | SELL => m <= 0 end) -> at_most_a_step_behind o (trail_target o m).
Proof.
  intros Ht Hok Hd Hst Hm. unfold at_most_a_step_behind, trail_target, trail_units, u64_range in *. rewrite (decide_False (P := o_tdist o < 0)) by lia.
  destruct (o_side o); left; lia.
Qed.

(** ** C56
    In a history that leaves matching to the order calls, after every call, every live trailing stop
    with an absolute distance is at its distance from the market, or less than a step behind. *)
Theorem C56_follow s c i o : reach_if trades_automatically s -> mirrors c s -> get_order i s = Some o ->
  trailing_kind (o_type o) = true -> 0 <= o_tdist o ->
  exists t market, c (o_sym o) = Some t /\
    trailing_market t (o_side o) (last_trade (opposite (o_side o)) (o_sym o) (st_log s)) market /\
    at_most_a_step_behind o (trail_target o market).
Proof.
  intros Hr Hm Ho Hk Hd. pose proof (reach_if_reach _ _ Hr) as Hr'. destruct (reach_kept s Hr) as [Hinv _ Ha _].
  rewrite (get_order_inv s i Hinv) in Ho. destruct (get_book (o_sym o) s) as [b|] eqn:Hb; [|by destruct (iv_home _ Hinv _ _ Ho)].
  destruct (tmarket_seen s c _ b (o_side o) Hr' Hm Hb) as (t & Ht & Htm). exists t, (tmarket (o_side o) b). split; [done|]. split; [done|].
  pose proof (mo_live _ (iv_map _ Hinv) _ _ Ho) as Hl. assert (Htr : is_trailing o = true) by (clear -Hk; unfold is_trailing, is_trailing_stop, is_trailing_stop_limit; by destruct (o_type o)).
  destruct (Ha _ _ Hb) as [Hj Hcu _]. pose proof (inv_eng _ _ _ Hinv Hb) as He. pose proof (tmarket_ok _ _ (o_side o) He) as Hrg. cbn in Hrg.
  destruct (best (opp (o_side o)) (eng_of b s)) as [p|] eqn:Eb.
  - apply settled_behind; [done|apply Hl|done|apply Hl|done|]. specialize (Hcu (o_side o)). cbn in Hcu. rewrite <- Hcu by (by rewrite Eb).
    apply (ts_ord _ _ Hj i o); [done|done|done|].
    pose proof (lo_trail _ _ Hl) as Hok. specialize (Hok ltac:(unfold is_trailing, is_trailing_stop, is_trailing_stop_limit in Htr; destruct (o_type o); cbn in Htr; try done; auto)). lia.
  - apply empty_settled; [done|apply Hl|done|apply Hl|]. unfold best in Eb. cbn in Eb.
    unfold tmarket, trailing_market_ask, trailing_market_bid, best_ask_price, best_bid_price. destruct (o_side o); cbn in Eb; rewrite Eb; lia.
Qed.
Print Assumptions C56_follow.

(** *** Examples *)
Fixpoint auto_history (s : state) (ops : list op) : option state :=
  match ops with
  | [] => Some s
  | a :: ops =>
      if op_okb s a && (negb (order_call a || match a with ReplaceWith _ _ => true | _ => false end) || st_match s) &&
         match a with EnableMatching => negb (st_match s) | DisableMatching | Match => false | _ => true end &&
         match added a with Some o => negb (bool_decide (o_tif o = AON)) | None => true end
      then match step s a with Ok (s', er) => if bool_decide (er = ORDER_DUPLICATE) then None else auto_history s' ops | _ => None end else None
  end.
Lemma auto_reach ops : forall s s', reach_if trades_automatically s -> auto_history s ops = Some s' -> reach_if trades_automatically s'.
Proof.
  induction ops as [|a ops IH]; intros s s' Hr H; cbn [auto_history] in H; [by injection H as <-|].
  match type of H with (if ?x then _ else _) = _ => destruct x eqn:E end; [|done].
  apply andb_prop in E as [E E4]. apply andb_prop in E as [E E3]. apply andb_prop in E as [E1 E2]. apply op_okb_ok in E1.
  destruct (step s a) as [[s1 er]| |] eqn:Es; [|done|done]. destruct (bool_decide (er = ORDER_DUPLICATE)) eqn:Ed; [done|].
  apply bool_decide_eq_false in Ed. eapply IH; [|done]. eapply ri_step; [done|done| |done].
  split; [|split; [|split; [|split; [|split]]]].
  - intros Hx. apply orb_prop in E2 as [E2|E2]; [|done]. exfalso. destruct a; cbn in *; try done; destruct Hx; done.
  - intros ->. by destruct (st_match s).
  - by intros ->.
  - by intros ->.
  - intros o Ho. rewrite Ho in E4. apply negb_true_iff in E4. by apply bool_decide_eq_false in E4.
  - intros s2 er2 Hst. congruence.
Qed.
(** Trailing stops of both sides; the market moves up and down, trades, and the stops move with it;
    the step of order 12 is 20. *)
Definition ex_follow : list op := setup ++ [EnableMatching; SL 1 100 2; BL 2 100 2; SL 3 200 5; BL 4 50 5;
  AddOrder (TrailingStopOrder 10 0 BUY 1000 3 10 0 GTC MAX64); AddOrder (TrailingStopOrder 11 0 SELL 5 3 10 5 GTC MAX64);
  AddOrder (TrailingStopOrder 12 0 BUY 225 3 30 20 GTC MAX64); SL 5 190 5; BL 6 60 5; SL 7 185 1].
Definition stops_at (s : state) (i : Z) : option Z := o_stop <$> get_order i s.
Example C56_example : let s := hist ex_follow in reach_if trades_automatically s /\
  stops_at s 10 = Some 195 /\ stops_at s 11 = Some 50 /\ stops_at s 12 = Some 225.
Proof.
  split; [|vm_compute; done]. apply (auto_reach ex_follow init); [constructor|]. vm_compute. reflexivity.
Qed.

(** The claim does not extend to histories in which matching is switched off and on again ... *)
Lemma refuted_behind ops i o market : get_order i (hist ops) = Some o -> get_book (o_sym o) (hist ops) <> None ->
  trailing_kind (o_type o) = true -> 0 < o_tdist o -> tmarket (o_side o) (default (new_book (mkSymbol 0 0)) (get_book (o_sym o) (hist ops))) = market ->
  ~ at_most_a_step_behind o (trail_target o market) ->
  exists s, reach s /\ s = hist ops /\ get_order i s = Some o /\ trailing_kind (o_type o) = true /\ 0 < o_tdist o /\
    (forall c, mirrors c s -> exists t, c (o_sym o) = Some t /\ trailing_market t (o_side o) (last_trade (opposite (o_side o)) (o_sym o) (st_log s)) market) /\
    ~ at_most_a_step_behind o (trail_target o market).
Proof.
  intros Ho Hb Hk Hd Hm Hn. exists (hist ops). split; [apply hist_reach|]. split; [done|]. split; [done|]. split; [done|]. split; [done|]. split; [|done].
  intros c Hc. destruct (get_book (o_sym o) (hist ops)) as [b|] eqn:E; [|done]. cbn in Hm. rewrite <- Hm. apply tmarket_seen; [apply hist_reach|done|done].
Qed.
Definition ex_toggle : list op := setup ++ [EnableMatching; SL 1 100 1; BL 2 100 1; SL 3 100 5; DisableMatching; DeleteOrder 3; SL 4 200 5;
  AddOrder (TrailingStopOrder 5 0 BUY 1000 3 10 0 GTC MAX64); SL 6 100 5; EnableMatching].
Theorem C56_toggle_refuted : exists s i o market, reach s /\ st_match s = true /\ no_live_aon s /\ get_order i s = Some o /\
  trailing_kind (o_type o) = true /\ 0 < o_tdist o /\
  (forall c, mirrors c s -> exists t, c (o_sym o) = Some t /\ trailing_market t (o_side o) (last_trade (opposite (o_side o)) (o_sym o) (st_log s)) market) /\
  o_side o = BUY /\ o_stop o = 210 /\ o_tstep o = 0 /\ trail_target o market = 110.
Proof.
  destruct (refuted_behind ex_toggle 5 (TrailingStopOrder 5 0 BUY 210 3 10 0 GTC MAX64) 100) as (s & Hr & Es & Ho & Hk & Hd & Hm & _).
  - vm_compute. reflexivity.
  - vm_compute. done.
  - done.
  - done.
  - vm_compute. reflexivity.
  - vm_compute. intros [H|H]; [by apply H|done].
  - exists s, 5, (TrailingStopOrder 5 0 BUY 210 3 10 0 GTC MAX64), 100. split; [done|]. subst s. split; [vm_compute; reflexivity|].
    split. { intros i o Hi. assert (Hall : Forall (fun x => o_tif (snd x) <> AON) (map_to_list (st_ords (hist ex_toggle)))).
      { apply (bool_decide_unpack _). vm_compute. exact I. }
      rewrite Forall_forall in Hall. apply (Hall (i, o)). by apply elem_of_map_to_list. }
    split; [done|]. split; [done|]. split; [done|]. split; [done|]. split; [done|]. split; [done|]. split; [done|]. vm_compute. reflexivity.
Qed.
Print Assumptions C56_toggle_refuted.
(** ... nor to histories with an explicit call of Match(). *)
Definition ex_match : list op := setup ++ [EnableMatching; SL 1 60 1; BL 2 60 1; SL 3 60 5; DeleteOrder 3; BL 4 90 10; BL 5 100 1;
  AddOrder (StopOrder 7 0 SELL 95 2 GTC MAX64); ExecuteOrderAt 5 100 1; Match;
  AddOrder (TrailingStopOrder 9 0 BUY 1000 3 10 0 GTC MAX64); SL 10 100 5].
Theorem C56_match_refuted : exists s i o market, reach s /\ st_match s = true /\ s = hist ex_match /\ ~ DisableMatching ∈ ex_match /\ get_order i s = Some o /\
  trailing_kind (o_type o) = true /\ 0 < o_tdist o /\
  (forall c, mirrors c s -> exists t, c (o_sym o) = Some t /\ trailing_market t (o_side o) (last_trade (opposite (o_side o)) (o_sym o) (st_log s)) market) /\
  o_side o = BUY /\ o_stop o = 1000 /\ o_tstep o = 0 /\ trail_target o market = 110.
Proof.
  destruct (refuted_behind ex_match 9 (TrailingStopOrder 9 0 BUY 1000 3 10 0 GTC MAX64) 100) as (s & Hr & Es & Ho & Hk & Hd & Hm & _).
  - vm_compute. reflexivity.
  - vm_compute. done.
  - done.
  - done.
  - vm_compute. reflexivity.
  - vm_compute. intros [H|H]; [by apply H|done].
  - exists s, 9, (TrailingStopOrder 9 0 BUY 1000 3 10 0 GTC MAX64), 100. split; [done|]. subst s. split; [vm_compute; reflexivity|].
    split; [done|]. split. { intros H. unfold ex_match, setup in H. cbn in H. repeat (apply elem_of_cons in H as [H|H]; [done|]). by apply elem_of_nil in H. }
    split; [done|]. split; [done|]. split; [done|]. split; [done|]. split; [done|]. split; [done|]. split; [done|]. vm_compute. reflexivity.
Qed.
Print Assumptions C56_match_refuted.
