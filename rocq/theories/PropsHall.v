(** * PropsHall.v -- whole histories against the reference exchange with stop orders of Spec13.v: C57. *)
From Coq Require Import ZifyBool.
From stdpp Require Import fin_maps gmap relations sorting.
From Verif Require Import Types Book Engine Manager Factory Validate LevelFacts BookInv EngInv EngPrim Steps StepsOk Refine1 Refine2 Refine3 Refine4 Api StateInv Micro Reach Calls Trades Settle Witness PropsState PropsSettle CallFacts PropsBasic PropsTrades PropsOrders PropsFok PropsFill PropsDirect PropsReject RefMatch PropsRef RefExchange PropsExchange RefStops RefHall HallCalls Spec Spec2 Spec3 Spec5 Spec6 Spec7 Spec8 Spec13.

(** ** Match() *)
Lemma match_books_hall idx : forall s s' x, fits x s -> match_books idx s = Ok s' ->
  exists evs x', st_log s' = st_log s ++ evs /\ match_in (map Z.of_nat idx) x = (execs evs, x') /\ fits x' s'.
Proof.
  induction idx as [|n idx IH]; intros s s' x Hft H; cbn [match_books map match_in] in *.
  { injection H as <-. exists [], x. by rewrite app_nil_r. }
  rewrite (ft_pit _ _ Hft). destruct (get_book (Z.of_nat n) s) as [b|] eqn:Hb; [|by apply IH].
  pose proof (ft_good _ _ Hft _ _ Hb) as Hg. unfold on_book in H. change (mkEng b (st_ords s) (st_log s)) with (eng_of b s) in H.
  destruct (match_book (eng_of b s)) as [e| |] eqn:E; cbn [rbind] in H; try done.
  destruct (match_book_ok2 _ _ _ Hg E) as (xs & Hr & Hrun). rewrite Hr. destruct (r_log _ _ _ _ Hrun) as (evs & Hlog & <-).
  destruct (IH (put_eng (Z.of_nat n) e s) s' (set_pit (Z.of_nat n) (pit_of e) x)) as (evs' & x' & Hl & Hm & Hf); [by eapply fits_put|exact H|].
  rewrite Hm. exists (evs ++ evs'), x'. split; [rewrite Hl; cbn; rewrite Hlog; cbn; by rewrite app_assoc|]. split; [by rewrite execs_app|done].
Qed.
Lemma match_in_filter : forall ids x, match_in ids x = match_in (filter (fun i => is_Some (h_pits x !! i)) ids) x.
Proof.
  induction ids as [|i ids IH]; intros x; [done|]. rewrite filter_cons. cbn [match_in]. destruct (h_pits x !! i) as [y|] eqn:E.
  - rewrite decide_True by done. cbn [match_in]. rewrite E. destruct (rounds _ y) as [xs y1]. rewrite IH.
    assert (Hf : filter (fun j => is_Some (h_pits (set_pit i y1 x) !! j)) ids = filter (fun j => is_Some (h_pits x !! j)) ids).
    { apply list_filter_iff. intros j. cbn. destruct (decide (i = j)) as [<-|Hne]; [rewrite lookup_insert, E; split; eauto|by rewrite lookup_insert_ne]. }
    by rewrite Hf.
  - rewrite decide_False by (intros [? ?]; done). apply IH.
Qed.
Lemma seq_sorted n m : StronglySorted Z.le (map Z.of_nat (seq n m)).
Proof.
  revert n. induction m as [|m IH]; intros n; cbn; [constructor|]. constructor; [apply IH|]. apply Forall_forall. intros z Hz. apply elem_of_list_fmap in Hz as (k & -> & Hk).
  apply elem_of_seq in Hk. lia.
Qed.
Lemma filter_sorted P `{forall i : Z, Decision (P i)} l : StronglySorted Z.le l -> StronglySorted Z.le (filter P l).
Proof.
  induction 1 as [|a l Hs IH Hb]; [constructor|]. rewrite filter_cons. destruct (decide (P a)); [|done]. constructor; [done|]. rewrite Forall_forall in *. intros z Hz. apply elem_of_list_filter in Hz as [_ Hz]. by apply Hb.
Qed.
Lemma open_seq x n : (forall i y, h_pits x !! i = Some y -> 0 <= i < Z.of_nat n) -> filter (fun i => is_Some (h_pits x !! i)) (map Z.of_nat (seq 0 n)) = open_ids x.
Proof.
  intros Hin. apply (StronglySorted_unique Z.le); [apply filter_sorted, seq_sorted|apply StronglySorted_merge_sort; apply _|].
  unfold open_ids. rewrite merge_sort_Permutation. apply NoDup_Permutation.
  - apply NoDup_filter. apply NoDup_fmap; [intros ? ?; lia|apply NoDup_seq].
  - apply NoDup_fst_map_to_list.
  - intros i. rewrite elem_of_list_filter, !elem_of_list_fmap. split.
    + intros ([y Hy] & _). exists (i, y). split; [done|]. by apply elem_of_map_to_list.
    + intros ([j y] & -> & Hy). apply elem_of_map_to_list in Hy. cbn. split; [eauto|]. exists (Z.to_nat j). pose proof (Hin _ _ Hy). split; [lia|]. apply elem_of_seq. lia.
Qed.
Lemma match_all_hall s s' x : fits x s -> match_all s = Ok s' -> exists evs x', st_log s' = st_log s ++ evs /\ match_in (open_ids x) x = (execs evs, x') /\ fits x' s'.
Proof.
  intros Hft H. destruct (match_books_hall _ s s' x Hft H) as (evs & x' & A & B & C). exists evs, x'. split; [done|]. split; [|done].
  rewrite match_in_filter, open_seq in B; [done|]. intros i y Hy. rewrite (ft_pit _ _ Hft) in Hy. destruct (get_book i s) as [b|] eqn:Hb; [|done].
  unfold get_book, vfind, vget, vsize in Hb. destruct (Z.leb_spec 0 i); cbn in Hb; [|done]. destruct (Z.ltb_spec i (Z.of_nat (length (st_books s)))); [lia|done].
Qed.

(** ** One call *)
Lemma pit_ext s s' i b : get_book i s' = Some b -> st_ords s' = st_ords s -> pit_of (eng_of b s') = pit_of (eng_of b s).
Proof. intros _ H. unfold pit_of, orders_of. cbn [eng_of e_ords]. by rewrite H. Qed.
Lemma fits_reg x s s' x' : fits x s -> inv s' -> st_match s' = true -> st_ords s' = st_ords s -> (forall i, h_syms x' !! i = get_symbol i s') ->
  (forall i, (get_book i s' = get_book i s /\ h_pits x' !! i = h_pits x !! i) \/ (get_book i s' = None /\ h_pits x' !! i = None) \/
     (exists reg, get_book i s' = Some (new_book reg) /\ h_pits x' !! i = Some empty_pit)) -> fits x' s'.
Proof.
  intros [A B C D E] Hi Hm Ho Hsy Hbk. assert (Hn : forall reg k, orders_of k (eng_of (new_book reg) s') = []) by (intros reg k; by destruct k).
  constructor; [done|done|done| |].
  - intros i. destruct (Hbk i) as [[H1 H2]|[[H1 H2]|(reg & H1 & H2)]].
    + rewrite H2, D, <- H1. destruct (get_book i s') as [b|] eqn:Eb; [|done]. by rewrite (pit_ext s s' i b Eb Ho).
    + by rewrite H1. + by rewrite H1.
  - intros i b Hb. pose proof (inv_eng _ _ _ Hi Hb) as He. destruct (Hbk i) as [[H1 H2]|[[H1 H2]|(reg & H1 & H2)]].
    + rewrite H1 in Hb. destruct (E i b Hb) as [G1 G2 G3 G4]. assert (Hs : forall k, orders_of k (eng_of b s') = orders_of k (eng_of b s)) by (intros k; unfold orders_of; cbn [eng_of e_ords]; by rewrite Ho).
      constructor; [done|done|by rewrite !Hs|]. intros k r. rewrite Hs. apply G4.
    + congruence.
    + rewrite H1 in Hb. injection Hb as <-. constructor; [done|done|by rewrite !Hn|]. intros k r. rewrite Hn. intros H. by apply elem_of_nil in H.
Qed.
Lemma ords_ext s s' : inv s -> inv s' -> (forall i, get_order i s' = get_order i s) -> st_ords s' = st_ords s.
Proof. intros Hi Hi' H. apply map_eq. intros i. by rewrite <- !get_order_inv. Qed.
Lemma step_hall s a s' er evs x : reach s -> op_ok s a -> covered_stops a -> call s a s' er evs -> fits x s ->
  exists x', hall_step a x = (er, execs evs, x') /\ fits x' s'.
Proof.
  intros Hr Hop Hcov Hc Hft. pose proof (ft_inv _ _ Hft) as Hi. pose proof Hc as [Hst Hlog].
  assert (Hr' : reach s') by (by eapply reach_step). pose proof (reach_inv _ Hr') as Hi'.
  assert (Hm' : st_match s' = true). { rewrite (step_match s a s' er Hi Hop Hst). destruct Hcov as [Hd _]. by destruct a; try apply (ft_mt _ _ Hft). }
  assert (Hgo : answers a s x (step s a) -> exists x', hall_step a x = (er, execs evs, x') /\ fits x' s').
  { intros H. destruct (H s' er Hst) as (evs1 & x' & Hl & Hx & Hf). rewrite Hlog in Hl. apply app_inv_head in Hl. subst evs1. by exists x'. }
  pose proof (C30_registry s a s' er evs Hr Hop Hc) as Hreg.
  destruct a as [sy|i|sy|i|o|i q|i p q|i p q|i ni p q|i o|i|i q|i p q| | |].
  - destruct Hreg as (Hb & Ho & Hs). pose proof (ords_ext s s' Hi Hi' Ho) as Hoe. cbn [hall_step]. rewrite (ft_sym _ _ Hft). destruct (get_symbol (sy_id sy) s) eqn:E.
    + destruct Hs as (-> & -> & Hs). exists x. split; [done|]. eapply (fits_reg x s); try done; [intros i; by rewrite Hs, (ft_sym _ _ Hft)|]. intros i. left. by rewrite Hb.
    + destruct Hs as (-> & -> & Hs1 & Hs). eexists. split; [done|]. eapply (fits_reg x s); try done.
      * intros i. cbn. destruct (decide (sy_id sy = i)) as [<-|Hne]; [by rewrite lookup_insert|]. by rewrite lookup_insert_ne, Hs, (ft_sym _ _ Hft).
      * intros i. left. by rewrite Hb.
  - destruct Hreg as (Hb & Ho & Hs). pose proof (ords_ext s s' Hi Hi' Ho) as Hoe. cbn [hall_step]. rewrite (ft_sym _ _ Hft). destruct (get_symbol i s) eqn:E.
    + destruct Hs as (-> & -> & Hs1 & Hs). eexists. split; [done|]. eapply (fits_reg x s); try done.
      * intros j. cbn. destruct (decide (i = j)) as [<-|Hne]; [by rewrite lookup_delete|]. by rewrite lookup_delete_ne, Hs, (ft_sym _ _ Hft).
      * intros j. left. by rewrite Hb.
    + destruct Hs as (-> & -> & Hs). exists x. split; [done|]. eapply (fits_reg x s); try done; [intros j; by rewrite Hs, (ft_sym _ _ Hft)|]. intros j. left. by rewrite Hb.
  - destruct Hreg as (Hs & Ho & Hb). pose proof (ords_ext s s' Hi Hi' Ho) as Hoe. cbn [hall_step]. rewrite (ft_sym _ _ Hft), (ft_pit _ _ Hft). destruct (get_symbol (sy_id sy) s) as [reg|] eqn:E.
    + destruct (get_book (sy_id sy) s) eqn:Eb.
      * destruct Hb as (-> & -> & Hb). exists x. split; [done|]. eapply (fits_reg x s); try done; [intros j; by rewrite Hs, (ft_sym _ _ Hft)|]. intros j. left. by rewrite Hb.
      * destruct Hb as (-> & -> & Hb1 & Hb). eexists. split; [done|]. eapply (fits_reg x s); try done; [intros j; cbn; by rewrite Hs, (ft_sym _ _ Hft)|].
        intros i. cbn. destruct (decide (sy_id sy = i)) as [<-|Hne]; [right; right; exists reg; by rewrite lookup_insert|]. left. by rewrite lookup_insert_ne, Hb.
    + destruct Hb as (-> & -> & Hb). exists x. split; [done|]. eapply (fits_reg x s); try done; [intros j; by rewrite Hs, (ft_sym _ _ Hft)|]. intros j. left. by rewrite Hb.
  - destruct Hreg as (Hs & Ho & Hb). pose proof (ords_ext s s' Hi Hi' Ho) as Hoe. cbn [hall_step]. rewrite (ft_pit _ _ Hft). destruct (get_book i s) eqn:Eb.
    + destruct Hb as (-> & -> & Hb1 & Hb). eexists. split; [done|]. eapply (fits_reg x s); try done; [intros j; cbn; by rewrite Hs, (ft_sym _ _ Hft)|].
      intros j. cbn. destruct (decide (i = j)) as [<-|Hne]; [right; left; by rewrite lookup_delete|]. left. by rewrite lookup_delete_ne, Hb.
    + destruct Hb as (-> & -> & Hb). exists x. split; [done|]. eapply (fits_reg x s); try done; [intros j; by rewrite Hs, (ft_sym _ _ Hft)|]. intros j. left. by rewrite Hb.
  - apply Hgo. exact (call_add2 s x Hft o Hop Hcov).
  - apply Hgo. by apply call_reduce2.
  - apply Hgo. by apply (call_modify2 s x Hft false).
  - apply Hgo. by apply (call_modify2 s x Hft true).
  - apply Hgo. by apply call_replace2.
  - (* ReplaceWith *) clear Hreg Hgo. destruct (refusal s (ReplaceWith i o)) as [e|] eqn:Ef.
    + destruct (C46_refused _ _ _ _ _ _ Hr Hop Hc Ef) as (-> & (S1 & S2 & S3 & _) & ->). exists x. split.
      * cbn in Ef |- *. destruct (decide (i = 0)) as [->|Hi0]; [injection Ef as <-; unfold with_sought; by rewrite decide_True|]. unfold need_order in Ef. rewrite get_order_inv in Ef by done.
        destruct (st_ords s !! i) eqn:Eo; [done|]. injection Ef as <-. by apply (sought_none s x Hft).
      * pose proof (ords_ext s s' Hi Hi' S3) as Hoe. eapply (fits_reg x s); try done; [intros j; by rewrite S1, (ft_sym _ _ Hft)|]. intros j. left. by rewrite S2.
    + destruct (C47_replace_with s i o s' er evs Hr Hop Hc Ef) as (s1 & evs1 & evs2 & Hc1 & Hc2 & ->).
      assert (Hop1 : op_ok s (DeleteOrder i)) by (destruct Hop; done).
      destruct (call_delete2 s x Hft i Hop1 s1 OK (proj1 Hc1)) as (evs1' & x1 & Hl1 & Hx1 & Hf1).
      rewrite (proj2 Hc1) in Hl1. apply app_inv_head in Hl1. subst evs1'.
      assert (Hop2 : op_ok s1 (AddOrder o)).
      { destruct (call_outcome s _ s1 OK evs1 Hr Hop1 eq_refl Hc1) as (_ & Hout & _). pose proof (outcome_total s i s1 Hi Hout). cbn in Hop |- *. destruct Hop as (_ & Hrg & Htot). split; [done|]. lia. }
      destruct (call_add2 s1 x1 Hf1 o Hop2) with (s' := s') (er := er) as (evs2' & x2 & Hl2 & Hx2 & Hf2).
      { split; [done|]. intros o0 [= <-]. by apply (proj2 Hcov). } { exact (proj1 Hc2). }
      rewrite (proj2 Hc2) in Hl2. apply app_inv_head in Hl2. subst evs2'.
      exists x2. split; [|done]. cbn [hall_step] in Hx1 |- *. unfold with_sought in *. destruct (decide (i = 0)); [done|]. destruct (seek i x) as [old|]; [|done]. destruct (h_pits x !! o_sym old) as [y|]; [|done].
      by rewrite Hx1, Hx2, execs_app.
  - apply Hgo. by apply call_delete2.
  - apply Hgo. eapply (call_execute2 s x Hft _ i 0 q); [by left|done].
  - apply Hgo. eapply (call_execute2 s x Hft _ i p q); [by right|done].
  - clear Hgo. cbn [step] in Hst. assert (E : set_matching true s = s) by (unfold set_matching; rewrite <- (ft_mt _ _ Hft); by destruct s). rewrite E in Hst.
    destruct (match_all s) as [s2| |] eqn:Em; try done. cbn in Hst. injection Hst as <- <-. destruct (match_all_hall s s2 x Hft Em) as (evs1 & x' & Hl & Hx & Hf). rewrite Hlog in Hl. apply app_inv_head in Hl. subst evs1.
    exists x'. split; [|done]. cbn [hall_step]. by rewrite Hx.
  - by destruct Hcov.
  - clear Hgo. cbn [step] in Hst.
    destruct (match_all s) as [s2| |] eqn:Em; try done. cbn in Hst. injection Hst as <- <-. destruct (match_all_hall s s2 x Hft Em) as (evs1 & x' & Hl & Hx & Hf). rewrite Hlog in Hl. apply app_inv_head in Hl. subst evs1.
    exists x'. split; [|done]. cbn [hall_step]. by rewrite Hx.
Qed.

(** ** C57 *)
Lemma fits_matches x s : fits x s -> matches x s.
Proof.
  intros Hft. pose proof (ft_inv _ _ Hft) as Hi. split; [apply Hft|]. split; [|intros i; rewrite get_order_inv by done; by apply seek_ok].
  intros i. rewrite (ft_pit _ _ Hft). destruct (get_book i s) as [b|] eqn:Hb; [|done]. intros sd. rewrite rest_orders, stops_orders. unfold resting, waiting, orders_of. rewrite Hb. cbn [eng_of e_ords lvls e_bk].
  split; apply omap_ext_in; intros j; by rewrite get_order_inv.
Qed.
Lemma run_hall s ops ers evs s' : performs s ops ers evs s' -> forall x, reach s -> Forall covered_stops ops -> fits x s ->
  exists x', hall_run ops x = (ers, execs evs, x') /\ fits x' s'.
Proof.
  induction 1 as [s|s a s1 er evs ops ers evs' s' Hop Hcall _ IH]; intros x Hr Hf Hft; [by exists x|]. apply Forall_cons in Hf as [Hc Hf].
  destruct (step_hall s a s1 er evs x Hr Hop Hc Hcall Hft) as (x1 & Hx1 & Hf1). assert (Hr1 : reach s1) by (eapply reach_step; [done|done|exact (proj1 Hcall)]).
  destruct (IH x1 Hr1 Hf Hf1) as (x2 & Hx2 & Hf2). exists x2. split; [|done]. cbn [hall_run]. by rewrite Hx1, Hx2, execs_app.
Qed.
(** A whole history: every code, every execution and everything visible in the end. *)
Theorem C57_history ops ers evs s : performs init (EnableMatching :: ops) ers evs s -> Forall covered_stops ops ->
  exists x, hall_run (EnableMatching :: ops) closed_hall = (ers, execs evs, x) /\ matches x s.
Proof.
  intros Hp Hf. inversion Hp as [|s0 a s1 er evs1 ops0 ers1 evs2 s2 Hop Hcall Hrun]; subst.
  assert (Hr : reach s1) by (eapply reach_step; [constructor|exact Hop|exact (proj1 Hcall)]). pose proof (reach_inv _ Hr) as Hi.
  pose proof Hcall as [Hst Hlog]. cbn in Hst. injection Hst as <- <-. assert (evs1 = []) as -> by exact (eq_sym Hlog).
  destruct (run_hall _ _ _ _ _ Hrun closed_hall Hr Hf) as (x & Hx & Ha).
  - constructor; [done|done| | |].
    + intros i. cbn. rewrite lookup_empty. unfold get_symbol, vfind, vget, vsize. cbn. by destruct (_ && _).
    + intros i. cbn. rewrite lookup_empty. unfold get_book, vfind, vget, vsize. cbn. by destruct (_ && _).
    + intros i b Hb. unfold get_book, vfind, vget, vsize in Hb. cbn in Hb. by destruct (_ && _).
  - exists x. split; [|by apply fits_matches]. cbn [hall_run hall_step match_in open_ids]. change (open_ids closed_hall) with (@nil Z). cbn [match_in]. by rewrite Hx.
Qed.
Print Assumptions C57_history.

(** A day with stop and stop-limit orders: some trigger on arrival, one wave triggers the next, a triggered stop-limit order rests. *)
Definition hall_day : list op := EnableMatching :: setup ++
  [SL 1 100 5; SL 2 102 5; BL 3 90 5; BL 4 88 5;
   AddOrder (StopOrder 5 0 BUY 102 3 GTC MAX64); AddOrder (StopLimitOrder 6 0 BUY 101 103 4 GTC MAX64); AddOrder (StopOrder 7 0 BUY 102 4 FOK MAX64);
   AddOrder (StopLimitOrder 8 0 SELL 88 87 4 GTC MAX64); AddOrder (StopOrder 9 0 SELL 80 4 IOC MAX64); AddOrder (StopOrder 10 0 BUY 99 1 GTC MAX64);
   Match; AddOrder (MarketOrder 11 0 BUY 4 MAX64); ReduceOrder 9 1; MitigateOrder 8 86 6; AddOrder (StopOrder 12 0 SELL 79 1 GTC MAX64); AddOrder (MarketOrder 13 0 SELL 6 MAX64);
   ReplaceOrder 9 14 85 1; ModifyOrder 12 0 2; BL 15 84 3; DeleteOrder 15; SL 3 88 1; BL 16 84 3;
   AddOrder (StopOrder 17 0 SELL 80 2 GTC MAX64); AddOrder (StopLimitOrder 18 0 SELL 82 81 2 GTC MAX64); ReplaceOrder 16 19 83 2; AddOrder (StopOrder 20 0 BUY 95 2 GTC MAX64); ReduceOrder 17 1; ExecuteOrderAt 19 83 1; ExecuteOrderAt 19 81 5; Match].
Definition brief_hall (y : list err * list (order * Z * Z) * hall) : list err * list (Z * Z * Z) * list (list (Z * Z)) :=
  let '(ers, xs, x) := y in
  (ers, map (fun z => (o_id (fst (fst z)), snd (fst z), snd z)) xs,
   match h_pits x !! 0 with Some w => map (map (fun o => (o_id o, o_leaves o))) [y_bids w; y_asks w; y_buys w; y_sells w] | None => [] end).
Lemma hall_day_covered : Forall covered_stops (tail hall_day).
Proof. repeat apply Forall_cons_2; try apply Forall_nil_2; (split; [discriminate|]); cbn; intros o [= <-]; cbn; auto. Qed.
Example C57_example : (exists ers evs, performs init hall_day ers evs (hist hall_day)) /\
  brief_hall (hall_run hall_day closed_hall) =
  ([OK; OK; OK; OK; OK; OK; OK; OK; OK; OK; OK; OK; OK; OK; OK; OK; OK; OK; OK; ORDER_NOT_FOUND; ORDER_NOT_FOUND; OK; OK; OK; OK; OK; OK; OK; OK; OK; OK; OK; OK],
   [(1, 100, 1); (10, 100, 1); (1, 100, 4); (11, 100, 4); (2, 102, 4); (6, 102, 4); (2, 102, 1); (5, 102, 1); (3, 90, 5); (8, 90, 5); (4, 88, 1); (8, 88, 1); (4, 88, 4); (13, 88, 4); (19, 83, 1); (19, 81, 1)],
   [[]; [(18, 2); (3, 1)]; [(20, 2)]; []]).
Proof.
  split; [|vm_compute; reflexivity]. apply history_performs; [constructor|]. unfold hist.
  assert (H : (match history init hall_day with Some _ => true | None => false end) = true) by (vm_compute; reflexivity).
  destruct (history init hall_day); [reflexivity|discriminate].
Qed.
