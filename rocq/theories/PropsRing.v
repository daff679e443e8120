(** * PropsRing.v -- whole histories against the reference exchange for all order types of Spec14.v: C58. *)
From Coq Require Import ZifyBool.
From stdpp Require Import fin_maps gmap relations sorting.
From Verif Require Import Types Book Engine Manager Factory Validate LevelFacts BookInv EngInv EngPrim Steps StepsOk Refine1 Refine2 Refine3 Refine4 Api StateInv Micro Reach Calls Trades Settle Witness PropsState PropsSettle CallFacts PropsBasic PropsTrades PropsOrders PropsFok PropsFill PropsTrail PropsDirect PropsReject RefMatch PropsRef RefExchange PropsExchange RefStops RefHall HallCalls PropsHall RefRing RefFollow RefRounds RingCalls Spec Spec2 Spec3 Spec5 Spec6 Spec7 Spec8 Spec13 Spec14.

(** ** Match() *)
Lemma match_books_ring idx : forall s s' x, suits x s -> match_books idx s = Ok s' ->
  exists evs x', st_log s' = st_log s ++ evs /\ clear_in (map Z.of_nat idx) x = (execs evs, x') /\ suits x' s'.
Proof.
  induction idx as [|n idx IH]; intros s s' x Hft H; cbn [match_books map clear_in] in *.
  { injection H as <-. exists [], x. by rewrite app_nil_r. }
  rewrite (su_ring _ _ Hft). destruct (get_book (Z.of_nat n) s) as [b|] eqn:Hb; [|by apply IH].
  pose proof (su_fine _ _ Hft _ _ Hb) as Hg. unfold on_book in H. change (mkEng b (st_ords s) (st_log s)) with (eng_of b s) in H.
  destruct (match_book (eng_of b s)) as [e| |] eqn:E; cbn [rbind] in H; try done.
  destruct (cleared_ok _ _ _ Hg E) as (xs & Hr & Hrun). rewrite Hr. destruct (m_log _ _ _ _ Hrun) as (evs & Hlog & <-).
  destruct (IH (put_eng (Z.of_nat n) e s) s' (set_ring (Z.of_nat n) (ring_of e) x)) as (evs' & x' & Hl & Hm & Hf); [by eapply suits_put|exact H|].
  rewrite Hm. exists (evs ++ evs'), x'. split; [rewrite Hl; cbn; rewrite Hlog; cbn; by rewrite app_assoc|]. split; [by rewrite execs_app|done].
Qed.
Lemma clear_in_filter : forall ids x, clear_in ids x = clear_in (filter (fun i => is_Some (u_rings x !! i)) ids) x.
Proof.
  induction ids as [|i ids IH]; intros x; [done|]. rewrite filter_cons. cbn [clear_in]. destruct (u_rings x !! i) as [y|] eqn:E.
  - rewrite decide_True by done. cbn [clear_in]. rewrite E. destruct (cleared y) as [xs y1]. rewrite IH.
    assert (Hf : filter (fun j => is_Some (u_rings (set_ring i y1 x) !! j)) ids = filter (fun j => is_Some (u_rings x !! j)) ids).
    { apply list_filter_iff. intros j. cbn. destruct (decide (i = j)) as [<-|Hne]; [rewrite lookup_insert, E; split; eauto|by rewrite lookup_insert_ne]. }
    by rewrite Hf.
  - rewrite decide_False by (intros [? ?]; done). apply IH.
Qed.
Lemma ring_seq x n : (forall i y, u_rings x !! i = Some y -> 0 <= i < Z.of_nat n) -> filter (fun i => is_Some (u_rings x !! i)) (map Z.of_nat (seq 0 n)) = ring_ids x.
Proof.
  intros Hin. apply (StronglySorted_unique Z.le); [apply filter_sorted, seq_sorted|apply StronglySorted_merge_sort; apply _|].
  unfold ring_ids. rewrite merge_sort_Permutation. apply NoDup_Permutation.
  - apply NoDup_filter. apply NoDup_fmap; [intros ? ?; lia|apply NoDup_seq].
  - apply NoDup_fst_map_to_list.
  - intros i. rewrite elem_of_list_filter, !elem_of_list_fmap. split.
    + intros ([y Hy] & _). exists (i, y). split; [done|]. by apply elem_of_map_to_list.
    + intros ([j y] & -> & Hy). apply elem_of_map_to_list in Hy. cbn. split; [eauto|]. exists (Z.to_nat j). pose proof (Hin _ _ Hy). split; [lia|]. apply elem_of_seq. lia.
Qed.
Lemma match_all_ring s s' x : suits x s -> match_all s = Ok s' -> exists evs x', st_log s' = st_log s ++ evs /\ clear_in (ring_ids x) x = (execs evs, x') /\ suits x' s'.
Proof.
  intros Hft H. destruct (match_books_ring _ s s' x Hft H) as (evs & x' & A & B & C). exists evs, x'. split; [done|]. split; [|done].
  rewrite clear_in_filter, ring_seq in B; [done|]. intros i y Hy. rewrite (su_ring _ _ Hft) in Hy. destruct (get_book i s) as [b|] eqn:Hb; [|done].
  unfold get_book, vfind, vget, vsize in Hb. destruct (Z.leb_spec 0 i); cbn in Hb; [|done]. destruct (Z.ltb_spec i (Z.of_nat (length (st_books s)))); [lia|done].
Qed.

(** ** One call *)
Lemma ring_ext s s' i b : get_book i s' = Some b -> st_ords s' = st_ords s -> ring_of (eng_of b s') = ring_of (eng_of b s).
Proof. intros _ H. unfold ring_of, half_in, orders_of. cbn [eng_of e_ords]. by rewrite H. Qed.
Lemma suits_reg x s s' x' : suits x s -> inv s' -> u_on x' = st_match s' -> st_ords s' = st_ords s -> (forall i, u_syms x' !! i = get_symbol i s') ->
  (forall i, (get_book i s' = get_book i s /\ u_rings x' !! i = u_rings x !! i) \/ (get_book i s' = None /\ u_rings x' !! i = None) \/
     (exists reg, get_book i s' = Some (new_book reg) /\ u_rings x' !! i = Some empty_ring)) -> suits x' s'.
Proof.
  intros [A B C D E] Hi Hm Ho Hsy Hbk. assert (Hn : forall reg k, orders_of k (eng_of (new_book reg) s') = []) by (intros reg k; by destruct k).
  constructor; [done|done|done| |].
  - intros i. destruct (Hbk i) as [[H1 H2]|[[H1 H2]|(reg & H1 & H2)]].
    + rewrite H2, D, <- H1. destruct (get_book i s') as [b|] eqn:Eb; [|done]. by rewrite (ring_ext s s' i b Eb Ho).
    + by rewrite H1. + by rewrite H1.
  - intros i b Hb. pose proof (inv_eng _ _ _ Hi Hb) as He. destruct (Hbk i) as [[H1 H2]|[[H1 H2]|(reg & H1 & H2)]].
    + rewrite H1 in Hb. destruct (E i b Hb) as [G1 G4]. assert (Hs : forall k, orders_of k (eng_of b s') = orders_of k (eng_of b s)) by (intros k; unfold orders_of; cbn [eng_of e_ords]; by rewrite Ho).
      constructor; [done|]. intros k r. rewrite Hs. apply G4.
    + congruence.
    + rewrite H1 in Hb. injection Hb as <-. constructor; [done|]. intros k r. rewrite Hn. intros H. by apply elem_of_nil in H.
Qed.
Lemma step_ring s a s' er evs x : reach s -> op_ok s a -> adds_no_aon a -> call s a s' er evs -> suits x s ->
  exists x', bourse_step a x = (er, execs evs, x') /\ suits x' s'.
Proof.
  intros Hr Hop Hcov Hc Hft. pose proof (su_inv _ _ Hft) as Hi. pose proof Hc as [Hst Hlog].
  assert (Hr' : reach s') by (by eapply reach_step). pose proof (reach_inv _ Hr') as Hi'.
  assert (Hm' : match a with EnableMatching | DisableMatching => True | _ => u_on x = st_match s' end).
  { rewrite (step_match s a s' er Hi Hop Hst), (su_on _ _ Hft). by destruct a. }
  assert (Hgo : replies a s x (step s a) -> exists x', bourse_step a x = (er, execs evs, x') /\ suits x' s').
  { intros H. destruct (H s' er Hst) as (evs1 & x' & Hl & Hx & Hf). rewrite Hlog in Hl. apply app_inv_head in Hl. subst evs1. by exists x'. }
  pose proof (C30_registry s a s' er evs Hr Hop Hc) as Hreg.
  destruct a as [sy|i|sy|i|o|i q|i p q|i p q|i ni p q|i o|i|i q|i p q| | |].
  - destruct Hreg as (Hb & Ho & Hs). pose proof (ords_ext s s' Hi Hi' Ho) as Hoe. cbn [bourse_step]. rewrite (su_sym _ _ Hft). destruct (get_symbol (sy_id sy) s) eqn:E.
    + destruct Hs as (-> & -> & Hs). exists x. split; [done|]. eapply (suits_reg x s); try done; [intros i; by rewrite Hs, (su_sym _ _ Hft)|]. intros i. left. by rewrite Hb.
    + destruct Hs as (-> & -> & Hs1 & Hs). eexists. split; [done|]. eapply (suits_reg x s); try done.
      * intros i. cbn. destruct (decide (sy_id sy = i)) as [<-|Hne]; [by rewrite lookup_insert|]. by rewrite lookup_insert_ne, Hs, (su_sym _ _ Hft).
      * intros i. left. by rewrite Hb.
  - destruct Hreg as (Hb & Ho & Hs). pose proof (ords_ext s s' Hi Hi' Ho) as Hoe. cbn [bourse_step]. rewrite (su_sym _ _ Hft). destruct (get_symbol i s) eqn:E.
    + destruct Hs as (-> & -> & Hs1 & Hs). eexists. split; [done|]. eapply (suits_reg x s); try done.
      * intros j. cbn. destruct (decide (i = j)) as [<-|Hne]; [by rewrite lookup_delete|]. by rewrite lookup_delete_ne, Hs, (su_sym _ _ Hft).
      * intros j. left. by rewrite Hb.
    + destruct Hs as (-> & -> & Hs). exists x. split; [done|]. eapply (suits_reg x s); try done; [intros j; by rewrite Hs, (su_sym _ _ Hft)|]. intros j. left. by rewrite Hb.
  - destruct Hreg as (Hs & Ho & Hb). pose proof (ords_ext s s' Hi Hi' Ho) as Hoe. cbn [bourse_step]. rewrite (su_sym _ _ Hft), (su_ring _ _ Hft). destruct (get_symbol (sy_id sy) s) as [reg|] eqn:E.
    + destruct (get_book (sy_id sy) s) eqn:Eb.
      * destruct Hb as (-> & -> & Hb). exists x. split; [done|]. eapply (suits_reg x s); try done; [intros j; by rewrite Hs, (su_sym _ _ Hft)|]. intros j. left. by rewrite Hb.
      * destruct Hb as (-> & -> & Hb1 & Hb). eexists. split; [done|]. eapply (suits_reg x s); try done; [intros j; cbn; by rewrite Hs, (su_sym _ _ Hft)|].
        intros i. cbn. destruct (decide (sy_id sy = i)) as [<-|Hne]; [right; right; exists reg; by rewrite lookup_insert|]. left. by rewrite lookup_insert_ne, Hb.
    + destruct Hb as (-> & -> & Hb). exists x. split; [done|]. eapply (suits_reg x s); try done; [intros j; by rewrite Hs, (su_sym _ _ Hft)|]. intros j. left. by rewrite Hb.
  - destruct Hreg as (Hs & Ho & Hb). pose proof (ords_ext s s' Hi Hi' Ho) as Hoe. cbn [bourse_step]. rewrite (su_ring _ _ Hft). destruct (get_book i s) eqn:Eb.
    + destruct Hb as (-> & -> & Hb1 & Hb). eexists. split; [done|]. eapply (suits_reg x s); try done; [intros j; cbn; by rewrite Hs, (su_sym _ _ Hft)|].
      intros j. cbn. destruct (decide (i = j)) as [<-|Hne]; [right; left; by rewrite lookup_delete|]. left. by rewrite lookup_delete_ne, Hb.
    + destruct Hb as (-> & -> & Hb). exists x. split; [done|]. eapply (suits_reg x s); try done; [intros j; by rewrite Hs, (su_sym _ _ Hft)|]. intros j. left. by rewrite Hb.
  - apply Hgo. exact (call_add3 s x Hft o Hop (Hcov o eq_refl)).
  - apply Hgo. by apply call_reduce3.
  - apply Hgo. by apply (call_modify3 s x Hft false).
  - apply Hgo. by apply (call_modify3 s x Hft true).
  - apply Hgo. by apply call_replace3.
  - (* ReplaceWith *) clear Hreg Hgo. destruct (refusal s (ReplaceWith i o)) as [e|] eqn:Ef.
    + destruct (C46_refused _ _ _ _ _ _ Hr Hop Hc Ef) as (-> & (S1 & S2 & S3 & _) & ->). exists x. split.
      * cbn in Ef |- *. destruct (decide (i = 0)) as [->|Hi0]; [injection Ef as <-; unfold with_spotted; by rewrite decide_True|]. unfold need_order in Ef. rewrite get_order_inv in Ef by done.
        destruct (st_ords s !! i) eqn:Eo; [done|]. injection Ef as <-. by apply (spotted_none s x Hft).
      * pose proof (ords_ext s s' Hi Hi' S3) as Hoe. eapply (suits_reg x s); try done; [intros j; by rewrite S1, (su_sym _ _ Hft)|]. intros j. left. by rewrite S2.
    + destruct (C47_replace_with s i o s' er evs Hr Hop Hc Ef) as (s1 & evs1 & evs2 & Hc1 & Hc2 & ->).
      assert (Hop1 : op_ok s (DeleteOrder i)) by (destruct Hop; done).
      destruct (call_delete3 s x Hft i Hop1 s1 OK (proj1 Hc1)) as (evs1' & x1 & Hl1 & Hx1 & Hf1).
      rewrite (proj2 Hc1) in Hl1. apply app_inv_head in Hl1. subst evs1'.
      assert (Hop2 : op_ok s1 (AddOrder o)).
      { destruct (call_outcome s _ s1 OK evs1 Hr Hop1 eq_refl Hc1) as (_ & Hout & _). pose proof (outcome_total s i s1 Hi Hout). cbn in Hop |- *. destruct Hop as (_ & Hrg & Htot). split; [done|]. lia. }
      destruct (call_add3 s1 x1 Hf1 o Hop2) with (s' := s') (er := er) as (evs2' & x2 & Hl2 & Hx2 & Hf2).
      { by apply Hcov. } { exact (proj1 Hc2). }
      rewrite (proj2 Hc2) in Hl2. apply app_inv_head in Hl2. subst evs2'.
      exists x2. split; [|done]. cbn [bourse_step] in Hx1 |- *. unfold with_spotted in *. destruct (decide (i = 0)); [done|]. destruct (spot i x) as [old|]; [|done]. destruct (u_rings x !! o_sym old) as [y|]; [|done].
      by rewrite Hx1, Hx2, execs_app.
  - apply Hgo. by apply call_delete3.
  - apply Hgo. eapply (call_execute3 s x Hft _ i 0 q); [by left|done].
  - apply Hgo. eapply (call_execute3 s x Hft _ i p q); [by right|done].
  - clear Hgo. cbn [step] in Hst. assert (Hft1 : suits (Bourse true (u_syms x) (u_rings x)) (set_matching true s)) by (destruct Hft as [A B C D E]; constructor; [by apply inv_matching|done|done|done|done]).
    destruct (match_all (set_matching true s)) as [s2| |] eqn:Em; try done. cbn in Hst. injection Hst as <- <-. destruct (match_all_ring _ s2 _ Hft1 Em) as (evs1 & x' & Hl & Hx & Hf). cbn [set_matching st_log] in Hl. rewrite Hlog in Hl. apply app_inv_head in Hl. subst evs1.
    exists x'. split; [|done]. cbn [bourse_step]. change (ring_ids x) with (ring_ids (Bourse true (u_syms x) (u_rings x))). by rewrite Hx.
  - clear Hgo. cbn [step] in Hst. injection Hst as <- <-. exists (Bourse false (u_syms x) (u_rings x)). assert (evs = []) as ->. { cbn [set_matching st_log] in Hlog. symmetry in Hlog. by rewrite app_nil_end in Hlog; apply app_inv_head in Hlog. }
    split; [done|]. destruct Hft as [A B C D E]; constructor; [done|done|done|done|done].
  - clear Hgo. cbn [step] in Hst.
    destruct (match_all s) as [s2| |] eqn:Em; try done. cbn in Hst. injection Hst as <- <-. destruct (match_all_ring s s2 x Hft Em) as (evs1 & x' & Hl & Hx & Hf). rewrite Hlog in Hl. apply app_inv_head in Hl. subst evs1.
    exists x'. split; [|done]. cbn [bourse_step]. by rewrite Hx.
Qed.

(** ** C58 *)
Lemma suits_alike x s : suits x s -> alike x s.
Proof.
  intros Hft. pose proof (su_inv _ _ Hft) as Hi. split; [apply Hft|]. split; [apply Hft|]. split; [|intros i; rewrite get_order_inv by done; by apply spot_ok].
  intros i. rewrite (su_ring _ _ Hft). destruct (get_book i s) as [b|] eqn:Hb; [|done]. intros sd.
  rewrite rest_list, stops_list, trails_list, !ring_list. unfold resting, waiting, trailing, orders_of. rewrite Hb. cbn [eng_of e_ords lvls e_bk].
  split_and!; apply omap_ext_in; intros j; by rewrite get_order_inv.
Qed.
Lemma run_ring s ops ers evs s' : performs s ops ers evs s' -> forall x, reach s -> Forall adds_no_aon ops -> suits x s ->
  exists x', bourse_run ops x = (ers, execs evs, x') /\ suits x' s'.
Proof.
  induction 1 as [s|s a s1 er evs ops ers evs' s' Hop Hcall _ IH]; intros x Hr Hf Hft; [by exists x|]. apply Forall_cons in Hf as [Hc Hf].
  destruct (step_ring s a s1 er evs x Hr Hop Hc Hcall Hft) as (x1 & Hx1 & Hf1). assert (Hr1 : reach s1) by (eapply reach_step; [done|done|exact (proj1 Hcall)]).
  destruct (IH x1 Hr1 Hf Hf1) as (x2 & Hx2 & Hf2). exists x2. split; [|done]. cbn [bourse_run]. by rewrite Hx1, Hx2, execs_app.
Qed.
(** A whole history: every code, every execution and everything visible in the end. *)
Theorem C58_history ops ers evs s : performs init ops ers evs s -> Forall adds_no_aon ops ->
  exists x, bourse_run ops new_bourse = (ers, execs evs, x) /\ alike x s.
Proof.
  intros Hp Hf. destruct (run_ring _ _ _ _ _ Hp new_bourse) as (x & Hx & Ha); [constructor|done| |exists x; split; [done|by apply suits_alike]].
  constructor; [apply reach_inv; constructor|done| | |].
  - intros i. cbn. rewrite lookup_empty. unfold get_symbol, vfind, vget, vsize. cbn. by destruct (_ && _).
  - intros i. cbn. rewrite lookup_empty. unfold get_book, vfind, vget, vsize. cbn. by destruct (_ && _).
  - intros i b Hb. unfold get_book, vfind, vget, vsize in Hb. cbn in Hb. by destruct (_ && _).
Qed.
Print Assumptions C58_history.

(** A day with trailing stop orders, with matching switched off so that the book becomes crossed, switched on again, and executions driven from outside. *)
Definition ring_day : list op := setup ++
  [SL 1 100 5; BL 2 104 3; BL 3 101 4; SL 4 99 2; AddOrder (MarketOrder 5 0 BUY 4 MAX64); AddOrder (StopOrder 6 0 SELL 95 2 GTC MAX64);
   EnableMatching;
   SL 7 105 6; BL 8 95 4; BL 9 90 9;
   AddOrder (TrailingStopOrder 10 0 SELL 80 3 10 2 GTC MAX64); AddOrder (TrailingStopLimitOrder 11 0 BUY 130 131 3 (-1000) (-100) GTC MAX64);
   AddOrder (StopOrder 12 0 SELL 89 3 GTC MAX64);
   BL 13 98 2; AddOrder (MarketOrder 14 0 BUY 1 MAX64); BL 15 100 1; AddOrder (MarketOrder 16 0 SELL 1 MAX64); DeleteOrder 13; ExecuteOrderAt 8 93 2;
   DisableMatching; SL 17 91 4; AddOrder (TrailingStopOrder 18 0 SELL 70 3 5 1 GTC MAX64); DeleteOrder 7; Match; EnableMatching;
   SL 19 103 2; ReduceOrder 9 1; ModifyOrder 19 102 4; AddOrder (MarketOrder 20 0 SELL 2 MAX64); AddOrder (LimitOrder 1 0 BUY 60 3 GTC MAX64); ReplaceOrder 9 22 84 1; DeleteOrderBook 1].
Definition brief_ring (y : list err * list (order * Z * Z) * bourse) : list err * list (Z * Z * Z) * list (list (Z * Z * Z)) :=
  let '(ers, xs, x) := y in
  (ers, map (fun z => (o_id (fst (fst z)), snd (fst z), snd z)) xs,
   match u_rings x !! 0 with
   | Some w => map (map (fun o => (o_id o, o_stop o, o_leaves o))) [q_rest (g_buy w); q_rest (g_sell w); q_stops (g_buy w); q_stops (g_sell w); q_trails (g_buy w); q_trails (g_sell w)]
   | None => [] end).
Lemma ring_day_no_aon : Forall adds_no_aon ring_day.
Proof. unfold ring_day, setup. repeat apply Forall_cons_2; try apply Forall_nil_2; (cbn; intros o [= <-]; cbn; discriminate). Qed.
Example C58_example : (exists ers evs, performs init ring_day ers evs (hist ring_day)) /\
  brief_ring (bourse_run ring_day new_bourse) =
  ([OK; OK; OK; OK; OK; OK; OK; OK; OK; OK; OK; OK; OK; OK; OK; OK; OK; OK; OK; OK; OK; OK; OK; OK; OK; OK; OK; OK; OK; OK; OK; OK; OK; ORDER_BOOK_NOT_FOUND],
   [(4, 99, 2); (2, 99, 2); (2, 104, 1); (1, 104, 1); (3, 101, 4); (1, 101, 4); (7, 105, 1); (14, 105, 1); (15, 100, 1); (16, 100, 1); (8, 93, 2); (8, 95, 2);
    (17, 95, 2); (9, 90, 3); (10, 90, 3); (9, 90, 2); (20, 90, 2); (22, 84, 1); (12, 84, 1); (1, 60, 2); (12, 60, 2); (1, 60, 1); (18, 60, 1)],
   [[]; [(17, 0, 2); (19, 0, 4)]; []; []; [(11, 100, 3)]; []]).
Proof.
  split; [|vm_compute; reflexivity]. apply history_performs; [constructor|]. unfold hist.
  assert (H : (match history init ring_day with Some _ => true | None => false end) = true) by (vm_compute; reflexivity).
  destruct (history init ring_day); [reflexivity|discriminate].
Qed.
