(** * PropsExchange.v -- whole histories against the reference exchange of Spec8.v: C49. *)
From Coq Require Import ZifyBool.
From stdpp Require Import fin_maps gmap relations sorting.
From Verif Require Import Types Book Engine Manager Factory Validate LevelFacts BookInv EngInv EngPrim Steps StepsOk Refine1 Refine2 Refine3 Refine4 Api StateInv Micro Reach Calls Trades Settle Witness PropsState PropsSettle CallFacts PropsBasic PropsTrades PropsOrders PropsFok PropsFill PropsDirect PropsReject RefMatch PropsRef RefExchange Spec Spec2 Spec3 Spec5 Spec6 Spec7 Spec8.

(** ** Match() on books that are not crossed *)
Lemma match_books_quiet idx : forall s x, plain_state s -> agrees2 x s -> exists s', match_books idx s = Ok s' /\ st_log s' = st_log s /\ agrees2 x s'.
Proof.
  induction idx as [|n idx IH]; intros s x Hp Ha; cbn [match_books]; [by exists s|]. destruct (get_book (Z.of_nat n) s) as [b|] eqn:Hb; [|by apply IH].
  pose proof (ps_inv _ Hp) as Hi. pose proof (inv_eng _ _ _ Hi Hb) as He.
  destruct (match_book_quiet (eng_of b s)) as (e' & Hm & Hsame); [by eapply ps_unc|apply no_stop_best; [by apply (plain_no_stops s Hp _ _ Hb)|eauto]|].
  pose proof Hsame as (A1 & A2 & (A3 & A4 & _)).
  rewrite (on_book_put (Z.of_nat n) b _ s e' tt) by (by rewrite Hm). cbn [rbind].
  assert (He' : eng_ok (Z.of_nat n) e').
  { destruct He as [H1 H2]. split; rewrite A1; [done|]. by eapply same_sides_ok. }
  set (s1 := put_eng (Z.of_nat n) e' s). assert (Hp1 : plain_state s1).
  { constructor.
    - eapply put_inv; try done. rewrite A1. apply frame_refl.
    - intros j o. cbn. rewrite A1. apply (ps_live _ Hp).
    - intros i bi. unfold s1. rewrite (get_book_put _ _ _ _ _ Hb). destruct (decide _) as [<-|Hne]; [intros [= <-]|intros Hbi].
      + pose proof (ps_unc _ Hp _ _ Hb) as Hu. unfold crossed, best in *. cbn [eng_of e_bk] in *. by rewrite !A4.
      + by apply (ps_unc _ Hp _ _ Hbi). }
  destruct (IH s1 x Hp1) as (s' & Hs' & Hl & Hag).
  { pose proof (out_self s _ b x Hp Hb Ha) as Ho. by eapply (agrees_same x s _ b (eng_of b s) e'); [..|apply Ho]. }
  exists s'. split; [done|]. split; [|done]. rewrite Hl. exact A2.
Qed.

(** ** The state of a covered history *)
Definition simple_type (o : order) : Prop := o_type o = LIMIT \/ o_type o = MARKET.
Lemma closed_simple : closed simple_type.
Proof.
  constructor; intros o; unfold simple_type; cbn; intros; try done.
  - unfold stop_type, is_limit, is_market in *. destruct (o_type o); naive_solver.
  - unfold is_trailing, is_trailing_stop, is_trailing_stop_limit in *. destruct (o_type o); naive_solver.
Qed.
Lemma simple_keeps a : covered a -> op_keeps simple_type a.
Proof. intros [_ H]. destruct a; cbn in *; try done; intros; try (by apply H); unfold modified; cbn; done. Qed.
Lemma covered_aon a : covered a -> adds_no_aon a.
Proof. intros [_ H]. unfold adds_no_aon. destruct a; cbn in *; try done; intros; naive_solver. Qed.
Lemma reach_with_weaken (P Q : op -> Prop) s : (forall a, P a -> Q a) -> reach_with P s -> reach_with Q s.
Proof. intros H. induction 1; econstructor; eauto. Qed.
Lemma covered_plain s : reach_with covered s -> st_match s = true -> plain_state s.
Proof.
  intros Hr Hmt. pose proof (reach_inv _ (reach_with_reach _ _ Hr)) as Hi. pose proof (reach_with_weaken _ adds_no_aon s covered_aon Hr) as Hr'. constructor; [done| |].
  - intros j o Ho. pose proof (mo_live _ (iv_map _ Hi) _ _ Ho) as Hl.
    assert (Ht : o_type o = LIMIT). { destruct (reach_with_q _ covered s closed_simple simple_keeps Hr j o Ho) as [?|?]; [done|]. by destruct (lo_type _ _ Hl). }
    split; [done|]. destruct (lo_rest _ _ Hl Ht) as [?|E]; [done|]. by destruct (reach_with_q _ adds_no_aon s closed_tif aon_keeps Hr' j o Ho).
  - intros i b Hb. apply crossed_uncrossed. by apply (C01_uncrossed_partial s Hr' Hmt i).
Qed.
Lemma resting_ext s s' i sd : get_book i s' = get_book i s -> (forall j, get_order j s' = get_order j s) -> resting s' i sd = resting s i sd.
Proof. intros Hb Ho. unfold resting. rewrite Hb. destruct (get_book i s); [|done]. apply omap_ext_in. intros j. by rewrite Ho. Qed.
Lemma agrees_ext x s s' : agrees2 x s -> (forall i, get_symbol i s' = get_symbol i s) -> (forall i, get_book i s' = get_book i s) -> (forall i, get_order i s' = get_order i s) -> agrees2 x s'.
Proof.
  intros [Hs Hb] E1 E2 E3. split; [intros i; by rewrite E1|]. intros i. rewrite E2, Hb. destruct (get_book i s); [|done]. by rewrite !(resting_ext s s').
Qed.
Lemma resting_new s i reg sd : get_book i s = Some (new_book reg) -> resting s i sd = [].
Proof. intros H. unfold resting. rewrite H. by destruct sd. Qed.

Theorem step_ref s a s' er evs x : reach_with covered s -> st_match s = true -> op_ok s a -> covered a -> call s a s' er evs -> agrees2 x s ->
  exists x', exchange_step a x = (er, execs evs, x') /\ agrees2 x' s'.
Proof.
  intros Hrw Hmt Hop Hcov Hc Ha. pose proof (covered_plain s Hrw Hmt) as Hp. pose proof (reach_with_reach _ _ Hrw) as Hr.
  assert (Hgo : forall r, step s a = r -> step_agrees a s x r -> exists x', exchange_step a x = (er, execs evs, x') /\ agrees2 x' s').
  { intros r <- (s1 & er1 & evs1 & x' & Hst & Hlog & Hx & Hag). destruct Hc as [Hst' Hlog']. rewrite Hst in Hst'. injection Hst' as <- <-.
    rewrite Hlog in Hlog'. apply app_inv_head in Hlog'. subst evs1. by exists x'. }
  assert (Hmatch : match_all s = Ok s' -> st_match s = true -> exists x', (OK, [], x) = (OK, execs (drop (length (st_log s)) (st_log s')), x') /\ agrees2 x' s' /\ st_log s' = st_log s).
  { intros Hm _. destruct (match_books_quiet (seq 0 (length (st_books s))) s x Hp Ha) as (s1 & Hm1 & Hl & Hag). unfold match_all in Hm. rewrite Hm1 in Hm. injection Hm as <-.
    exists x. rewrite Hl, drop_all. done. }
  pose proof (C30_registry s a s' er evs Hr Hop Hc) as Hreg.
  destruct a as [sy|i|sy|i|o|i q|i p q|i p q|i ni p q|i o|i|i q|i p q| | |].
  - destruct Hreg as (Hb & Ho & Hs). cbn. rewrite (proj1 Ha). destruct (get_symbol (sy_id sy) s) eqn:E.
    + destruct Hs as (-> & -> & Hs). exists x. split; [done|]. by eapply agrees_ext.
    + destruct Hs as (-> & -> & Hs1 & Hs). eexists. split; [done|]. split; cbn.
      * intros i. destruct (decide (sy_id sy = i)) as [<-|Hne]; [by rewrite lookup_insert|]. by rewrite lookup_insert_ne, Hs, (proj1 Ha).
      * intros i. rewrite Hb, (proj2 Ha). destruct (get_book i s) eqn:Eb; [|done]. by rewrite !(resting_ext s s').
  - destruct Hreg as (Hb & Ho & Hs). cbn. rewrite (proj1 Ha). destruct (get_symbol i s) eqn:E.
    + destruct Hs as (-> & -> & Hs1 & Hs). eexists. split; [done|]. split; cbn.
      * intros j. destruct (decide (i = j)) as [<-|Hne]; [by rewrite lookup_delete|]. by rewrite lookup_delete_ne, Hs, (proj1 Ha).
      * intros j. rewrite Hb, (proj2 Ha). destruct (get_book j s) eqn:Eb; [|done]. by rewrite !(resting_ext s s').
    + destruct Hs as (-> & -> & Hs). exists x. split; [done|]. by eapply agrees_ext.
  - destruct Hreg as (Hs & Ho & Hb). cbn. rewrite (proj1 Ha), (proj2 Ha). destruct (get_symbol (sy_id sy) s) as [reg|] eqn:E.
    + destruct (get_book (sy_id sy) s) eqn:Eb.
      * destruct Hb as (-> & -> & Hb). exists x. split; [done|]. by eapply agrees_ext.
      * destruct Hb as (-> & -> & Hb1 & Hb). eexists. split; [done|]. split; cbn; [intros i; by rewrite Hs, (proj1 Ha)|].
        intros i. destruct (decide (sy_id sy = i)) as [<-|Hne].
        -- rewrite lookup_insert, Hb1, !(resting_new s' (sy_id sy) reg) by done. done.
        -- rewrite lookup_insert_ne, Hb, (proj2 Ha) by done. destruct (get_book i s) eqn:Ebi; [|done]. rewrite !(resting_ext s s') by (rewrite ?Hb; done). done.
    + destruct Hb as (-> & -> & Hb). exists x. split; [done|]. by eapply agrees_ext.
  - destruct Hreg as (Hs & Ho & Hb). cbn. rewrite (proj2 Ha). destruct (get_book i s) eqn:Eb.
    + destruct Hb as (-> & -> & Hb1 & Hb). eexists. split; [done|]. split; cbn; [intros j; by rewrite Hs, (proj1 Ha)|].
      intros j. destruct (decide (i = j)) as [<-|Hne].
      * by rewrite lookup_delete, Hb1.
      * rewrite lookup_delete_ne, Hb, (proj2 Ha) by done. destruct (get_book j s) eqn:Ebi; [|done]. rewrite !(resting_ext s s') by (rewrite ?Hb; done). done.
    + destruct Hb as (-> & -> & Hb). exists x. split; [done|]. by eapply agrees_ext.
  - eapply Hgo; [done|]. by apply call_add.
  - eapply Hgo; [done|]. by apply call_reduce.
  - eapply Hgo; [done|]. by apply (call_modify s x Hp Ha Hmt false).
  - eapply Hgo; [done|]. by apply (call_modify s x Hp Ha Hmt true).
  - eapply Hgo; [done|]. by apply call_replace.
  - (* ReplaceWith *) clear Hreg Hgo Hmatch. destruct (refusal s (ReplaceWith i o)) as [e|] eqn:Ef.
    + destruct (C46_refused _ _ _ _ _ _ Hr Hop Hc Ef) as (-> & (S1 & S2 & S3 & _) & ->). exists x. split; [|by eapply agrees_ext].
      cbn in Ef |- *. unfold with_found. destruct (decide (i = 0)); [by injection Ef as <-|]. rewrite (found_plain x s) by done. unfold need_order in Ef. rewrite get_order_inv in Ef by apply Hp.
      destruct (st_ords s !! i); [done|]. by injection Ef as <-.
    + destruct (C47_replace_with s i o s' er evs Hr Hop Hc Ef) as (s1 & evs1 & evs2 & Hc1 & Hc2 & ->).
      assert (Hop1 : op_ok s (DeleteOrder i)) by (destruct Hop; done).
      destruct (call_delete s x Hp Ha Hmt i Hop1) as (s1' & er1 & evs1' & x1 & Hst & Hlog & Hx & Hag).
      assert (s1' = s1 /\ er1 = OK /\ evs1' = evs1) as (-> & -> & ->).
      { destruct Hc1 as [Hst1 Hlog1]. cbn [step] in Hst1. rewrite Hst in Hst1. injection Hst1 as -> ->. rewrite Hlog in Hlog1. apply app_inv_head in Hlog1. done. }
      assert (Hr1 : reach_with covered s1). { econstructor; [exact Hrw|exact Hop1|split; [done|by intros ? [=]]|exact (proj1 Hc1)]. }
      assert (Hmt1 : st_match s1 = true). { by rewrite (step_match _ _ _ _ (ps_inv _ Hp) Hop1 (proj1 Hc1)). }
      assert (Hop2 : op_ok s1 (AddOrder o)).
      { destruct (call_outcome s _ s1 OK evs1 Hr Hop1 eq_refl Hc1) as (_ & Hout & _). pose proof (outcome_total s i s1 (ps_inv _ Hp) Hout). cbn in Hop |- *. destruct Hop as (_ & Hrg & Htot). split; [done|]. lia. }
      destruct (call_add s1 x1 (covered_plain s1 Hr1 Hmt1) Hag Hmt1 o Hop2) as (s2 & er2 & evs2' & x2 & Hst2 & Hlog2 & Hx2 & Hag2).
      { split; [done|]. intros o0 [= <-]. by apply (proj2 Hcov). }
      assert (s2 = s' /\ er2 = er /\ evs2' = evs2) as (-> & -> & ->).
      { destruct Hc2 as [Hst3 Hlog3]. cbn [step] in Hst3. rewrite Hst2 in Hst3. injection Hst3 as -> ->. rewrite Hlog2 in Hlog3. apply app_inv_head in Hlog3. done. }
      exists x2. split; [|done]. cbn in Hx, Hx2 |- *. unfold with_found in *. destruct (decide (i = 0)); [done|]. destruct (found i x) as [old|]; [|done].
      unfold accept in Hx. injection Hx as Hx <-. rewrite execs_app, <- Hx. exact Hx2.
  - eapply Hgo; [done|]. by apply call_delete.
  - eapply Hgo; [done|]. eapply (call_execute s x Hp Ha Hmt _ i 0 q); [by left|done].
  - eapply Hgo; [done|]. eapply (call_execute s x Hp Ha Hmt _ i p q); [by right|done].
  - destruct Hc as [Hst Hlog]. cbn [step] in Hst. assert (E : set_matching true s = s) by (unfold set_matching; rewrite <- Hmt; by destruct s). rewrite E in Hst.
    destruct (match_all s) as [s2| |] eqn:Em; try done. cbn in Hst. injection Hst as <- <-. destruct (Hmatch eq_refl Hmt) as (x' & Hx & Hag & Hl). exists x'. injection Hx as Hx <-. split; [|done].
    assert (evs = []) as ->; [|done]. rewrite Hl in Hlog. rewrite <- (app_nil_r (st_log s)) in Hlog at 1. by apply app_inv_head in Hlog.
  - by destruct Hcov.
  - destruct Hc as [Hst Hlog]. cbn [step] in Hst.
    destruct (match_all s) as [s2| |] eqn:Em; try done. cbn in Hst. injection Hst as <- <-. destruct (Hmatch eq_refl Hmt) as (x' & Hx & Hag & Hl). exists x'. injection Hx as Hx <-. split; [|done].
    assert (evs = []) as ->; [|done]. rewrite Hl in Hlog. rewrite <- (app_nil_r (st_log s)) in Hlog at 1. by apply app_inv_head in Hlog.
Qed.

(** ** C49 *)
Lemma covered_agrees s x : reach_with covered s -> st_match s = true -> agrees2 x s -> agrees x s.
Proof.
  intros Hr Hm Ha. pose proof (covered_plain s Hr Hm) as Hp. split; [apply Ha|]. split; [apply Ha|]. intros i. apply found_ok; [apply Hp|by apply plain_no_stops|done].
Qed.
Lemma covered_next s a s' er : reach_with covered s -> st_match s = true -> op_ok s a -> covered a -> step s a = Ok (s', er) -> reach_with covered s' /\ st_match s' = true.
Proof.
  intros Hr Hm Hop Hc Hst. split; [by eapply rw_step|]. rewrite (step_match s a s' er); [|apply reach_inv; by eapply reach_with_reach|done|done].
  destruct Hc as [Hd _]. by destruct a.
Qed.
(** One call. *)
Theorem C49_step s a s' er evs x : reach_with covered s -> st_match s = true -> op_ok s a -> covered a -> call s a s' er evs -> agrees x s ->
  exists x', exchange_step a x = (er, execs evs, x') /\ agrees x' s'.
Proof.
  intros Hr Hm Hop Hc Hcall (H1 & H2 & _). destruct (step_ref s a s' er evs x) as (x' & Hx & Ha); try done.
  destruct (covered_next s a s' er Hr Hm Hop Hc (proj1 Hcall)) as [Hr' Hm']. exists x'. split; [done|]. by apply covered_agrees.
Qed.
Print Assumptions C49_step.
Lemma run_ref s ops ers evs s' : performs s ops ers evs s' -> forall x, reach_with covered s -> st_match s = true -> Forall covered ops -> agrees x s ->
  exists x', exchange_run ops x = (ers, execs evs, x') /\ agrees x' s'.
Proof.
  induction 1 as [s|s a s1 er evs ops ers evs' s' Hop Hcall _ IH]; intros x Hr Hm Hf Ha; [by exists x|]. apply Forall_cons in Hf as [Hc Hf].
  destruct (C49_step s a s1 er evs x Hr Hm Hop Hc Hcall Ha) as (x1 & Hx1 & Ha1). destruct (covered_next s a s1 er Hr Hm Hop Hc (proj1 Hcall)) as [Hr1 Hm1].
  destruct (IH x1 Hr1 Hm1 Hf Ha1) as (x2 & Hx2 & Ha2). exists x2. split; [|done]. cbn [exchange_run]. by rewrite Hx1, Hx2, execs_app.
Qed.
(** A whole history: every code, every execution and everything visible in the end. *)
Theorem C49_history ops ers evs s : performs init (EnableMatching :: ops) ers evs s -> Forall covered ops ->
  exists x, exchange_run (EnableMatching :: ops) nothing = (ers, execs evs, x) /\ agrees x s.
Proof.
  intros Hp Hf. inversion Hp as [|s0 a s1 er evs1 ops0 ers1 evs2 s2 Hop Hcall Hrun]; subst.
  pose proof Hcall as [Hst Hlog]. cbn in Hst. injection Hst as <- <-. assert (evs1 = []) as -> by exact (eq_sym Hlog).
  destruct (run_ref _ _ _ _ _ Hrun nothing) as (x & Hx & Ha); [|done|done| |].
  - eapply rw_step; [apply rw_init|exact Hop|split; [done|by intros ? [=]]|exact (proj1 Hcall)].
  - split; [|split]; intros i; cbn; rewrite ?lookup_empty; unfold get_symbol, get_book, get_order, vfind, vget, vsize; cbn; try (destruct (_ && _); done).
    destruct (i =? 0); [done|]. by rewrite lookup_empty.
  - exists x. split; [|done]. cbn [exchange_run exchange_step]. unfold accept. by rewrite Hx.
Qed.
Print Assumptions C49_history.

(** ** A concrete history *)
Lemma history_performs ops : forall s s', reach s -> history s ops = Some s' -> exists ers evs, performs s ops ers evs s'.
Proof.
  induction ops as [|a ops IH]; intros s s' Hr H; cbn [history] in H; [injection H as <-; exists [], []; constructor|].
  destruct (op_okb s a) eqn:E; [|done]. apply op_okb_ok in E. destruct (step s a) as [[s1 er]| |] eqn:Es; [|done|done].
  destruct (call_exists s a (reach_inv _ Hr) E) as (s1' & er' & evs & Hc). pose proof (proj1 Hc) as Es'. rewrite Es in Es'. injection Es' as <- <-.
  destruct (IH s1 s') as (ers & evs' & Hp); [by eapply reach_step|done|]. exists (er :: ers), (evs ++ evs'). by econstructor.
Qed.
Definition ex_day : list op := EnableMatching :: setup ++
  [SL 1 100 5; SL 2 100 5; SL 3 101 5; BL 4 90 7; BL 5 100 7; LIM BUY 6 101 3 IOC; LIM BUY 7 101 9 FOK; AddOrder (MarketOrder 8 0 SELL 4 MAX64);
   ReduceOrder 3 1; ModifyOrder 4 95 6; MitigateOrder 4 96 5; ReplaceOrder 3 9 97 4; ExecuteOrder 4 2; ReplaceWith 9 (LimitOrder 10 0 SELL 96 2 GTC MAX64);
   SL 2 99 3; BL 2 96 3; DeleteOrder 77; DeleteOrder 10; Match].
Lemma day_covered : Forall covered (tail ex_day).
Proof. repeat apply Forall_cons_2; try apply Forall_nil_2; (split; [discriminate|]); cbn; intros o [= <-]; cbn; auto. Qed.
Definition brief_run (y : list err * list (order * Z * Z) * exchange) : list err * list (Z * Z * Z) * (list (Z * Z) * list (Z * Z)) :=
  let '(ers, xs, x) := y in
  (ers, map (fun z => (o_id (fst (fst z)), snd (fst z), snd z)) xs,
   match x_books x !! 0 with Some w => (map (fun o => (o_id o, o_leaves o)) (fst w), map (fun o => (o_id o, o_leaves o)) (snd w)) | None => ([], []) end).
Example C49_example : (exists ers evs, performs init ex_day ers evs (hist ex_day)) /\
  brief_run (exchange_run ex_day nothing) =
  ([OK; OK; OK; OK; OK; OK; OK; OK; OK; OK; OK; OK; OK; OK; OK; OK; OK; OK; ORDER_DUPLICATE; ORDER_NOT_FOUND; ORDER_NOT_FOUND; OK],
   [(1, 100, 5); (5, 100, 5); (2, 100, 2); (5, 100, 2); (2, 100, 3); (6, 100, 3); (4, 90, 4); (8, 90, 4); (4, 96, 1); (10, 96, 2); (2, 96, 2)],
   ([], [(2, 3)])).
Proof.
  split; [|vm_compute; reflexivity]. apply history_performs; [constructor|]. unfold hist.
  assert (H : (match history init ex_day with Some _ => true | None => false end) = true) by (vm_compute; reflexivity).
  destruct (history init ex_day); [reflexivity|discriminate].
Qed.
