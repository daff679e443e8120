(** * RefStops.v -- the engine against the reference exchange with stop orders of Spec13.v. *)
From Coq Require Import ZifyBool.
From stdpp Require Import fin_maps gmap relations sorting.
From Verif Require Import Types Book Engine Manager Factory Validate LevelFacts BookInv EngInv EngPrim Steps StepsOk Refine1 Refine2 Refine3 Refine4 Api StateInv Trades PropsTrades PropsOrders PropsFill RefMatch PropsRef RefExchange Spec Spec2 Spec3 Spec5 Spec6 Spec7 Spec8 Spec13.

(** ** The book as the reference sees it *)
Definition orders_of (k : kind) (e : eng) : list order := omap (fun j => e_ords e !! j) (concat (map l_ids (lvls k e))).
Definition pit_of (e : eng) : pit :=
  Pit (orders_of KBid e) (orders_of KAsk e) (orders_of KBuyStop e) (orders_of KSellStop e) (b_match_bid (e_bk e)) (b_match_ask (e_bk e)).
Lemma view_of sid e k : eng_ok sid e -> exists L, cview e k L /\ flat L = orders_of k e.
Proof. intros He. destruct (cview_intro sid e k He) as (L & _ & _ & Hv). exists L. split; [done|]. symmetry. by eapply flat_levels. Qed.
Lemma orders_view sid e k L : eng_ok sid e -> cview e k L -> orders_of k e = flat L.
Proof. intros He Hv. by eapply flat_levels. Qed.
Lemma orders_elem sid e k r : eng_ok sid e -> r ∈ orders_of k e -> e_ords e !! o_id r = Some r /\ o_sym r = sid /\ okind r = k /\ live_ok (o_id r) r.
Proof.
  intros He Hr. destruct (view_of sid e k He) as (L & Hv & Hf). rewrite <- Hf in Hr. apply elem_flat in Hr as (p & os & Hin & Hr).
  destruct (cview_order sid e k L p os r He Hv Hin Hr) as (A & B & C & _ & D). done.
Qed.
Lemma elem_orders sid e j r : eng_ok sid e -> e_ords e !! j = Some r -> o_sym r = sid -> r ∈ orders_of (okind r) e.
Proof.
  intros He Hr Hs. apply elem_of_list_omap. exists j. split; [|done]. eapply queue_lvls. by eapply (bk_full _ _ _ (proj2 He)).
Qed.
Lemma orders_same e e' : e_ords e' = e_ords e -> (forall k, get_side k (e_bk e') = get_side k (e_bk e)) -> forall k, orders_of k e' = orders_of k e.
Proof. intros H1 H2 k. unfold orders_of, lvls. by rewrite H1, H2. Qed.
Lemma orders_ids sid e k : eng_ok sid e -> NoDup (map o_id (orders_of k e)).
Proof.
  intros He. destruct (view_of sid e k He) as (L & Hv & <-). pose proof (cv_sorted _ _ _ Hv) as Hs.
  assert (Hin : forall p os, (p, os) ∈ L -> NoDup (map o_id os) /\ forall o, o ∈ os -> e_ords e !! o_id o = Some o /\ okey o = p).
  { intros p os Hin. destruct (cv_q _ _ _ Hv p os Hin) as (_ & Hq & _). split; [rewrite <- Hq; by eapply queue_nodup, He|].
    intros o Ho. by destruct (cview_order sid e k L p os o He Hv Hin Ho) as (A & _ & _ & B & _). }
  clear Hv. induction Hs as [|[p os] L Hs IH Hb]; [constructor|]. change (flat ((p, os) :: L)) with (os ++ flat L). rewrite map_app. apply NoDup_app.
  split; [by apply (Hin p os); left|]. split; [|apply IH; intros p' os' H; apply Hin; by right].
  intros j H1 H2. apply elem_of_list_fmap in H1 as (o1 & -> & H1). apply elem_of_list_fmap in H2 as (o2 & E & H2). apply elem_flat in H2 as (p' & os' & H3 & H2).
  destruct (proj2 (Hin p os ltac:(left)) o1 H1) as [A1 A2]. destruct (proj2 (Hin p' os' ltac:(by right)) o2 H2) as [B1 B2].
  rewrite Forall_forall in Hb. pose proof (Hb _ H3) as Hbb. cbn in Hbb. rewrite E, B1 in A1. injection A1 as <-. rewrite <- A2, B2, better_irrefl in Hbb. done.
Qed.

Record good (sid : Z) (e : eng) : Prop := {
  g_ok : eng_ok sid e;
  g_cross : crossed e = None;
  g_trail : orders_of KTrailBuy e = [] /\ orders_of KTrailSell e = [];
  g_aon : forall k r, r ∈ orders_of k e -> o_tif r <> AON }.
Record runs (sid : Z) (e : eng) (xs : list (order * Z * Z)) (e' : eng) : Prop := {
  r_good : good sid e';
  r_frame : frame sid (e_ords e) (e_ords e');
  r_log : exists evs, e_log e' = e_log e ++ evs /\ execs evs = xs }.
Lemma runs_trans sid a b c xs xs' : runs sid a xs b -> runs sid b xs' c -> runs sid a (xs ++ xs') c.
Proof.
  intros [A1 A2 (ev1 & A3 & A4)] [B1 B2 (ev2 & B3 & B4)]. constructor; [done|by eapply frame_trans|]. exists (ev1 ++ ev2).
  split; [by rewrite B3, A3, app_assoc|]. by rewrite execs_app, A4, B4.
Qed.
Lemma runs_refl sid e : good sid e -> runs sid e [] e.
Proof. intros H. constructor; [done|apply frame_refl|]. exists []. by rewrite app_nil_r. Qed.
Lemma good_same sid e e' : e_ords e' = e_ords e -> same_sides (e_bk e) (e_bk e') -> good sid e -> good sid e'.
Proof.
  intros Ho Hs [A B C D]. pose proof (orders_same e e' Ho (proj2 Hs)) as E. constructor.
  - split; rewrite Ho; [apply A|]. eapply same_sides_ok; [done|apply A].
  - unfold crossed, best in *. by rewrite !(proj2 Hs).
  - by rewrite !E.
  - intros k r. rewrite E. apply D.
Qed.
Lemma good_emit sid ev e : good sid e -> good sid (emit ev e).
Proof. by apply good_same. Qed.
Definition silent (ev : event) : Prop := execs [ev] = [].
Lemma runs_emit sid ev e xs e' : silent ev -> runs sid e xs e' -> runs sid e xs (emit ev e').
Proof.
  intros Hs [A B (evs & C & D)]. constructor; [by apply good_emit|done|]. exists (evs ++ [ev]). split; [cbn; by rewrite C, app_assoc|].
  by rewrite execs_app, Hs, D, app_nil_r.
Qed.
Lemma emit_runs sid ev e xs e' : silent ev -> runs sid (emit ev e) xs e' -> runs sid e xs e'.
Proof. intros Hs [A B (evs & C & D)]. constructor; [done|done|]. exists (ev :: evs). split; [rewrite C; cbn; by rewrite <- app_assoc|]. change (ev :: evs) with ([ev] ++ evs). by rewrite execs_app, Hs, D. Qed.
Lemma crossed_orders sid e : eng_ok sid e -> crossed e = None <-> forall a b, a ∈ orders_of KBid e -> b ∈ orders_of KAsk e -> o_price a < o_price b.
Proof.
  intros He. destruct (view_of sid e KBid He) as (A & HA & <-). destruct (view_of sid e KAsk He) as (B & HB & <-). by apply (crossed_lists sid).
Qed.
Lemma rest_orders sd e : rest_of sd (pit_of e) = orders_of (side_kind sd) e.
Proof. by destruct sd. Qed.
Lemma stops_orders sd e : stops_of sd (pit_of e) = orders_of (stop_side sd) e.
Proof. by destruct sd. Qed.
Lemma pit_quotes e : (y_bid (pit_of e), y_ask (pit_of e)) = quotes e.
Proof. done. Qed.

(** ** Trading *)
Lemma remaining_tif : forall rs o x, x ∈ remaining o rs -> exists r, r ∈ rs /\ o_price r = o_price x /\ o_tif r = o_tif x.
Proof.
  induction rs as [|r rs IH]; intros o x Hx; cbn [remaining] in Hx; [by apply elem_of_nil in Hx|].
  destruct (decide (takes o r)); [|by exists x].
  apply elem_of_app in Hx as [Hx|Hx].
  - destruct (decide _); [by apply elem_of_nil in Hx|]. apply elem_of_list_singleton in Hx as ->. exists r. split; [left|done].
  - destruct (IH _ _ Hx) as (r' & ? & ?). exists r'. split; [by right|done].
Qed.
Lemma dealt_ref o rs : reference o rs [] = (fst (fst (dealt o rs)), snd (fst (dealt o rs)), snd (reference o rs [])).
Proof. rewrite reference_eq. unfold dealt. cbv zeta. destruct (decide _); [by destruct (decide _)|done]. Qed.
Lemma mark_noted sd xs y : (y_bid (mark sd xs y), y_ask (mark sd xs y)) = noted sd xs (y_bid y, y_ask y).
Proof. unfold mark, noted. destruct (last xs) as [[[? p] ?]|]; [|done]. by destruct sd. Qed.
Lemma mark_lists sd xs y sd' : rest_of sd' (mark sd xs y) = rest_of sd' y /\ stops_of sd' (mark sd xs y) = stops_of sd' y.
Proof. unfold mark. destruct (last xs) as [[[? p] ?]|]; [|done]. by destruct sd, sd'. Qed.
Lemma pit_eq y y' : (forall sd, rest_of sd y = rest_of sd y') -> (forall sd, stops_of sd y = stops_of sd y') -> (y_bid y, y_ask y) = (y_bid y', y_ask y') -> y = y'.
Proof.
  intros H1 H2 [= H3 H4]. pose proof (H1 BUY). pose proof (H1 SELL). pose proof (H2 BUY). pose proof (H2 SELL). destruct y, y'. cbn in *. congruence.
Qed.
Lemma set_rest_lists sd rs y sd' : rest_of sd' (set_rest sd rs y) = (if decide (sd' = sd) then rs else rest_of sd' y) /\ stops_of sd' (set_rest sd rs y) = stops_of sd' y /\
  (y_bid (set_rest sd rs y), y_ask (set_rest sd rs y)) = (y_bid y, y_ask y).
Proof. by destruct sd, sd'. Qed.
Lemma set_stops_lists sd rs y sd' : stops_of sd' (set_stops sd rs y) = (if decide (sd' = sd) then rs else stops_of sd' y) /\ rest_of sd' (set_stops sd rs y) = rest_of sd' y /\
  (y_bid (set_stops sd rs y), y_ask (set_stops sd rs y)) = (y_bid y, y_ask y).
Proof. by destruct sd, sd'. Qed.
Lemma arriving_kind o rs : exists p, arriving o rs = set_price p o /\ (o_type o <> MARKET -> p = o_price o).
Proof. unfold arriving. destruct (o_type o) eqn:E, rs; try (exists (o_price o); split; [by destruct o|done]); eexists; split; try reflexivity; done. Qed.
Lemma meet_ok sid e o xs y z : good sid e -> fly_ok sid (e_ords e) o -> 0 < o_leaves o -> o_tif o <> AON -> trade o (pit_of e) = (xs, y, z) ->
  exists e1, meet o e = Ok (z, e1) /\ runs sid e xs e1 /\ pit_of e1 = y /\ fly_ok sid (e_ords e1) z /\
    (forall j, e_ords e !! j = None -> e_ords e1 !! j = None) /\ same_kind (set_price (o_price z) o) z /\ (o_type o <> MARKET -> o_price z = o_price o) /\
    (o_type o <> MARKET -> o_tif o <> FOK -> 0 < o_leaves z -> forall r, r ∈ rest_of (opposite (o_side o)) y -> ~ within_limit z (o_price r)).
Proof.
  intros Hg Hfl Hlv Hna Htr. pose proof (g_ok _ _ Hg) as He.
  destruct (view_of sid e (opp (o_side o)) He) as (L & Hv & HL).
  assert (Hpl : plain_lists L). { intros p os r Hin Hr. unfold is_aon. apply bool_decide_eq_false. apply (g_aon _ _ Hg (opp (o_side o))). rewrite <- HL. apply elem_flat. eauto. }
  pose proof (meet_ref sid e o L He Hfl Hlv Hna Hv Hpl) as H. cbv zeta in H. rewrite dealt_ref in H.
  unfold trade in Htr. rewrite rest_orders, <- opp_side, <- HL in Htr. destruct (dealt o (flat L)) as [[xs0 rs0] z0] eqn:Ed. cbn [fst snd] in H. injection Htr as <- <- <-.
  destruct H as (o' & e1 & evs & L' & Heq & Hk & Hlog & Hxs & Hfr & He1 & Hon & Hv1 & Hf1 & Hnf & Hfl1 & Hq & Hfok).
  set (x := arriving o (flat L)) in *. destruct (arriving_kind o (flat L)) as (px & Ex & Epx). fold x in Ex.
  assert (Hz : o' = z0 /\ (rs0 = remaining x (flat L) \/ rs0 = flat L)).
  { unfold dealt in Ed. fold x in Ed. destruct (decide (o_tif o = FOK)) as [Hf|Hf].
    - rewrite (Hfok Hf). destruct (decide _); injection Ed as _ <- <-; auto.
    - destruct (Hnf Hf) as [-> _]. injection Ed as _ <- <-. auto. }
  destruct Hz as [-> Hrs].
  assert (Ho1 : forall k, k <> opp (o_side o) -> orders_of k e1 = orders_of k e).
  { intros k Hk'. destruct (view_of sid e k He) as (M & HM & <-). apply (orders_view sid); [done|]. by apply (cview_other sid (opp (o_side o)) k e e1). }
  assert (Ho2 : orders_of (opp (o_side o)) e1 = rs0) by (rewrite <- Hf1; by apply (orders_view sid)).
  assert (Hold : forall k r, r ∈ orders_of k e1 -> exists r0, r0 ∈ orders_of k e /\ o_price r0 = o_price r /\ o_tif r0 = o_tif r).
  { intros k r Hr. destruct (decide (k = opp (o_side o))) as [->|Hk']; [|rewrite Ho1 in Hr by done; eauto]. rewrite Ho2 in Hr. rewrite <- HL.
    destruct Hrs as [-> | ->]; [by eapply remaining_tif|eauto]. }
  assert (Hgood : good sid e1).
  { constructor; [done| | |].
    - apply (crossed_orders sid); [done|]. intros a b Ha Hb. destruct (Hold _ _ Ha) as (a0 & Ha0 & <- & _). destruct (Hold _ _ Hb) as (b0 & Hb0 & <- & _).
      by apply (proj1 (crossed_orders sid e He) (g_cross _ _ Hg)).
    - rewrite !Ho1 by (by destruct (o_side o)). apply Hg.
    - intros k r Hr. destruct (Hold _ _ Hr) as (r0 & Hr0 & _ & <-). by eapply g_aon. }
  destruct Hk as (K1 & K2 & K3 & K4 & K5 & K6 & K7 & K8 & K9 & K10 & K11 & K12).
  assert (Epz : o_price z0 = px) by (by rewrite K5, Ex).
  exists e1. split; [done|]. split; [constructor; [done|done|by exists evs]|]. split; [|split; [done|split; [intros j; eapply os_none, Hon|split; [|split]]]].
  - apply pit_eq.
    + intros sd. rewrite rest_orders, (proj1 (mark_lists _ _ _ _)), (proj1 (set_rest_lists _ _ _ _)), rest_orders. destruct (decide (sd = opposite (o_side o))) as [->|Hne].
      * by rewrite <- opp_side. * apply Ho1. rewrite opp_side. intros E. apply Hne. destruct sd, (opposite (o_side o)); done.
    + intros sd. rewrite stops_orders, (proj2 (mark_lists _ _ _ _)), (proj1 (proj2 (set_rest_lists _ _ _ _))), stops_orders. apply Ho1. by destruct sd, (o_side o).
    + rewrite pit_quotes, mark_noted, (proj2 (proj2 (set_rest_lists _ _ _ BUY))), pit_quotes, Hq. by rewrite Hxs.
  - rewrite Epz, <- Ex. done.
  - intros Hm. rewrite Epz. auto.
  - intros Hm Hf Hlz r Hr. rewrite (proj1 (mark_lists _ _ _ _)), (proj1 (set_rest_lists _ _ _ _)), decide_True in Hr by done.
    destruct (Hnf Hf) as [Eo _]. assert (Exo : x = o) by (rewrite Ex, (Epx Hm); by destruct o). rewrite Exo in *.
    unfold dealt in Ed. fold x in Ed. rewrite decide_False in Ed by done. rewrite Exo in Ed. injection Ed as _ <- _. rewrite Eo in Hlz.
    assert (Hw : within_limit z0 (o_price r) <-> within_limit o (o_price r)) by (unfold within_limit; by rewrite K4, K5). rewrite Hw.
    eapply remaining_far; [| |exact Hlz|done].
    + apply flat_sorted; [|by eapply cv_sorted]. rewrite opp_side in Hv. exact (cview_prices sid e _ L He Hv).
    + intros r0 Hr0. apply elem_flat in Hr0 as (p & os & Hin & Hr0). by apply (good_intro sid e _ L He Hv Hpl p os r0).
Qed.

(** ** Joining, leaving, changing *)
Definition stop_type2 (o : order) : Prop := o_type o = STOP \/ o_type o = STOP_LIMIT.
Lemma stop_kind_key o : stop_type2 o -> okind o = stop_side (o_side o) /\ okey o = o_stop o.
Proof. unfold okind, okey, kind_of, stop_side. intros [-> | ->]; by destruct (o_side o). Qed.
Lemma stop_side_type r sd : okind r = stop_side sd -> stop_type2 r /\ o_side r = sd /\ okey r = o_stop r.
Proof. unfold okind, okey, kind_of, stop_type2, stop_side. destruct (o_type r), (o_side r), sd; cbn; intros; try done; auto. Qed.
Lemma triggers_better o r : triggers_before o r <-> better (stop_side (o_side o)) (o_stop o) (o_stop r) = true.
Proof. unfold triggers_before, better, stop_side. destruct (o_side o); cbn; lia. Qed.
Lemma line_app o os rs : (forall r, r ∈ os -> ~ triggers_before o r) -> line_up o (os ++ rs) = os ++ line_up o rs.
Proof.
  induction os as [|r os IH]; intros H; [done|]. cbn [app line_up]. rewrite decide_False by (apply H; left). f_equal. apply IH. intros x Hx. apply H. by right.
Qed.
Lemma line_front o rs : (forall r, r ∈ rs -> triggers_before o r) -> line_up o rs = o :: rs.
Proof. intros H. destruct rs as [|r rs]; [done|]. cbn. by rewrite decide_True by (apply H; left). Qed.
Lemma flat_insl_stop o : forall M, (forall p os r, (p, os) ∈ M -> r ∈ os -> o_stop r = p) ->
  StronglySorted (fun a b : Z * list order => better (stop_side (o_side o)) (fst a) (fst b) = true) M ->
  flat (insl (stop_side (o_side o)) (o_stop o) o M) = line_up o (flat M).
Proof.
  induction M as [|[p os] M IH]; intros Hp Hs; [done|]. cbn [insl]. apply StronglySorted_inv in Hs as [Hs Hb]. rewrite Forall_forall in Hb.
  change (flat ((p, os) :: M)) with (os ++ flat M).
  destruct (decide (p = o_stop o)) as [->|Hn].
  - change (flat ((o_stop o, os ++ [o]) :: M)) with ((os ++ [o]) ++ flat M). rewrite line_app.
    + rewrite line_front; [by rewrite <- app_assoc|]. intros r Hr. apply triggers_better. apply elem_flat in Hr as (p' & os' & Hin & Hr).
      rewrite (Hp p' os' r); [|by right|done]. by apply (Hb _ Hin).
    + intros r Hr Hg. apply triggers_better in Hg. rewrite (Hp (o_stop o) os r), better_irrefl in Hg; [done|left|done].
  - destruct (better _ (o_stop o) p) eqn:Eb.
    + rewrite line_front; [done|]. intros r Hr. apply triggers_better. change (os ++ flat M) with (flat ((p, os) :: M)) in Hr. apply elem_flat in Hr as (p' & os' & Hin & Hr).
      rewrite (Hp p' os' r Hin Hr). apply elem_of_cons in Hin as [[= -> ->]|Hin]; [done|]. eapply better_trans; [done|]. by apply (Hb _ Hin).
    + change (flat ((p, os) :: insl (stop_side (o_side o)) (o_stop o) o M)) with (os ++ flat (insl (stop_side (o_side o)) (o_stop o) o M)).
      rewrite IH; [|intros p' os' r Hin; eapply Hp; by right|done].
      rewrite line_app; [done|]. intros r Hr Hg. apply triggers_better in Hg. rewrite (Hp p os r) in Hg; [congruence|left|done].
Qed.
Lemma elem_line o rs x : x ∈ line_up o rs <-> x = o \/ x ∈ rs.
Proof.
  induction rs as [|r rs IH]; cbn [line_up]; [rewrite elem_of_list_singleton; split; [by left|intros [?|H]; [done|by apply elem_of_nil in H]]|].
  destruct (decide (triggers_before o r)); rewrite !elem_of_cons; [tauto|]. rewrite IH. tauto.
Qed.
Lemma quotes_prices e e' : bprices (e_bk e') = bprices (e_bk e) -> quotes e' = quotes e.
Proof. unfold bprices, quotes. intros [=]. congruence. Qed.
Lemma joins_ok sid e o : good sid e -> e_ords e !! o_id o = None -> fly_ok sid (e_ords e) o -> 0 < o_leaves o -> o_tif o <> AON ->
  (o_type o = LIMIT /\ immediate o = false /\ (forall r, r ∈ rest_of (opposite (o_side o)) (pit_of e) -> ~ within_limit o (o_price r))) \/ stop_type2 o ->
  let e' := eng_add o (put o e) in runs sid e [] e' /\ pit_of e' = joins o (pit_of e).
Proof.
  intros Hg Hn Hfl Hlv Hna Hty e'. pose proof (g_ok _ _ Hg) as He.
  assert (Hlive : live_ok (o_id o) o).
  { eapply fly_live; [done|done| |]; destruct Hty as [(-> & Hi & _)|[-> | ->]]; done. }
  destruct (view_of sid e (okind o) He) as (M & HvM & HM).
  destruct (add_view sid e o M He Hn Hlive (fl_total _ _ _ Hfl) (fl_sym _ _ _ Hfl) HvM) as (e2 & evs & E & He2 & Hlog & Hxs & _ & _ & Hords & Hbp & Hv2 & Hoth).
  fold e' in E. subst e2.
  assert (Ho1 : forall k, k <> okind o -> orders_of k e' = orders_of k e).
  { intros k Hk. destruct (view_of sid e k He) as (A & HA & <-). apply (orders_view sid); [done|]. by apply Hoth. }
  assert (Ho2 : orders_of (okind o) e' = flat (insl (okind o) (okey o) o M)) by by apply (orders_view sid).
  assert (Hkey : forall p os r, (p, os) ∈ M -> r ∈ os -> okey r = p /\ okind r = okind o /\ o_type r <> MARKET).
  { intros p os r Hin Hr. destruct (cview_order sid e _ M p os r He HvM Hin Hr) as (_ & _ & A & B & C). split; [done|]. split; [done|]. apply C. }
  assert (Hcase : (o_type o = LIMIT /\ okind o = side_kind (o_side o) /\ orders_of (okind o) e' = place o (orders_of (okind o) e)) \/
                  (stop_type2 o /\ okind o = stop_side (o_side o) /\ orders_of (okind o) e' = line_up o (orders_of (okind o) e))).
  { destruct Hty as [(Ht & _)|Ht].
    - left. destruct (limit_kind o Ht) as [Hk Hp]. split; [done|]. split; [done|]. rewrite Ho2, <- HM, Hp, Hk.
      apply flat_insl; [|intros p os Hin; by apply (cv_q _ _ _ HvM p os Hin)|rewrite <- Hk; by eapply cv_sorted].
      intros p os r Hin Hr. destruct (Hkey p os r Hin Hr) as (A & B & C). rewrite Hk in B. destruct (side_kind_type r _ C B). congruence.
    - right. destruct (stop_kind_key o Ht) as [Hk Hp]. split; [done|]. split; [done|]. rewrite Ho2, <- HM, Hp, Hk.
      apply flat_insl_stop; [|rewrite <- Hk; by eapply cv_sorted].
      intros p os r Hin Hr. destruct (Hkey p os r Hin Hr) as (A & B & C). rewrite Hk in B. destruct (stop_side_type r _ B) as (_ & _ & D). congruence. }
  assert (Hel : forall k r, r ∈ orders_of k e' -> r ∈ orders_of k e \/ (r = o /\ k = okind o)).
  { intros k r Hr. destruct (decide (k = okind o)) as [->|Hk]; [|rewrite Ho1 in Hr by done; by left].
    destruct Hcase as [(_ & _ & E)|(_ & _ & E)]; rewrite E in Hr; [apply elem_place in Hr|apply elem_line in Hr]; destruct Hr as [->|Hr]; auto. }
  split.
  - constructor.
    + constructor; [done| | |].
      * apply (crossed_orders sid); [done|]. intros a b Ha Hb. pose proof (proj1 (crossed_orders sid e He) (g_cross _ _ Hg)) as Hc.
        destruct Hty as [(Ht & _ & Hfar)|Ht].
        -- destruct (limit_kind o Ht) as [Hk Hp]. destruct (Hel _ _ Ha) as [Ha'|[-> Hka]], (Hel _ _ Hb) as [Hb'|[-> Hkb]]; [auto| | |congruence].
           ++ rewrite Hk in Hkb. destruct (o_side o) eqn:Es; [done|]. specialize (Hfar a Ha'). unfold within_limit in Hfar. rewrite Es in Hfar. lia.
           ++ rewrite Hk in Hka. destruct (o_side o) eqn:Es; [|done]. specialize (Hfar b Hb'). unfold within_limit in Hfar. rewrite Es in Hfar. lia.
        -- destruct (stop_kind_key o Ht) as [Hk Hp]. rewrite !Ho1 in * by (rewrite Hk; by destruct (o_side o)). auto.
      * rewrite !Ho1; [apply Hg| |]; destruct Hcase as [(_ & -> & _)|(_ & -> & _)]; by destruct (o_side o).
      * intros k r Hr. destruct (Hel _ _ Hr) as [Hr'|[-> _]]; [by eapply g_aon|done].
    + rewrite Hords. apply frame_insert; [done|apply Hfl].
    + by exists evs.
  - unfold joins. destruct Hcase as [(Ht & Hk & E)|(Ht & Hk & E)].
    + rewrite Ht. apply pit_eq.
      * intros sd. rewrite (proj1 (set_rest_lists _ _ _ _)), !rest_orders. destruct (decide (sd = o_side o)) as [->|Hne]; [by rewrite <- Hk|]. apply Ho1. rewrite Hk. by destruct sd, (o_side o).
      * intros sd. rewrite (proj1 (proj2 (set_rest_lists _ _ _ _))), !stops_orders. apply Ho1. rewrite Hk. by destruct sd, (o_side o).
      * rewrite (proj2 (proj2 (set_rest_lists _ _ _ BUY))). by apply quotes_prices.
    + assert (match o_type o with LIMIT => set_rest (o_side o) (place o (rest_of (o_side o) (pit_of e))) (pit_of e) | _ => set_stops (o_side o) (line_up o (stops_of (o_side o) (pit_of e))) (pit_of e) end =
        set_stops (o_side o) (line_up o (stops_of (o_side o) (pit_of e))) (pit_of e)) as -> by (by destruct Ht as [-> | ->]). apply pit_eq.
      * intros sd. rewrite (proj1 (proj2 (set_stops_lists _ _ _ _))), !rest_orders. apply Ho1. rewrite Hk. by destruct sd, (o_side o).
      * intros sd. rewrite (proj1 (set_stops_lists _ _ _ _)), !stops_orders. destruct (decide (sd = o_side o)) as [->|Hne]; [by rewrite <- Hk|]. apply Ho1. rewrite Hk. by destruct sd, (o_side o).
      * rewrite (proj2 (proj2 (set_stops_lists _ _ _ BUY))). by apply quotes_prices.
Qed.
Lemma every_pit f e e' : (forall k, orders_of k e' = f (orders_of k e)) -> quotes e' = quotes e -> pit_of e' = every f (pit_of e).
Proof. intros H [= H1 H2]. unfold pit_of, every. cbn. by rewrite !H, H1, H2. Qed.
Lemma leave_ok sid e e' o u m' evs : good sid e -> e_ords e !! o_id o = Some o -> o_sym o = sid -> eng_ok sid e' -> e_ords e' = delete (o_id o) (e_ords e) ->
  prim m' (okind o) (okey o) (filter (fun j => j <> o_id o) (queue (e_bk e) (okind o) (okey o))) (e_bk e) (e_bk e') u ->
  e_log e' = e_log e ++ evs -> runs sid e (execs evs) e' /\ forall k, orders_of k e' = without (o_id o) (orders_of k e).
Proof.
  intros Hg Ho Hs He' Hords Hpr Hlog. pose proof (g_ok _ _ Hg) as He.
  pose proof (drop_queues sid e (e_bk e') m' u o He Ho Hs Hpr) as Hq.
  assert (Hj : forall j, j <> o_id o -> e_ords e' !! j = e_ords e !! j) by (intros j Hj; by rewrite Hords, lookup_delete_ne).
  assert (Hk : forall k, orders_of k e' = without (o_id o) (orders_of k e)).
  { intros k. destruct (view_of sid e k He) as (L & HL & <-). rewrite <- flat_drop. apply (orders_view sid); [done|]. by apply (cview_drop e). }
  assert (Hel : forall k r, r ∈ orders_of k e' -> r ∈ orders_of k e). { intros k r. rewrite Hk, elem_without. tauto. }
  split.
  - constructor; [constructor; [done| | |]|rewrite Hords; by eapply frame_delete|by exists evs].
    + apply (crossed_orders sid); [done|]. intros a b Ha Hb. apply (proj1 (crossed_orders sid e He) (g_cross _ _ Hg)); auto.
    + rewrite !Hk. destruct (g_trail _ _ Hg) as [-> ->]. done.
    + intros k r Hr. eapply g_aon; eauto.
  - done.
Qed.
Lemma alter_ok sid e e' o o' u m' evs : good sid e -> e_ords e !! o_id o = Some o -> o_sym o = sid -> eng_ok sid e' -> e_ords e' = <[o_id o := o']> (e_ords e) ->
  o_id o' = o_id o -> o_sym o' = o_sym o -> o_price o' = o_price o -> o_tif o' = o_tif o ->
  prim m' (okind o) (okey o) (queue (e_bk e) (okind o) (okey o)) (e_bk e) (e_bk e') u ->
  e_log e' = e_log e ++ evs -> runs sid e (execs evs) e' /\ forall k, orders_of k e' = changed o' (orders_of k e).
Proof.
  intros Hg Ho Hs He' Hords Eid Esym Epr Etif Hpr Hlog. pose proof (g_ok _ _ Hg) as He.
  assert (Hq : forall k p, queue (e_bk e') k p = queue (e_bk e) k p). { intros k p. rewrite (prim_queue _ _ _ _ _ _ _ Hpr). by destruct (decide _) as [[-> ->]|]. }
  assert (Hj : forall j, j <> o_id o' -> e_ords e' !! j = e_ords e !! j) by (intros j Hj; rewrite Hords, lookup_insert_ne; congruence).
  assert (Ho' : e_ords e' !! o_id o' = Some o') by (rewrite Hords, Eid; apply lookup_insert).
  assert (Hk : forall k, orders_of k e' = changed o' (orders_of k e)).
  { intros k. destruct (view_of sid e k He) as (L & HL & <-). rewrite <- flat_change. apply (orders_view sid); [done|]. by apply (cview_change e). }
  assert (Hel : forall k r, r ∈ orders_of k e' -> exists r0, r0 ∈ orders_of k e /\ o_price r0 = o_price r /\ o_tif r0 = o_tif r).
  { intros k r. rewrite Hk. intros H. apply elem_of_list_fmap in H as (r0 & -> & H). exists r0. split; [done|]. destruct (decide (o_id r0 = o_id o')) as [E|]; [|done].
    destruct (orders_elem sid e k r0 He H) as (Hm & _). rewrite E, Eid, Ho in Hm. injection Hm as <-. done. }
  split.
  - constructor; [constructor; [done| | |]|rewrite Hords; eapply frame_update; [done|done|congruence]|by exists evs].
    + apply (crossed_orders sid); [done|]. intros a b Ha Hb. destruct (Hel _ _ Ha) as (a0 & Ha0 & <- & _). destruct (Hel _ _ Hb) as (b0 & Hb0 & <- & _).
      by apply (proj1 (crossed_orders sid e He) (g_cross _ _ Hg)).
    + rewrite !Hk. destruct (g_trail _ _ Hg) as [-> ->]. done.
    + intros k r Hr. destruct (Hel _ _ Hr) as (r0 & Hr0 & _ & <-). by eapply g_aon.
  - done.
Qed.
