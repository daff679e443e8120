(** * RefExchange.v -- the manager against the reference exchange of Spec8.v. *)
From Coq Require Import ZifyBool.
From stdpp Require Import fin_maps gmap relations sorting.
From Verif Require Import Types Book Engine Manager Factory Validate LevelFacts BookInv EngInv EngPrim Steps StepsOk Refine1 Refine2 Refine3 Refine4 Api StateInv Micro Reach Calls Trades Settle Witness PropsState PropsSettle CallFacts PropsBasic PropsTrades PropsOrders PropsFok PropsFill PropsDirect PropsReject RefMatch PropsRef Spec Spec2 Spec3 Spec5 Spec6 Spec7 Spec8.

(** ** Views after an order is taken out or changed *)
Definition drop_out (i : Z) (L : list (Z * list order)) : list (Z * list order) :=
  omap (fun x => match without i (snd x) with [] => None | os => Some (fst x, os) end) L.
Lemma without_app i a b : without i (a ++ b) = without i a ++ without i b.
Proof. apply filter_app. Qed.
Lemma flat_drop i L : flat (drop_out i L) = without i (flat L).
Proof.
  induction L as [|[p os] L IH]; [done|]. change (flat ((p, os) :: L)) with (os ++ flat L). rewrite without_app, <- IH.
  unfold drop_out. cbn [omap list_omap fst snd]. by destruct (without i os) eqn:E.
Qed.
Lemma elem_drop i L p os : (p, os) ∈ drop_out i L <-> os <> [] /\ exists os0, (p, os0) ∈ L /\ os = without i os0.
Proof.
  unfold drop_out. rewrite elem_of_list_omap. split.
  - intros ([p0 os0] & Hin & H). cbn [fst snd] in H. destruct (without i os0) eqn:E; [done|]. injection H as <- <-. split; [done|]. exists os0. by rewrite E.
  - intros (Hne & os0 & Hin & ->). exists (p, os0). split; [done|]. cbn [fst snd]. destruct (without i os0) as [|r os1]; [by destruct Hne|done].
Qed.
Lemma map_without i (os : list order) : map o_id (without i os) = filter (fun j => j <> i) (map o_id os).
Proof.
  unfold without. induction os as [|r os IH]; [done|]. rewrite filter_cons. cbn [map]. rewrite filter_cons.
  destruct (decide (o_id r <> i)); cbn [map]; by rewrite IH.
Qed.
Lemma drop_sorted k i L : StronglySorted (fun a b : Z * list order => better k (fst a) (fst b) = true) L ->
  StronglySorted (fun a b : Z * list order => better k (fst a) (fst b) = true) (drop_out i L).
Proof.
  induction 1 as [|[p os] L Hs IH Hb]; [constructor|]. unfold drop_out. cbn [omap list_omap fst snd]. destruct (without i os) eqn:E; [done|].
  constructor; [done|]. rewrite Forall_forall in *. intros [p' os'] Hin. apply (elem_drop i L) in Hin as (_ & os0 & Hin & _). by apply (Hb _ Hin).
Qed.
Lemma cview_drop e e' k L i : cview e k L -> (forall p, queue (e_bk e') k p = filter (fun j => j <> i) (queue (e_bk e) k p)) ->
  (forall j, j <> i -> e_ords e' !! j = e_ords e !! j) -> cview e' k (drop_out i L).
Proof.
  intros Hv Hq Hj. constructor.
  - apply drop_sorted. by eapply cv_sorted.
  - intros p os Hin. apply elem_drop in Hin as (Hne & os0 & Hin & ->). destruct (cv_q _ _ _ Hv p os0 Hin) as (_ & Hqp & Hall). split; [done|].
    split; [by rewrite Hq, Hqp, map_without|]. intros o Ho. apply elem_of_list_filter in Ho as [Hi Ho]. rewrite Hj; auto.
  - intros q Hqn. rewrite Hq in Hqn. assert (Hq0 : queue (e_bk e) k q <> []) by (intros E; by rewrite E in Hqn).
    pose proof (cv_all _ _ _ Hv q Hq0) as Hin. apply elem_of_list_fmap in Hin as ([p os] & E & Hin). cbn in E. subst p.
    destruct (cv_q _ _ _ Hv q os Hin) as (_ & Hqp & _). apply elem_of_list_fmap. exists (q, without i os). split; [done|]. apply elem_drop. split; [|eauto].
    intros E. apply Hqn. by rewrite Hqp, <- map_without, E.
Qed.
Definition change_in (o : order) (L : list (Z * list order)) : list (Z * list order) := map (fun x => (fst x, changed o (snd x))) L.
Lemma flat_change o L : flat (change_in o L) = changed o (flat L).
Proof.
  induction L as [|[p os] L IH]; [done|]. change (flat ((p, os) :: L)) with (os ++ flat L). change (flat (change_in o ((p, os) :: L))) with (changed o os ++ flat (change_in o L)).
  rewrite IH. unfold changed. by rewrite map_app.
Qed.
Lemma map_changed o os : map o_id (changed o os) = map o_id os.
Proof. unfold changed. rewrite map_map. apply map_ext. intros r. by destruct (decide (o_id r = o_id o)). Qed.
Lemma change_sorted k o L : StronglySorted (fun a b : Z * list order => better k (fst a) (fst b) = true) L ->
  StronglySorted (fun a b : Z * list order => better k (fst a) (fst b) = true) (change_in o L).
Proof.
  unfold change_in. induction 1 as [|[p os] L Hs IH Hb]; [constructor|]. cbn [map fst snd]. constructor; [done|].
  rewrite Forall_forall in *. intros x Hx. apply elem_of_list_fmap in Hx as (y & -> & Hy). by apply (Hb _ Hy).
Qed.
Lemma cview_change e e' k L o : cview e k L -> (forall p, queue (e_bk e') k p = queue (e_bk e) k p) ->
  e_ords e' !! o_id o = Some o -> (forall j, j <> o_id o -> e_ords e' !! j = e_ords e !! j) -> cview e' k (change_in o L).
Proof.
  intros Hv Hq Ho Hj. constructor.
  - apply change_sorted. by eapply cv_sorted.
  - intros p os Hin. apply elem_of_list_fmap in Hin as ([p0 os0] & [= -> ->] & Hin). destruct (cv_q _ _ _ Hv p0 os0 Hin) as (Hne & Hqp & Hall).
    split; [by destruct os0|]. split; [by rewrite Hq, map_changed|]. intros r Hr. apply elem_of_list_fmap in Hr as (r0 & -> & Hr). destruct (decide (o_id r0 = o_id o)); [done|]. rewrite Hj; auto.
  - intros q Hqn. rewrite Hq in Hqn. pose proof (cv_all _ _ _ Hv q Hqn) as Hin. unfold change_in. by rewrite map_map.
Qed.

(** ** Agreement of books *)
Definition agrees2 (x : exchange) (s : state) : Prop :=
  (forall i, x_syms x !! i = get_symbol i s) /\
  (forall i, x_books x !! i = match get_book i s with Some _ => Some (resting s i BUY, resting s i SELL) | None => None end).
Definition no_stop_queues (b : book) : Prop := forall k p, k <> KBid -> k <> KAsk -> queue b k p = [].
Definition no_stops_at_all (s : state) : Prop := forall i b, get_book i s = Some b -> no_stop_queues b.

Lemma resting_live s i sd o : inv s -> o ∈ resting s i sd -> get_order (o_id o) s = Some o.
Proof.
  intros Hi. unfold resting. destruct (get_book i s) as [b|]; [|intros H; by apply elem_of_nil in H]. intros H. apply elem_of_list_omap in H as (j & _ & Hj).
  rewrite get_order_inv in Hj |- * by done. by rewrite (lo_id _ _ (mo_live _ (iv_map _ Hi) _ _ Hj)).
Qed.
Lemma queue_lvls b k p j : j ∈ queue b k p -> j ∈ concat (map l_ids (s_lvls (get_side k b))).
Proof.
  unfold queue, ids_at. destruct (find_level p _) as [l|] eqn:E; [|intros H; by apply elem_of_nil in H]. intros Hj.
  apply elem_of_list_In, in_concat. exists (l_ids l). split; [|by apply elem_of_list_In]. apply in_map. apply elem_of_list_In. by eapply find_level_elem.
Qed.
Lemma live_resting s o j : inv s -> no_stops_at_all s -> get_order j s = Some o ->
  exists b sd, get_book (o_sym o) s = Some b /\ o ∈ resting s (o_sym o) sd /\ o_id o = j.
Proof.
  intros Hi Hn Ho. rewrite get_order_inv in Ho by done. pose proof (mo_live _ (iv_map _ Hi) _ _ Ho) as Hl.
  destruct (get_book (o_sym o) s) as [b|] eqn:Hb; [|by destruct (iv_home _ Hi _ _ Ho)].
  pose proof (bk_full _ _ _ (iv_book _ Hi _ _ Hb) _ _ Ho eq_refl) as Hq. exists b.
  assert (Hk : exists sd, okind o = side_kind sd).
  { destruct (decide (okind o = KBid)) as [?|H1]; [by exists BUY|]. destruct (decide (okind o = KAsk)) as [?|H2]; [by exists SELL|].
    rewrite (Hn _ _ Hb _ _ H1 H2) in Hq. by apply elem_of_nil in Hq. }
  destruct Hk as [sd Hk]. exists sd. split; [done|]. split; [|by apply Hl]. unfold resting. rewrite Hb. apply elem_of_list_omap. exists j.
  split; [|by rewrite get_order_inv]. rewrite <- Hk. by eapply queue_lvls.
Qed.
Lemma elem_everything x o : o ∈ everything x <-> exists i y, x_books x !! i = Some y /\ (o ∈ fst y \/ o ∈ snd y).
Proof.
  unfold everything. rewrite elem_of_list_In, in_concat. split.
  - intros (l & Hl & Ho). apply in_map_iff in Hl as ([i y] & <- & Hin). exists i, y. split; [by apply elem_of_map_to_list, elem_of_list_In|].
    cbn in Ho. apply in_app_iff in Ho. by rewrite !elem_of_list_In.
  - intros (i & y & Hy & Ho). exists (fst y ++ snd y). split.
    + apply in_map_iff. exists (i, y). split; [done|]. by apply elem_of_list_In, elem_of_map_to_list.
    + apply in_app_iff. by rewrite <- !elem_of_list_In.
Qed.
Lemma found_some i x o : found i x = Some o -> o ∈ everything x /\ o_id o = i.
Proof.
  unfold found. destruct (filter _ _) as [|r l] eqn:E; [done|]. intros [= ->]. assert (H : o ∈ filter (fun o => o_id o = i) (everything x)) by (rewrite E; left).
  apply elem_of_list_filter in H. tauto.
Qed.
Lemma found_none i x o : found i x = None -> o ∈ everything x -> o_id o <> i.
Proof.
  unfold found. destruct (filter _ _) as [|r l] eqn:E; [|done]. intros _ Ho Hi. assert (H : o ∈ filter (fun o => o_id o = i) (everything x)) by (by apply elem_of_list_filter).
  rewrite E in H. by apply elem_of_nil in H.
Qed.
Lemma agrees_live x s o : inv s -> agrees2 x s -> o ∈ everything x -> get_order (o_id o) s = Some o.
Proof.
  intros Hi [_ Hb] Ho. apply elem_everything in Ho as (i & y & Hy & Ho). rewrite Hb in Hy. destruct (get_book i s); [|done]. injection Hy as <-. cbn in Ho.
  destruct Ho; by eapply resting_live.
Qed.
Lemma found_ok x s i : inv s -> no_stops_at_all s -> agrees2 x s -> found i x = get_order i s.
Proof.
  intros Hi Hn Ha. destruct (found i x) as [o|] eqn:E.
  - apply found_some in E as [Ho <-]. symmetry. by eapply agrees_live.
  - destruct (get_order i s) as [o|] eqn:Eo; [|done]. exfalso. destruct (live_resting s o i Hi Hn Eo) as (b & sd & Hb & Hr & Hid).
    eapply found_none; [done| |exact Hid]. apply elem_everything. eexists _, _. split; [rewrite (proj2 Ha); by rewrite Hb|]. destruct sd; [by left|by right].
Qed.

(** Orders of other symbols stay in their places. *)
Lemma resting_other s sid b e i sd : inv s -> get_book sid s = Some b -> eng_ok sid e -> frame sid (st_ords s) (e_ords e) -> i <> sid ->
  resting (put_eng sid e s) i sd = resting s i sd.
Proof.
  intros Hi Hb He Hf Hne. assert (Hi' : inv (put_eng sid e s)) by by eapply put_inv.
  assert (Hg : get_book i (put_eng sid e s) = get_book i s) by (rewrite (get_book_put _ _ _ _ _ Hb), decide_False by done; done).
  destruct (get_book i s) as [bi|] eqn:Ei; [|unfold resting; by rewrite Hg, Ei].
  destruct (resting_view s i bi sd Hi Ei) as (L & HL & <-). destruct (resting_view _ i bi sd Hi' Hg) as (L' & HL' & <-). f_equal.
  eapply (cview_unique i (eng_of bi (put_eng sid e s))); [apply inv_eng; [by apply inv_loose|done]|done|].
  eapply (cview_ext (eng_of bi s)); [done| |exact HL]. intros p os o Hin Ho Hm.
  destruct (cview_order i _ _ L p os o (inv_eng _ _ _ Hi Ei) HL Hin Ho) as (_ & Hs & _). apply (Hf (o_id o) o); [congruence|done].
Qed.
Lemma agrees_put x s sid b e A B : inv s -> get_book sid s = Some b -> eng_ok sid e -> frame sid (st_ords s) (e_ords e) ->
  cview e KBid A -> cview e KAsk B -> agrees2 x s -> agrees2 (set_sides sid (flat A, flat B) x) (put_eng sid e s).
Proof.
  intros Hi Hb He Hf HA HB [Hs Hbk]. split; [exact Hs|]. intros i. cbn [set_sides x_books]. rewrite (get_book_put _ _ _ _ _ Hb). destruct (decide (sid = i)) as [<-|Hne].
  - rewrite lookup_insert. rewrite (resting_eng sid e s b BUY A Hb He HA), (resting_eng sid e s b SELL B Hb He HB). done.
  - rewrite lookup_insert_ne by done. rewrite Hbk. destruct (get_book i s); [|done]. by rewrite !(resting_other s sid b e i) by auto.
Qed.
Lemma agrees_same x s sid b e e' : inv s -> get_book sid s = Some b -> e_ords e' = e_ords e -> (forall k, get_side k (e_bk e') = get_side k (e_bk e)) ->
  agrees2 x (put_eng sid e s) -> agrees2 x (put_eng sid e' s).
Proof.
  intros Hi Hb Ho Hk [Hs Hbk]. split; [exact Hs|]. intros i. rewrite Hbk, !(get_book_put _ _ _ _ _ Hb).
  assert (Hr : forall sd, resting (put_eng sid e' s) i sd = resting (put_eng sid e s) i sd).
  { intros sd. unfold resting. rewrite !(get_book_put _ _ _ _ _ Hb). destruct (decide (sid = i)) as [<-|Hne].
    - rewrite Hk. apply omap_ext_in. intros j. unfold get_order. cbn. by rewrite Ho.
    - destruct (get_book i s); [|done]. apply omap_ext_in. intros j. unfold get_order. cbn. by rewrite Ho. }
  rewrite !Hr. by destruct (decide (sid = i)).
Qed.
(** The engine view of the exchange's book. *)
Lemma agrees_view x s sid b : inv s -> get_book sid s = Some b -> agrees2 x s ->
  exists A B, cview (eng_of b s) KBid A /\ cview (eng_of b s) KAsk B /\ x_books x !! sid = Some (flat A, flat B).
Proof.
  intros Hi Hb [_ Hbk]. destruct (resting_view s sid b BUY Hi Hb) as (A & HA & EA). destruct (resting_view s sid b SELL Hi Hb) as (B & HB & EB).
  exists A, B. split; [done|]. split; [done|]. by rewrite Hbk, Hb, EA, EB.
Qed.
Lemma set_set sid y y' x : set_sides sid y (set_sides sid y' x) = set_sides sid y x.
Proof. unfold set_sides. cbn. by rewrite insert_insert. Qed.
Lemma no_stop_best e : no_stop_queues (e_bk e) -> (exists sid, eng_ok sid e) -> no_stop_levels e.
Proof.
  intros Hn [sid He]. assert (H : forall k, k <> KBid -> k <> KAsk -> best k e = None).
  { intros k H1 H2. destruct (best k e) as [p|] eqn:E; [|done]. destruct (best_some _ _ _ _ _ (proj2 He) E) as [Hq _]. by rewrite Hn in Hq. }
  split_and!; by apply H.
Qed.
Lemma finish_agrees s sid b e x : inv s -> get_book sid s = Some b -> eng_ok sid e -> crossed e = None -> no_stop_queues (e_bk e) -> agrees2 x (put_eng sid e s) ->
  exists e', finish true e = Ok (e', OK) /\ e_log e' = e_log e /\ agrees2 x (put_eng sid e' s).
Proof.
  intros Hi Hb He Hc Hn Ha. destruct (finish_quiet true e Hc) as (e' & Hf & Hsame); [by apply no_stop_best; eauto|].
  destruct Hsame as (A1 & A2 & (_ & A4 & _)). exists e'. split; [done|]. split; [done|]. by eapply (agrees_same x s sid b e e').
Qed.
Lemma no_stop_sides b b' : (forall k, k <> KBid -> k <> KAsk -> get_side k b' = get_side k b) -> no_stop_queues b -> no_stop_queues b'.
Proof. intros H Hn k p H1 H2. unfold queue. rewrite H by done. by apply Hn. Qed.

(** ** Entering an order *)
Definition rest_in (o : order) (e : eng) : res (eng * err) :=
  if (0 <? o_leaves o) && negb (immediate o) then insert_rest true o e else finish true (emit (EDeleteOrder o) e).
Lemma put_put sid e e' s b : get_book sid s = Some b -> put_eng sid e' (put_eng sid e s) = put_eng sid e' s.
Proof. intros Hb. unfold put_eng, vset. cbn [st_syms st_books st_ords st_match st_log]. f_equal. apply (list_insert_insert (st_books s)). Qed.
Lemma no_stops_put s sid b e : get_book sid s = Some b -> no_stops_at_all s -> no_stop_queues (e_bk e) -> no_stops_at_all (put_eng sid e s).
Proof.
  intros Hb Hn He i bi. rewrite (get_book_put _ _ _ _ _ Hb). destruct (decide (sid = i)) as [<-|Hne]; [by intros [= <-]|]. by apply Hn.
Qed.
Lemma enter_ref s sid e o x A B : inv s -> get_book sid s = Some (e_bk e) -> st_ords s = e_ords e -> no_stops_at_all s -> crossed e = None ->
  fly_ok sid (e_ords e) o -> 0 < o_leaves o -> o_tif o <> AON -> o_type o = LIMIT \/ (o_type o = MARKET /\ immediate o = true) ->
  cview e KBid A -> cview e KAsk B -> plain_lists A -> plain_lists B -> agrees2 x s ->
  exists o' e1 e3 er evs x', meet o e = Ok (o', e1) /\ rest_in o' e1 = Ok (e3, er) /\ immediate o' = immediate o /\ o_id o' = o_id o /\
    (forall j, e_ords e !! j = None -> e_ords e1 !! j = None) /\
    e_log e3 = e_log e ++ evs /\ enter o x = (er, execs evs, x') /\ agrees2 x' (put_eng sid e3 s).
Proof.
  intros Hi Hb Hords Hns Hc Hfl Hlv Haon Hty HA HB HpA HpB Ha.
  assert (He : eng_ok sid e). { split; [rewrite <- Hords; apply Hi|]. rewrite <- Hords. by apply (iv_book _ Hi). }
  assert (Hg : forall j s0, inv s0 -> get_order j s0 = st_ords s0 !! j) by (intros; by apply get_order_inv).
  set (sd := o_side o). set (L := match sd with BUY => B | SELL => A end). set (M := match sd with BUY => A | SELL => B end).
  assert (HvL : cview e (opp sd) L) by (unfold L; by destruct sd). assert (HvM : cview e (side_kind sd) M) by (unfold M; by destruct sd).
  assert (HpL : plain_lists L) by (unfold L; by destruct sd).
  destruct (meet_lay_ref sid e o L M He Hfl Hlv Haon Hty HvL HpL HvM)
    as (o' & e1 & evs & L' & Hm & Hid & Him & Hlog & Hmatch & He1 & Hf1 & Hkeep & HvL1 & HvM1 & Hs1 & Hlay & Hcr1).
  assert (Hxb : x_books x !! sid = Some (flat A, flat B)).
  { rewrite (proj2 Ha), Hb. f_equal. f_equal; unfold resting; rewrite Hb; [rewrite <- (flat_levels sid e _ _ He HA)|rewrite <- (flat_levels sid e _ _ He HB)]; apply omap_ext_in; intros j; by rewrite Hg, Hords. }
  assert (Hyo : side_of sd (flat A, flat B) = flat M) by (unfold M; by destruct sd).
  assert (Hyr : side_of (opposite sd) (flat A, flat B) = flat L) by (unfold L; by destruct sd).
  assert (Hsym : o_sym o = sid) by apply Hfl.
  assert (Hag : forall e2 M2, eng_ok sid e2 -> frame sid (e_ords e) (e_ords e2) -> cview e2 (opp sd) L' -> cview e2 (side_kind sd) M2 ->
    agrees2 (set_sides sid (sides_of sd (flat M2) (flat L')) x) (put_eng sid e2 s)).
  { intros e2 M2 He2 Hf2 V1 V2. assert (Hf2' : frame sid (st_ords s) (e_ords e2)) by by rewrite Hords. clearbody sd. destruct sd; cbn [opp side_kind sides_of] in *.
    - exact (agrees_put x s sid _ e2 M2 L' Hi Hb He2 Hf2' V2 V1 Ha).
    - exact (agrees_put x s sid _ e2 L' M2 Hi Hb He2 Hf2' V1 V2 Ha). }
  assert (Hns0 : no_stop_queues (e_bk e)) by by eapply Hns.
  assert (Hf1' : frame sid (st_ords s) (e_ords e1)) by by rewrite Hords.
  exists o', e1. unfold rest_in, enter. rewrite Hsym, Hxb. fold sd. rewrite Hyo, Hyr, Hmatch.
  destruct ((0 <? o_leaves o') && negb (immediate o')) eqn:Ew.
  - pose proof (Hag e1 M He1 Hf1 HvL1 HvM1) as Hag1. assert (Hi1 : inv (put_eng sid e1 s)) by by eapply put_inv.
    rewrite (found_ok _ _ (o_id o) Hi1 (no_stops_put s sid _ e1 Hb Hns (no_stop_sides _ _ Hs1 Hns0)) Hag1), (Hg _ _ Hi1).
    cbn [put_eng st_ords]. unfold insert_rest. rewrite Hid. destruct (e_ords e1 !! o_id o) as [r|] eqn:Er.
    + exists (emit (EDeleteOrder o') e1), ORDER_DUPLICATE, (evs ++ [EDeleteOrder o']). eexists. split; [done|]. split; [done|]. split; [done|]. split; [done|]. split; [done|].
      split; [cbn; by rewrite Hlog, <- app_assoc|]. rewrite decide_False by done. split; [by rewrite execs_app, app_nil_r|].
      apply (Hag (emit (EDeleteOrder o') e1) M); [by apply emit_ok|done|by apply cview_emit|by apply cview_emit].
    + destruct (Hlay eq_refl) as (evs2 & M' & He2 & Hf2 & Hlog2 & Hx2 & HvL2 & HvM2 & HM2 & Hs2 & Hcr2). unfold lay in *. rewrite Ew in *.
      destruct (finish_agrees s sid _ (eng_add o' (put o' e1)) _ Hi Hb He2 (Hcr2 Hc) (no_stop_sides _ _ Hs2 Hns0) (Hag _ M' He2 Hf2 HvL2 HvM2)) as (e3 & Hfin & Hl3 & Hag3).
      exists e3, OK, (evs ++ evs2). eexists. split; [done|]. split; [done|]. split; [done|]. split; [done|]. split; [done|].
      split; [by rewrite Hl3, Hlog2, Hlog, <- app_assoc|]. rewrite decide_True by done. rewrite HM2 in Hag3. split; [by rewrite execs_app, Hx2, app_nil_r|]. exact Hag3.
  - assert (HvM2 : cview (emit (EDeleteOrder o') e1) (side_kind sd) M) by by apply cview_emit.
    assert (HvL2 : cview (emit (EDeleteOrder o') e1) (opp sd) L') by by apply cview_emit.
    assert (He2 : eng_ok sid (emit (EDeleteOrder o') e1)) by by apply emit_ok.
    destruct (finish_agrees s sid _ (emit (EDeleteOrder o') e1) _ Hi Hb He2 (Hcr1 eq_refl Hc) (no_stop_sides _ (e_bk e1) Hs1 Hns0) (Hag _ M He2 Hf1 HvL2 HvM2)) as (e3 & Hfin & Hl3 & Hag3).
    exists e3, OK, (evs ++ [EDeleteOrder o']). eexists. split; [done|]. split; [done|]. split; [done|]. split; [done|]. split; [done|].
    split; [rewrite Hl3; cbn; by rewrite Hlog, <- app_assoc|]. split; [by rewrite execs_app, app_nil_r|]. exact Hag3.
Qed.

(** ** Taking an order out and changing it *)
Lemma filter_none i (l : list Z) : i ∉ l -> filter (fun j => j <> i) l = l.
Proof.
  induction l as [|j l IH]; [done|]. intros H. apply not_elem_of_cons in H as [H1 H2]. rewrite filter_cons. rewrite decide_True by done. by rewrite IH.
Qed.
Lemma drop_queues sid e b' m' u o : eng_ok sid e -> e_ords e !! o_id o = Some o -> o_sym o = sid ->
  prim m' (okind o) (okey o) (filter (fun j => j <> o_id o) (queue (e_bk e) (okind o) (okey o))) (e_bk e) b' u ->
  forall k p, queue b' k p = filter (fun j => j <> o_id o) (queue (e_bk e) k p).
Proof.
  intros He Ho Hs Hp k p. rewrite (prim_queue _ _ _ _ _ _ _ Hp). destruct (decide _) as [[-> ->]|Hn]; [done|]. symmetry. apply filter_none. intros Hin.
  apply (queue_in _ _ _ _ _ _ (proj2 He)) in Hin as (o2 & Ho2 & _ & Hk & Hy). rewrite Ho in Ho2. injection Ho2 as <-. by apply Hn.
Qed.
Lemma elem_without i o rs : o ∈ without i rs <-> o_id o <> i /\ o ∈ rs.
Proof. unfold without. by rewrite elem_of_list_filter. Qed.
Record taken_out (s : state) (sid : Z) (x' : exchange) (e' : eng) : Prop := {
  to_agrees : agrees2 x' (put_eng sid e' s);
  to_crossed : crossed e' = None;
  to_stops : no_stop_queues (e_bk e');
  to_frame : frame sid (st_ords s) (e_ords e');
  to_views : exists A B, cview e' KBid A /\ cview e' KAsk B /\ plain_lists A /\ plain_lists B }.
Record plain_state (s : state) : Prop := {
  ps_inv : inv s;
  ps_live : forall j o, st_ords s !! j = Some o -> o_type o = LIMIT /\ o_tif o = GTC;
  ps_unc : forall i b, get_book i s = Some b -> crossed (eng_of b s) = None }.
Lemma plain_no_stops s : plain_state s -> no_stops_at_all s.
Proof.
  intros Hp i b Hb k p H1 H2. destruct (queue b k p) as [|j js] eqn:E; [done|]. exfalso. assert (Hin : j ∈ queue b k p) by (rewrite E; left).
  apply (queue_in _ _ _ _ _ _ (iv_book _ (ps_inv _ Hp) _ _ Hb)) in Hin as (o & Ho & _ & Hk & _). destruct (ps_live _ Hp _ _ Ho) as [Ht _].
  unfold okind in Hk. rewrite Ht in Hk. destruct (o_side o); by subst.
Qed.
Lemma plain_views s sid b k L : plain_state s -> get_book sid s = Some b -> cview (eng_of b s) k L -> plain_lists L.
Proof.
  intros Hp Hb Hv p os r Hin Hr. destruct (cview_order sid _ k L p os r (inv_eng _ _ _ (ps_inv _ Hp) Hb) Hv Hin Hr) as (Hm & _).
  destruct (ps_live _ Hp _ _ Hm) as [_ Ht]. unfold is_aon. by rewrite Ht.
Qed.
Lemma take_ref s sid b e' o x u m' : plain_state s -> get_book sid s = Some b -> st_ords s !! o_id o = Some o -> o_sym o = sid -> agrees2 x s ->
  eng_ok sid e' -> e_ords e' = delete (o_id o) (st_ords s) ->
  prim m' (okind o) (okey o) (filter (fun j => j <> o_id o) (queue b (okind o) (okey o))) b (e_bk e') u ->
  taken_out s sid (take_out o x) e'.
Proof.
  intros Hp Hb Ho Hs Ha He' Hords Hpr. pose proof (ps_inv _ Hp) as Hi. pose proof (inv_eng _ _ _ Hi Hb) as He.
  destruct (agrees_view x s sid b Hi Hb Ha) as (A & B & HA & HB & Hx).
  pose proof (drop_queues sid (eng_of b s) (e_bk e') m' u o He Ho Hs Hpr) as Hq.
  assert (Hj : forall j, j <> o_id o -> e_ords e' !! j = e_ords (eng_of b s) !! j) by (intros j Hj; rewrite Hords, lookup_delete_ne; done).
  pose proof (cview_drop _ e' KBid A (o_id o) HA (Hq KBid) Hj) as HA'. pose proof (cview_drop _ e' KAsk B (o_id o) HB (Hq KAsk) Hj) as HB'.
  assert (Hf : frame sid (st_ords s) (e_ords e')) by (rewrite Hords; by eapply frame_delete).
  constructor.
  - unfold take_out, in_book. rewrite Hs, Hx. cbn [fst snd]. rewrite <- !flat_drop. by eapply agrees_put.
  - apply (crossed_lists sid e' _ _ He' HA' HB'). intros a c. rewrite !flat_drop, !elem_without. intros [_ H1] [_ H2].
    by apply (proj1 (crossed_lists sid _ A B He HA HB) (ps_unc _ Hp _ _ Hb)).
  - intros k p H1 H2. rewrite Hq. pose proof (plain_no_stops s Hp _ _ Hb k p H1 H2) as E. cbn [e_bk eng_of]. by rewrite E.
  - done.
  - exists (drop_out (o_id o) A), (drop_out (o_id o) B). split; [done|]. split; [done|].
    assert (forall k L, cview (eng_of b s) k L -> plain_lists (drop_out (o_id o) L)) as H.
    { intros k L HL p os r Hin Hr. apply elem_drop in Hin as (_ & os0 & Hin & ->). apply elem_without in Hr as [_ Hr]. by eapply (plain_views s sid b k L). }
    split; by eapply H.
Qed.
Lemma elem_changed o r rs : r ∈ changed o rs -> r = o \/ r ∈ rs.
Proof. unfold changed. intros H. apply elem_of_list_fmap in H as (r0 & -> & H). destruct (decide _); auto. Qed.
Lemma change_ref s sid b e' o o' x : plain_state s -> get_book sid s = Some b -> st_ords s !! o_id o = Some o -> o_sym o = sid -> agrees2 x s ->
  o_id o' = o_id o -> o_sym o' = o_sym o -> o_price o' = o_price o -> o_tif o' = o_tif o ->
  eng_ok sid e' -> e_ords e' = <[o_id o := o']> (st_ords s) -> (forall k p, queue (e_bk e') k p = queue b k p) ->
  taken_out s sid (change o' x) e'.
Proof.
  intros Hp Hb Ho Hs Ha Eid Esym Epr Etif He' Hords Hq. pose proof (ps_inv _ Hp) as Hi. pose proof (inv_eng _ _ _ Hi Hb) as He.
  destruct (agrees_view x s sid b Hi Hb Ha) as (A & B & HA & HB & Hx).
  assert (Hj : forall j, j <> o_id o' -> e_ords e' !! j = e_ords (eng_of b s) !! j) by (intros j Hj; rewrite Hords, lookup_insert_ne; congruence || done).
  assert (Ho' : e_ords e' !! o_id o' = Some o') by (rewrite Hords, Eid; apply lookup_insert).
  pose proof (cview_change _ e' KBid A o' HA (Hq KBid) Ho' Hj) as HA'. pose proof (cview_change _ e' KAsk B o' HB (Hq KAsk) Ho' Hj) as HB'.
  assert (Hf : frame sid (st_ords s) (e_ords e')) by (rewrite Hords; eapply frame_update; [done|done|congruence]).
  constructor.
  - unfold change, in_book. rewrite Esym, Hs, Hx. cbn [fst snd]. rewrite <- !flat_change. by eapply agrees_put.
  - assert (Hold : forall k L r, cview (eng_of b s) k L -> r ∈ flat (change_in o' L) -> exists r0, r0 ∈ flat L /\ o_price r0 = o_price r).
    { intros k L r HL. rewrite flat_change. intros H. apply elem_of_list_fmap in H as (r0 & -> & H). exists r0. split; [done|].
      destruct (decide (o_id r0 = o_id o')) as [E|]; [|done]. apply elem_flat in H as (p & os & Hin & H).
      destruct (cview_order sid _ k L p os r0 He HL Hin H) as (Hm & _). cbn in Hm. rewrite E, Eid, Ho in Hm. by injection Hm as <-. }
    apply (crossed_lists sid e' _ _ He' HA' HB'). intros a c H1 H2.
    destruct (Hold _ _ _ HA H1) as (a0 & Ha0 & <-). destruct (Hold _ _ _ HB H2) as (c0 & Hc0 & <-).
    by apply (proj1 (crossed_lists sid _ A B He HA HB) (ps_unc _ Hp _ _ Hb)).
  - intros k p H1 H2. rewrite Hq. by apply (plain_no_stops s Hp _ _ Hb k p H1 H2).
  - done.
  - exists (change_in o' A), (change_in o' B). split; [done|]. split; [done|].
    assert (forall k L, cview (eng_of b s) k L -> plain_lists (change_in o' L)) as H.
    { intros k L HL p os r Hin Hr. apply elem_of_list_fmap in Hin as ([p0 os0] & [= -> ->] & Hin). apply elem_changed in Hr as [->|Hr].
      - unfold is_aon. rewrite Etif. by rewrite (proj2 (ps_live _ Hp _ _ Ho)). - by eapply (plain_views s sid b k L). }
    split; by eapply H.
Qed.
Lemma reduced_out s sid b e' o o' x u m' q : plain_state s -> get_book sid s = Some b -> st_ords s !! o_id o = Some o -> o_sym o = sid -> agrees2 x s ->
  o_id o' = o_id o -> o_sym o' = o_sym o -> o_price o' = o_price o -> o_tif o' = o_tif o -> o_leaves o' = o_leaves o - q -> 
  eng_ok sid e' -> e_ords e' = reduced_map (st_ords s) o' ->
  prim m' (okind o) (okey o) (if q =? o_leaves o then filter (fun j => j <> o_id o) (queue b (okind o) (okey o)) else queue b (okind o) (okey o)) b (e_bk e') u ->
  taken_out s sid (if decide (q = o_leaves o) then take_out o x else change o' x) e'.
Proof.
  intros Hp Hb Ho Hs Ha Eid Esym Epr Etif Elv He' Hords Hpr. unfold reduced_map in Hords. destruct (decide (q = o_leaves o)) as [E|E].
  - rewrite (proj2 (Z.eqb_eq _ _) E) in Hpr. rewrite (proj2 (Z.eqb_eq (o_leaves o') 0)), Eid in Hords by lia. by eapply take_ref.
  - rewrite (proj2 (Z.eqb_neq _ _) E) in Hpr. rewrite (proj2 (Z.eqb_neq (o_leaves o') 0)), Eid in Hords by lia. eapply (change_ref s sid b e' o o'); try done.
    intros k p. rewrite (prim_queue _ _ _ _ _ _ _ Hpr). by destruct (decide _) as [[-> ->]|].
Qed.

(** ** The calls *)
Lemma finish_out s sid b x e : plain_state s -> get_book sid s = Some b -> eng_ok sid e -> taken_out s sid x e ->
  exists e', finish true e = Ok (e', OK) /\ e_log e' = e_log e /\ agrees2 x (put_eng sid e' s).
Proof. intros Hp Hb He [Ha Hc Hn Hf _]. eapply finish_agrees; try done. apply Hp. Qed.
Lemma out_emit s sid b x e ev : plain_state s -> get_book sid s = Some b -> taken_out s sid x e -> taken_out s sid x (emit ev e).
Proof.
  intros Hp Hb [Ha Hc Hn Hf (A & B & H1 & H2 & H3 & H4)]. constructor; try done. exists A, B. split_and!; try done; by apply cview_emit.
Qed.
Lemma out_self s sid b x : plain_state s -> get_book sid s = Some b -> agrees2 x s -> taken_out s sid x (eng_of b s).
Proof.
  intros Hp Hb Ha. pose proof (ps_inv _ Hp) as Hi. destruct (agrees_view x s sid b Hi Hb Ha) as (A & B & HA & HB & Hx). constructor.
  - assert (E : put_eng sid (eng_of b s) s = s).
    { unfold put_eng, eng_of, vset. destruct s as [sy bk od mt lg]. cbn. f_equal. apply list_insert_id. unfold get_book, vfind, vget in Hb. cbn in Hb. destruct (_ && _); [|done]. destruct (bk !! Z.to_nat sid) as [o|] eqn:E; [|done]. by subst o. }
    by rewrite E.
  - by eapply ps_unc. - by apply (plain_no_stops s Hp _ _ Hb). - apply frame_refl.
  - exists A, B. split; [done|]. split; [done|]. split; by eapply plain_views.
Qed.
Lemma enter_after s sid b x e o : plain_state s -> get_book sid s = Some b -> eng_ok sid e -> taken_out s sid x e ->
  fly_ok sid (e_ords e) o -> 0 < o_leaves o -> o_tif o <> AON -> o_type o = LIMIT \/ (o_type o = MARKET /\ immediate o = true) ->
  exists o' e1 e3 er evs x', meet o e = Ok (o', e1) /\ rest_in o' e1 = Ok (e3, er) /\ immediate o' = immediate o /\ o_id o' = o_id o /\
    (forall j, e_ords e !! j = None -> e_ords e1 !! j = None) /\
    e_log e3 = e_log e ++ evs /\ enter o x = (er, execs evs, x') /\ agrees2 x' (put_eng sid e3 s).
Proof.
  intros Hp Hb He [Ha Hc Hn Hf (A & B & H1 & H2 & H3 & H4)] Hfl Hlv Haon Hty. pose proof (ps_inv _ Hp) as Hi.
  assert (Hb' : get_book sid (put_eng sid e s) = Some (e_bk e)) by (rewrite (get_book_put _ _ _ _ _ Hb); by rewrite decide_True).
  destruct (enter_ref (put_eng sid e s) sid e o x A B) as (o' & e1 & e3 & er & evs & x' & Q); try done.
  - by eapply put_inv. - eapply no_stops_put; try done. by apply plain_no_stops.
  - rewrite (put_put sid e e3 s b Hb) in Q. by exists o', e1, e3, er, evs, x'.
Qed.
Definition step_agrees (a : op) (s : state) (x : exchange) (r : res (state * err)) : Prop :=
  exists s' er evs x', r = Ok (s', er) /\ st_log s' = st_log s ++ evs /\ exchange_step a x = (er, execs evs, x') /\ agrees2 x' s'.
Lemma on_book_put {X} sid b (f : eng -> res (eng * X)) s e a : f (eng_of b s) = Ok (e, a) -> on_book sid b f s = Ok (put_eng sid e s, a).
Proof. intros H. unfold on_book. change (mkEng b (st_ords s) (st_log s)) with (eng_of b s). by rewrite H. Qed.
Lemma lim_execs o sid u : execs (lim_evs o sid u) = [].
Proof. unfold lim_evs, lev_evs, lev_ev. destruct (is_limit o); [|done]. by destruct u as [[] ? ?]. Qed.
(** The common head of the calls that name an order. *)
Lemma refuse_agrees a s x er : agrees2 x s -> exchange_step a x = refuse er x -> step_agrees a s x (Ok (s, er)).
Proof. intros Ha He. exists s, er, [], x. by rewrite app_nil_r. Qed.
Lemma plain_home s i o : plain_state s -> st_ords s !! i = Some o -> o_id o = i /\ o_type o = LIMIT /\ o_tif o = GTC /\ live_ok i o /\ exists b, get_book (o_sym o) s = Some b.
Proof.
  intros Hp Ho. pose proof (mo_live _ (iv_map _ (ps_inv _ Hp)) _ _ Ho) as Hl. destruct (ps_live _ Hp _ _ Ho). split; [apply Hl|]. split; [done|]. split; [done|]. split; [done|].
  pose proof (iv_home _ (ps_inv _ Hp) _ _ Ho). destruct (get_book (o_sym o) s); [eauto|done].
Qed.
Lemma found_plain x s i : plain_state s -> agrees2 x s -> found i x = st_ords s !! i.
Proof. intros Hp Ha. rewrite (found_ok x s i); [|apply Hp|by apply plain_no_stops|done]. apply get_order_inv, Hp. Qed.

Section calls.
Context (s : state) (x : exchange) (Hp : plain_state s) (Ha : agrees2 x s) (Hmt : st_match s = true).
Lemma call_out a o b e1 evs x' f : get_book (o_sym o) s = Some b -> st_ords s !! o_id o = Some o -> eng_ok (o_sym o) e1 -> taken_out s (o_sym o) x' e1 ->
  f (eng_of b s) = Ok e1 -> e_log e1 = st_log s ++ evs -> exchange_step a x = (OK, execs evs, x') ->
  step_agrees a s x (on_book (o_sym o) b (fun e => do e <- f e; finish (st_match s) e) s).
Proof.
  intros Hb Ho He Hout Hf Hlog Hx. destruct (finish_out s _ b x' e1 Hp Hb He Hout) as (e' & Hfin & Hl & Hag).
  exists (put_eng (o_sym o) e' s), OK, evs, x'. split; [|cbn; rewrite Hl; done]. apply on_book_put. rewrite Hf, Hmt. exact Hfin.
Qed.
Lemma call_reduce i q : op_ok s (ReduceOrder i q) -> step_agrees (ReduceOrder i q) s x (api_reduce i q s).
Proof.
  intros [Hi Hq]. unfold api_reduce, check_id, check_qty.
  destruct (Z.eqb_spec i 0) as [->|Hi0]; [by apply refuse_agrees|]. 
  destruct (Z.eqb_spec q 0) as [->|Hq0]; [apply refuse_agrees; [done|]; cbn; unfold with_quantity; by rewrite decide_False|].
  assert (Hstep : exchange_step (ReduceOrder i q) x = match st_ords s !! i with None => refuse ORDER_NOT_FOUND x | Some o =>
      accept (if decide (o_leaves o <= q) then take_out o x else change (set_leaves (o_leaves o - q) o) x) end).
  { cbn. unfold with_quantity. rewrite !decide_False by done. by rewrite (found_plain x s) by done. }
  unfold with_order. destruct (st_ords s !! i) as [o|] eqn:Ho; [|by apply refuse_agrees].
  destruct (plain_home s i o Hp Ho) as (Hid & Hty & _ & Hl & b & Hb). rewrite Hb. subst i.
  destruct (reduce_order_ok (o_sym o) (eng_of b s) o q (inv_eng _ _ _ (ps_inv _ Hp) Hb) Ho eq_refl ltac:(unfold u64_range in *; lia)) as (u & e1 & Heq & He1 & Hords & Hlog & _ & Hpr).
  eapply (call_out (ReduceOrder (o_id o) q) o b e1 _ _ (reduce_order o q)); try done.
  - eapply (reduced_out s (o_sym o) b e1 o (set_leaves (o_leaves o - Z.min q (o_leaves o)) o) x u _ (Z.min q (o_leaves o))); done.
  - cbn in Hstep |- *. rewrite Hstep. unfold accept. f_equal; [f_equal|].
    + cbn [execs]. unfold red_ev. destruct (_ =? 0); cbn; by rewrite lim_execs.
    + destruct (decide (o_leaves o <= q)); destruct (decide (Z.min q (o_leaves o) = o_leaves o)); try lia; try done. by rewrite Z.min_l by lia.
Qed.
Lemma call_delete i : op_ok s (DeleteOrder i) -> step_agrees (DeleteOrder i) s x (api_delete i s).
Proof.
  intros Hi. unfold api_delete, check_id. destruct (Z.eqb_spec i 0) as [->|Hi0]; [by apply refuse_agrees|]. 
  assert (Hstep : exchange_step (DeleteOrder i) x = match st_ords s !! i with None => refuse ORDER_NOT_FOUND x | Some o => accept (take_out o x) end).
  { cbn. unfold with_found. rewrite !decide_False by done. by rewrite (found_plain x s) by done. }
  unfold with_order. destruct (st_ords s !! i) as [o|] eqn:Ho; [|by apply refuse_agrees].
  destruct (plain_home s i o Hp Ho) as (Hid & Hty & _ & Hl & b & Hb). rewrite Hb. subst i.
  destruct (delete_order_ok (o_sym o) (eng_of b s) o (inv_eng _ _ _ (ps_inv _ Hp) Hb) Ho eq_refl) as (u & e1 & Heq & He1 & Hords & Hlog & _ & Hpr).
  eapply (call_out (DeleteOrder (o_id o)) o b e1 _ _ (delete_order o)); try done.
  - by eapply (take_ref s (o_sym o) b e1 o x).
  - rewrite Hstep. unfold accept. f_equal. f_equal. by rewrite execs_app, lim_execs.
Qed.
Lemma call_execute a i p q r : (a = ExecuteOrder i q /\ r = api_execute i q s) \/ (a = ExecuteOrderAt i p q /\ r = api_execute_at i p q s) -> op_ok s a -> step_agrees a s x r.
Proof.
  intros Hor Hop. 
  assert (exists F, r = check_id i s (check_qty q s (with_order i (fun o e => execute_order (st_match s) o (F o) q e) s)) /\ 0 <= q /\
    exchange_step a x = with_quantity i q x (fun o => exchange_execute (F o) q o x)) as (F & -> & Hq & Hx).
  { destruct Hor as [[-> ->]|[-> ->]]; [exists o_price|exists (fun _ => p)]; cbn in Hop; unfold u64_range in Hop; split_and!; try done; lia. }
  unfold check_id, check_qty. 
  destruct (Z.eqb_spec i 0) as [->|Hi0]; [by apply refuse_agrees|]. 
  destruct (Z.eqb_spec q 0) as [->|Hq0]; [apply refuse_agrees; [done|]; rewrite Hx; unfold with_quantity; by rewrite decide_False|].
  unfold with_quantity in Hx. rewrite !decide_False in Hx by done. rewrite (found_plain x s) in Hx by done.
  unfold with_order. destruct (st_ords s !! i) as [o|] eqn:Ho; [|by apply refuse_agrees].
  destruct (plain_home s i o Hp Ho) as (Hid & Hty & _ & Hl & b & Hb). rewrite Hb. subst i.
  destruct (execute_head_ok (o_sym o) (eng_of b s) o (F o) q (inv_eng _ _ _ (ps_inv _ Hp) Hb) Ho eq_refl ltac:(lia)) as (u & e1 & Heq & He1 & Hords & Hlog & _ & Hpr).
  replace (on_book (o_sym o) b (fun e => execute_order (st_match s) o (F o) q e) s) with (on_book (o_sym o) b (fun e => do e <- execute_head o (F o) q e; finish (st_match s) e) s)
    by (unfold on_book; by rewrite execute_order_head).
  eapply (call_out a o b e1 _ _ (execute_head o (F o) q)); try done.
  - eapply (reduced_out s (o_sym o) b e1 o (executed (Z.min q (o_leaves o)) o) x u _ (Z.min q (o_leaves o))); done.
  - rewrite Hx. unfold exchange_execute. f_equal. f_equal. cbn [execs]. change (EExecute o (F o) (Z.min q (o_leaves o)) :: lim_evs o (o_sym o) u ++ [red_ev (executed (Z.min q (o_leaves o)) o)]) with
      ([EExecute o (F o) (Z.min q (o_leaves o))] ++ lim_evs o (o_sym o) u ++ [red_ev (executed (Z.min q (o_leaves o)) o)]). rewrite !execs_app, lim_execs.
    unfold red_ev. by destruct (_ =? 0).
Qed.
Lemma call_enter a sid b e1 evs1 x1 o f : get_book sid s = Some b -> eng_ok sid e1 -> taken_out s sid x1 e1 ->
  fly_ok sid (e_ords e1) o -> 0 < o_leaves o -> o_tif o <> AON -> o_type o = LIMIT \/ (o_type o = MARKET /\ immediate o = true) ->
  e_log e1 = st_log s ++ evs1 -> execs evs1 = [] -> exchange_step a x = enter o x1 ->
  (forall o' e2, meet o e1 = Ok (o', e2) -> immediate o' = immediate o -> o_id o' = o_id o -> (forall j, e_ords e1 !! j = None -> e_ords e2 !! j = None) -> f (eng_of b s) = rest_in o' e2) ->
  step_agrees a s x (on_book sid b f s).
Proof.
  intros Hb He Hout Hfl Hlv Haon Hty Hlog Hex Hx Hf.
  destruct (enter_after s sid b x1 e1 o Hp Hb He Hout Hfl Hlv Haon Hty) as (o' & e2 & e3 & er & evs & x' & Hm & Hr & Him & Hid & Hk & Hl3 & Hent & Hag).
  exists (put_eng sid e3 s), er, (evs1 ++ evs), x'. split; [apply on_book_put; by rewrite (Hf o' e2)|]. split; [cbn; by rewrite Hl3, Hlog, <- app_assoc|].
  split; [|done]. by rewrite Hx, Hent, execs_app, Hex.
Qed.
Lemma call_add o : op_ok s (AddOrder o) -> covered (AddOrder o) -> step_agrees (AddOrder o) s x (api_add o s).
Proof.
  intros Hop [_ Hcov]. destruct (Hcov o eq_refl) as [Hty Haon]. 
  assert (Hr : validate o <> OK -> api_add o s = Ok (s, validate o)) by (unfold api_add; by destruct (validate o)).
  assert (Hs : exchange_step (AddOrder o) x = if decide (validate o = OK) then enter o x else refuse (validate o) x) by done.
  destruct (decide (validate o = OK)) as [Hv|Hv]; [|rewrite (Hr Hv); by apply refuse_agrees]. unfold api_add. rewrite Hv. 
  destruct (fly_new s o (ps_inv _ Hp) Hop Hv) as (Hfl & Hlv & Hidp & Hmi).
  destruct (get_book (o_sym o) s) as [b|] eqn:Hb.
  2: { apply refuse_agrees; [done|]. rewrite Hs. unfold enter. by rewrite (proj2 Ha), Hb. }
  eapply (call_enter (AddOrder o) (o_sym o) b (emit (EAddOrder o) (eng_of b s)) [EAddOrder o] x o); try done.
  - apply emit_ok. apply inv_eng; [apply inv_loose; apply Hp|exact Hb].
  - eapply out_emit; [done..|]. by apply out_self.
  - destruct Hty; auto.
  - intros o' e2 Hm Him Hid Hk. rewrite Hmt. unfold add_order, meet, rest_in in *. destruct Hty as [Hty|Hty]; rewrite Hty in *.
    + unfold add_limit, add_limit_tail, if_match. rewrite Hm. done.
    + unfold add_market, if_match. rewrite Hm. cbn [rbind]. rewrite Him, Hmi, andb_false_r by done. done.
Qed.
Lemma call_modify (mit : bool) i p q : let a := if mit then MitigateOrder i p q else ModifyOrder i p q in op_ok s a -> step_agrees a s x (api_modify mit i p q s).
Proof.
  intros a Hop. assert (Hr : u64_range i /\ u64_range p /\ u64_range q /\ total (delete i (st_ords s)) + q < TWO64) by (unfold a in Hop; by destruct mit). clear Hop.
  destruct Hr as (Ri & Rp & Rq & Rt).
  assert (Hx : exchange_step a x = with_quantity i q x (fun o => if 0 <? o_leaves (modified mit p q o) then enter (modified mit p q o) (take_out o x) else accept (take_out o x)) \/ q = 0).
  { unfold a. destruct (decide (q = 0)); [by right|left]. destruct mit; cbn; unfold with_quantity; destruct (decide _); try done; destruct (decide (q = 0)); try done; destruct (found i x); try done; unfold modified; cbn.
    - destruct (Z.ltb_spec (o_exec o) q).
      + rewrite decide_False by lia. rewrite (proj2 (Z.ltb_lt 0 _)) by lia. done. + by rewrite decide_True by lia.
    - rewrite (proj2 (Z.ltb_lt 0 _)) by (unfold u64_range in *; lia). done. }
  unfold api_modify, check_id, check_qty. 
  destruct (Z.eqb_spec i 0) as [->|Hi0]; [apply refuse_agrees; [done|]; unfold a; by destruct mit|]. 
  destruct (Z.eqb_spec q 0) as [->|Hq0]; [apply refuse_agrees; [done|]; unfold a; destruct mit; cbn; unfold with_quantity; by rewrite decide_False|].
  destruct Hx as [Hx|]; [|done]. unfold with_quantity in Hx. rewrite !decide_False in Hx by done. rewrite (found_plain x s) in Hx by done.
  unfold with_order. destruct (st_ords s !! i) as [o|] eqn:Ho; [|by apply refuse_agrees].
  destruct (plain_home s i o Hp Ho) as (Hid & Hty & Htif & Hl & b & Hb). rewrite Hb. subst i.
  pose proof (inv_eng _ _ _ (ps_inv _ Hp) Hb) as He.
  destruct (eng_del_ok (o_sym o) (eng_of b s) o He Ho eq_refl) as (u & e1 & Heq & Hords & Hok & Hlog & _ & Hpr).
  set (e2 := drop_id (o_id o) e1). set (o' := modified mit p q o) in *.
  assert (Hords2 : e_ords e2 = delete (o_id o) (st_ords s)) by (cbn; by rewrite Hords).
  assert (He2 : eng_ok (o_sym o) e2). { split; rewrite Hords2; [apply map_ok_delete, He|done]. }
  assert (Hout : taken_out s (o_sym o) (take_out o x) e2) by (by eapply (take_ref s (o_sym o) b e2 o x)).
  assert (Hlv : 0 <= o_leaves o' <= q).
  { unfold o', modified. destruct mit; cbn; [|unfold u64_range in *; lia]. destruct (Z.ltb_spec (o_exec o) q); [|unfold u64_range in *; lia]. destruct (lo_exec _ _ Hl). lia. }
  assert (Hf : fly_ok (o_sym o) (e_ords e2) o').
  { rewrite Hords2. destruct Hl. unfold u64_range in Rq. constructor; unfold o', modified; destruct mit; cbn; try done; try lia; unfold o', modified in Hlv; cbn in Hlv; lia. }
  assert (Hid' : o_id o' = o_id o) by (unfold o', modified; by destruct mit).
  assert (Hty' : o_type o' = LIMIT) by (unfold o', modified; by destruct mit).
  assert (Htif' : o_tif o' = GTC) by (unfold o', modified; by destruct mit).
  destruct (Z.ltb_spec 0 (o_leaves o')) as [Hpos|Hz].
  - eapply (call_enter a (o_sym o) b (emit (EUpdateOrder o') e2) (lim_evs o (o_sym o) u ++ [EUpdateOrder o']) (take_out o x) o'); try done.
    + by eapply out_emit. + by rewrite Htif'. + by left. + cbn. rewrite Hlog. by rewrite <- app_assoc. + by rewrite execs_app, lim_execs.
    + intros o2 e3 Hm Him Hid2 Hk. unfold modify_order. rewrite Heq. cbn [rbind]. fold e2 o'. rewrite (proj2 (Z.ltb_lt _ _) Hpos), Hmt. unfold if_match.
      unfold meet in Hm. rewrite Hty' in Hm. rewrite Hm. cbn [rbind]. unfold rest_in.
      assert (immediate o2 = false) as -> by (rewrite Him; unfold immediate, is_ioc, is_fok; by rewrite Htif').
      destruct (0 <? o_leaves o2); [|done]. cbn [negb andb]. unfold insert_rest. rewrite (Hk (o_id o2)); [done|]. cbn [e_ords emit]. rewrite Hords2, Hid2, Hid'. apply lookup_delete.
  - destruct (finish_out s _ b (take_out o x) (emit (EDeleteOrder o') e2) Hp Hb) as (e' & Hfin & Hl' & Hag); [by apply emit_ok|by eapply out_emit|].
    exists (put_eng (o_sym o) e' s), OK, (lim_evs o (o_sym o) u ++ [EDeleteOrder o']), (take_out o x). split.
    { apply on_book_put. unfold modify_order. rewrite Heq. cbn [rbind]. fold e2 o'. rewrite (proj2 (Z.ltb_ge _ _) Hz), Hmt. exact Hfin. }
    split; [cbn [st_log put_eng]; rewrite Hl'; cbn; by rewrite Hlog, <- app_assoc|]. split; [|done]. rewrite Hx. unfold accept. f_equal. f_equal. by rewrite execs_app, lim_execs.
Qed.
Lemma call_replace i ni p q : op_ok s (ReplaceOrder i ni p q) -> step_agrees (ReplaceOrder i ni p q) s x (api_replace i ni p q s).
Proof.
  intros (Ri & Rni & Rp & Rq & Rt). unfold api_replace, check_id, check_qty. 
  destruct (Z.eqb_spec i 0) as [->|Hi0]; [apply refuse_agrees; [done|]; cbn; rewrite decide_True by auto; done|]. 
  destruct (Z.eqb_spec ni 0) as [->|Hni0]; [apply refuse_agrees; [done|]; cbn; rewrite decide_True by auto; done|]. 
  assert (Hd : ~ (i = 0 \/ ni = 0)) by tauto.
  destruct (Z.eqb_spec q 0) as [->|Hq0]; [apply refuse_agrees; [done|]; cbn; rewrite decide_False by done; unfold with_quantity; by rewrite decide_False|].
  assert (Hx : exchange_step (ReplaceOrder i ni p q) x = match st_ords s !! i with None => refuse ORDER_NOT_FOUND x | Some o => enter (replacement ni p q o) (take_out o x) end).
  { cbn. rewrite decide_False by done. unfold with_quantity. rewrite !decide_False by done. by rewrite (found_plain x s) by done. }
  unfold with_order. destruct (st_ords s !! i) as [o|] eqn:Ho; [|by apply refuse_agrees].
  destruct (plain_home s i o Hp Ho) as (Hid & Hty & Htif & Hl & b & Hb). rewrite Hb. subst i.
  assert (is_limit o = true) as -> by (unfold is_limit; by rewrite Hty). cbn [negb].
  pose proof (inv_eng _ _ _ (ps_inv _ Hp) Hb) as He.
  destruct (delete_order_ok (o_sym o) (eng_of b s) o He Ho eq_refl) as (u & e1 & Heq & He1 & Hords & Hlog & _ & Hpr).
  assert (Hout : taken_out s (o_sym o) (take_out o x) e1) by (by eapply (take_ref s (o_sym o) b e1 o x)).
  assert (Hf : fly_ok (o_sym o) (e_ords e1) (replaced ni p q o)).
  { rewrite Hords. cbn [eng_of e_ords]. unfold u64_range in *. destruct Hl. constructor; unfold u64_range in *; try done; cbn; try lia. }
  eapply (call_enter _ (o_sym o) b (emit (EAddOrder (replaced ni p q o)) e1) ((lim_evs o (o_sym o) u ++ [EDeleteOrder o]) ++ [EAddOrder (replaced ni p q o)]) (take_out o x) (replaced ni p q o)); try done.
  - by eapply out_emit. - cbn. unfold u64_range in *. lia. - cbn. by rewrite Htif. - by left.
  - cbn. rewrite Hlog. by rewrite <- app_assoc. - by rewrite !execs_app, lim_execs.
  - intros o2 e3 Hm Him Hid2 Hk. unfold replace_order. rewrite Heq. cbn [rbind]. rewrite Hmt. unfold if_match.
    unfold meet in Hm. cbn [o_type replaced set_leaves set_exec set_qty set_price set_id] in Hm. rewrite Hty in Hm. rewrite Hm. cbn [rbind]. unfold rest_in.
    assert (immediate o2 = false) as -> by (rewrite Him; unfold immediate, is_ioc, is_fok; cbn; by rewrite Htif).
    by destruct (0 <? o_leaves o2).
Qed.
End calls.
