(** * RefHall.v -- releasing stop orders, and the calls, against the reference exchange of Spec13.v. *)
From Coq Require Import ZifyBool.
From stdpp Require Import fin_maps gmap relations sorting.
From Verif Require Import Types Book Engine Manager Factory Validate LevelFacts BookInv EngInv EngPrim Steps StepsOk Refine1 Refine2 Refine3 Refine4 Api StateInv Trades PropsTrades PropsOrders PropsFill RefMatch PropsRef RefExchange RefStops Spec Spec2 Spec3 Spec5 Spec6 Spec7 Spec8 Spec13.

(** ** Facts about the reference *)
Lemma filter_nil {A} (P : A -> Prop) `{forall x, Decision (P x)} (l : list A) : (forall x, x ∈ l -> ~ P x) -> filter P l = [].
Proof. induction l as [|x l IH]; intros Hn; [done|]. rewrite filter_cons, decide_False by (apply Hn; left). apply IH. intros y Hy. apply Hn. by right. Qed.
Lemma filter_whole {A} (P : A -> Prop) `{forall x, Decision (P x)} (l : list A) : (forall x, x ∈ l -> P x) -> filter P l = l.
Proof. induction l as [|x l IH]; intros Hn; [done|]. rewrite filter_cons, decide_True by (apply Hn; left). f_equal. apply IH. intros y Hy. apply Hn. by right. Qed.
Lemma filled_kind : forall rs o, o_type (filled o rs) = o_type o /\ o_tif (filled o rs) = o_tif o /\ o_id (filled o rs) = o_id o /\ o_sym (filled o rs) = o_sym o /\ o_side (filled o rs) = o_side o.
Proof. induction rs as [|r rs IH]; intros o; cbn [filled]; [done|]. destruct (decide _); [|done]. apply (IH (after_fill _ o)). Qed.
Lemma dealt_kind o rs xs rs' z : dealt o rs = (xs, rs', z) -> o_type z = o_type o /\ o_tif z = o_tif o /\ o_id z = o_id o /\ o_sym z = o_sym o /\ o_side z = o_side o.
Proof.
  unfold dealt. destruct (arriving_kind o rs) as (p & E & _). rewrite E. cbv zeta. destruct (decide (o_tif o = FOK)).
  - destruct (decide _); intros [= _ _ <-]; done.
  - intros [= _ _ <-]. destruct (filled_kind rs (set_price p o)) as (? & ? & ? & ? & ?). done.
Qed.
Lemma trade_kind o y xs y' z : trade o y = (xs, y', z) -> o_type z = o_type o /\ o_tif z = o_tif o /\ o_id z = o_id o /\ o_sym z = o_sym o /\ o_side z = o_side o.
Proof. unfold trade. destruct (dealt o _) as [[xs0 rs0] z0] eqn:E. intros [= _ _ <-]. by eapply dealt_kind. Qed.
Lemma trade_stops o y xs y' z sd : trade o y = (xs, y', z) -> stops_of sd y' = stops_of sd y.
Proof.
  unfold trade. destruct (dealt o _) as [[xs0 rs0] z0] eqn:E. intros [= _ <- _]. by rewrite (proj2 (mark_lists _ _ _ _)), (proj1 (proj2 (set_rest_lists _ _ _ _))).
Qed.
Lemma stops_every f y sd : stops_of sd (every f y) = f (stops_of sd y).
Proof. by destruct sd. Qed.
Lemma rest_every f y sd : rest_of sd (every f y) = f (rest_of sd y).
Proof. by destruct sd. Qed.
Lemma release_stops o y xs y' sd : stop_type2 o -> release o y = (xs, y') -> stops_of sd y' = without (o_id o) (stops_of sd y).
Proof.
  unfold release. intros Ht. destruct (trade (released o) _) as [[xs1 y1] z] eqn:E. intros [= _ <-].
  pose proof (trade_stops _ _ _ _ _ sd E) as Hs. rewrite stops_every in Hs. destruct (trade_kind _ _ _ _ _ E) as (K1 & K2 & _).
  destruct (decide _) as [[_ Hg]|]; [|done]. rewrite Hg in K2. unfold joins. rewrite K1. unfold released in *. destruct Ht as [Ht|Ht]; rewrite Ht in *.
  - exfalso. cbn in K2. by destruct (decide (o_tif o = FOK)).
  - cbn. by rewrite (proj1 (proj2 (set_rest_lists _ _ _ _))).
Qed.
Definition count (y : pit) : nat := length (y_buys y) + length (y_sells y).
Lemma without_length i rs : (length (without i rs) <= length rs)%nat.
Proof. apply filter_length. Qed.
Lemma without_less i rs r : r ∈ rs -> o_id r = i -> (length (without i rs) < length rs)%nat.
Proof. intros Hr Hi. apply (filter_length_lt _ _ r); [done|]. by intros ?. Qed.
Lemma release_count o y xs y' : stop_type2 o -> release o y = (xs, y') -> (count y' <= count y)%nat.
Proof.
  intros Ht H. unfold count. change (y_buys y') with (stops_of BUY y'). change (y_sells y') with (stops_of SELL y').
  rewrite (release_stops o y xs y' BUY Ht H), (release_stops o y xs y' SELL Ht H). cbn [stops_of]. pose proof (without_length (o_id o) (y_buys y)) as H1. pose proof (without_length (o_id o) (y_sells y)) as H2. lia.
Qed.
Lemma release_less o y xs y' sd : stop_type2 o -> release o y = (xs, y') -> o ∈ stops_of sd y -> (count y' < count y)%nat.
Proof.
  intros Ht H Hin. unfold count. change (y_buys y') with (stops_of BUY y'). change (y_sells y') with (stops_of SELL y').
  rewrite (release_stops o y xs y' BUY Ht H), (release_stops o y xs y' SELL Ht H). pose proof (without_length (o_id o) (y_buys y)). pose proof (without_length (o_id o) (y_sells y)).
  destruct sd; cbn [stops_of] in *; pose proof (without_less (o_id o) _ o Hin eq_refl); lia.
Qed.
Lemma rounds_plus n m : forall y xs y1 xs' y2, rounds n y = (xs, y1) -> rounds m y1 = (xs', y2) -> rounds (n + m) y = (xs ++ xs', y2).
Proof.
  induction n as [|n IH]; intros y xs y1 xs' y2; cbn [rounds plus]; [by intros [= <- <-]|]. destruct (round y) as [a ya]. destruct (rounds n ya) as [b yb] eqn:E.
  intros [= <- <-] H. rewrite (IH _ _ _ _ _ E H). by rewrite <- app_assoc.
Qed.
Lemma rounds_fix n : forall y, round y = ([], y) -> rounds n y = ([], y).
Proof. induction n as [|n IH]; intros y H; cbn [rounds]; [done|]. by rewrite H, (IH y H). Qed.

(** ** One stop order *)
Lemma del_ok sid e o : good sid e -> e_ords e !! o_id o = Some o -> o_sym o = sid ->
  exists e1, eng_sub_delete o e = Ok e1 /\ runs sid e [] (drop_id (o_id o) e1) /\ pit_of (drop_id (o_id o) e1) = leave o (pit_of e) /\
    e_ords (drop_id (o_id o) e1) = delete (o_id o) (e_ords e).
Proof.
  intros Hg Ho Hs. pose proof (g_ok _ _ Hg) as He. destruct (eng_del_ok sid e o He Ho Hs) as (u & e1 & Heq & Hords & Hok & Hlog & Hbp & Hpr).
  exists e1. split; [done|]. assert (Hd : e_ords (drop_id (o_id o) e1) = delete (o_id o) (e_ords e)) by (cbn; by rewrite Hords).
  assert (He2 : eng_ok sid (drop_id (o_id o) e1)). { split; rewrite Hd; [apply map_ok_delete, He|done]. }
  destruct (leave_ok sid e (drop_id (o_id o) e1) o u _ _ Hg Ho Hs He2 Hd Hpr Hlog) as [A B]. rewrite lim_execs in A. split; [done|]. split; [|done].
  apply every_pit; [done|]. by apply quotes_prices.
Qed.
Lemma released_converted o : stop_type2 o -> released o = converted o.
Proof.
  intros [Ht|Ht]; unfold released, converted; rewrite Ht; [|done]. unfold to_market, is_fok. cbn. by destruct (o_tif o).
Qed.
Lemma live_out sid e o m : good sid e -> e_ords e !! o_id o = Some o -> o_sym o = sid -> m = delete (o_id o) (e_ords e) -> fly_ok sid m o /\ 0 < o_leaves o /\ o_tif o <> AON.
Proof.
  intros Hg Ho Hs ->. pose proof (g_ok _ _ Hg) as He. pose proof (mo_live _ (proj1 He) _ _ Ho) as Hl. split; [|split; [apply Hl|]].
  - apply live_fly; [done|done|]. pose proof (mo_total _ (proj1 He)) as Hto. rewrite (total_delete _ _ _ Ho) in Hto. lia.
  - eapply g_aon; [done|]. by eapply (elem_orders sid).
Qed.
Lemma release_ok sid e o e' : good sid e -> e_ords e !! o_id o = Some o -> o_sym o = sid -> stop_type2 o ->
  (match o_type o with STOP => activate_stop o e | _ => activate_stop_limit o e end) = Ok e' ->
  exists xs, release o (pit_of e) = (xs, pit_of e') /\ runs sid e xs e'.
Proof.
  intros Hg Ho Hs Ht Hact. destruct (del_ok sid e o Hg Ho Hs) as (e1 & Hdel & Hr1 & Hp1 & Hd1). set (e2 := drop_id (o_id o) e1) in *.
  destruct (live_out sid e o _ Hg Ho Hs Hd1) as (Hfl & Hlv & Hna). set (o1 := released o).
  assert (Hfl1 : fly_ok sid (e_ords e2) o1) by (unfold o1; rewrite released_converted by done; by apply converted_fly).
  assert (Hlv1 : 0 < o_leaves o1) by (unfold o1, released; destruct Ht as [-> | ->]; done).
  assert (Hna1 : o_tif o1 <> AON) by (unfold o1, released; destruct Ht as [-> | ->]; [by destruct (decide _)|done]).
  assert (Hg2 : good sid (emit (EUpdateOrder o1) e2)) by apply good_emit, Hr1.
  unfold release. fold o1. unfold leave in Hp1. rewrite <- Hp1. change (pit_of e2) with (pit_of (emit (EUpdateOrder o1) e2)).
  destruct (trade o1 (pit_of (emit (EUpdateOrder o1) e2))) as [[xs y] z] eqn:Etr.
  destruct (meet_ok sid (emit (EUpdateOrder o1) e2) o1 xs y z Hg2 Hfl1 Hlv1 Hna1 Etr) as (e3 & Hm & Hr3 & <- & Hflz & Hnone & Hk & Hpz & Hfar).
  exists xs. destruct (trade_kind _ _ _ _ _ Etr) as (K1 & K2 & K3 & K4 & K5).
  assert (Hrun : runs sid e xs e3). { apply (runs_trans sid e e2 e3 [] xs); [done|]. by eapply (emit_runs sid (EUpdateOrder o1)). }
  assert (Hnil : e_ords e3 !! o_id z = None). { apply Hnone. cbn [e_ords emit]. rewrite Hd1, K3. assert (o_id o1 = o_id o) as -> by (unfold o1, released; by destruct Ht as [-> | ->]). apply lookup_delete. }
  unfold meet in Hm. destruct Ht as [Ht|Ht]; rewrite Ht in Hact.
  - assert (Et : o_type o1 = MARKET) by (unfold o1, released; by rewrite Ht). rewrite Et in Hm. unfold activate_stop in Hact. rewrite Hdel in Hact. cbn [rbind] in Hact.
    assert (E1 : to_market o = o1) by (unfold o1; rewrite released_converted by (by left); unfold converted; by rewrite Ht). rewrite E1 in Hact. fold e2 in Hact. rewrite Hm in Hact. cbn [rbind] in Hact. injection Hact as <-.
    rewrite decide_False; [|intros [_ Hgt]; rewrite K2 in Hgt; unfold o1, released in Hgt; rewrite Ht in Hgt; cbn in Hgt; by destruct (decide _)]. split; [done|]. by apply runs_emit.
  - assert (Et : o_type o1 = LIMIT) by (unfold o1, released; by rewrite Ht). rewrite Et in Hm. unfold activate_stop_limit in Hact. rewrite Hdel in Hact. cbn [rbind] in Hact.
    assert (E1 : to_limit o = o1) by (unfold o1, released; by rewrite Ht). rewrite E1 in Hact. fold e2 in Hact. rewrite Hm in Hact. cbn [rbind] in Hact.
    assert (Hi : immediate z = negb (bool_decide (o_tif z = GTC))). { rewrite <- K2 in Hna1. unfold immediate, is_ioc, is_fok. destruct (o_tif z); done. }
    rewrite Hi in Hact. destruct (decide (0 < o_leaves z /\ o_tif z = GTC)) as [[D1 D2]|D].
    + rewrite (bool_decide_eq_true_2 _ D2), (proj2 (Z.ltb_lt _ _) D1) in Hact. cbn in Hact. injection Hact as <-.
      destruct (joins_ok sid e3 z (r_good _ _ _ _ Hrun) Hnil Hflz D1) as [J1 J2].
      * by rewrite D2. * left. rewrite K1. split; [done|]. split; [rewrite Hi; by rewrite bool_decide_eq_true_2|]. rewrite K5. apply Hfar; [by rewrite Et| |done]. by rewrite <- K2, D2.
      * split; [by rewrite J2|]. rewrite <- (app_nil_r xs). by eapply runs_trans.
    + assert (((0 <? o_leaves z) && negb (negb (bool_decide (o_tif z = GTC)))) = false) as E.
      { rewrite negb_involutive. destruct (bool_decide_reflect (o_tif z = GTC)); destruct (Z.ltb_spec 0 (o_leaves z)); try done. tauto. }
      rewrite E in Hact. injection Hact as <-. split; [done|]. by apply runs_emit.
Qed.

(** ** The orders of one stop price *)
Lemma stops_elem sid e sd o : good sid e -> o ∈ stops_of sd (pit_of e) -> e_ords e !! o_id o = Some o /\ o_sym o = sid /\ stop_type2 o /\ o_side o = sd.
Proof.
  intros Hg Ho. rewrite stops_orders in Ho. destruct (orders_elem sid e _ o (g_ok _ _ Hg) Ho) as (A & B & C & _). destruct (stop_side_type o sd C) as (D & E & _). done.
Qed.
Lemma ids_ok sid sd : forall os r0 e r e', good sid e -> (forall o, o ∈ os -> o ∈ stops_of sd (pit_of e)) -> NoDup (map o_id os) -> activate_ids (map o_id os) r0 e = Ok (r, e') ->
  exists xs, release_all os (pit_of e) = (xs, pit_of e') /\ runs sid e xs e' /\ r = (match os with [] => r0 | _ => true end) /\
    (count (pit_of e') <= count (pit_of e))%nat /\ (os <> [] -> (count (pit_of e') < count (pit_of e))%nat).
Proof.
  induction os as [|o os IH]; intros r0 e r e' Hg Hin Hnd Hact; cbn [map activate_ids release_all] in *.
  - injection Hact as <- <-. exists []. split; [done|]. split; [by apply runs_refl|]. done.
  - destruct (stops_elem sid e sd o Hg (Hin o ltac:(left))) as (Ho & Hs & Ht & _). rewrite Ho in Hact. cbn [of_opt rbind] in Hact.
    apply NoDup_cons in Hnd as [Hno Hnd].
    assert (exists e1, (match o_type o with STOP => activate_stop o e | _ => activate_stop_limit o e end) = Ok e1 /\ activate_ids (map o_id os) true e1 = Ok (r, e')) as (e1 & H1 & H2).
    { destruct Ht as [Ht|Ht]; rewrite Ht in *; [destruct (activate_stop o e) as [e1| |]|destruct (activate_stop_limit o e) as [e1| |]]; try done; by exists e1. }
    destruct (release_ok sid e o e1 Hg Ho Hs Ht H1) as (xs & Hrel & Hrun). rewrite Hrel.
    assert (Hin1 : forall x, x ∈ os -> x ∈ stops_of sd (pit_of e1)).
    { intros x Hx. rewrite (release_stops o _ _ _ sd Ht Hrel). apply elem_without. split; [|apply Hin; by right]. intros E. apply Hno. rewrite <- E. by apply elem_of_list_fmap_1. }
    destruct (IH true e1 r e' (r_good _ _ _ _ Hrun) Hin1 Hnd H2) as (xs' & Hall & Hrun' & Hr & Hc & _). rewrite Hall. exists (xs ++ xs').
    pose proof (release_less o _ _ _ sd Ht Hrel (Hin o ltac:(left))) as Hl.
    split; [done|]. split; [by eapply runs_trans|]. split; [by destruct os|]. split; [lia|]. intros _. lia.
Qed.
Definition market_of (sd : oside) (e : eng) : Z := match sd with BUY => market_ask (e_bk e) | SELL => market_bid (e_bk e) end.
Lemma best_first sid e k none : eng_ok sid e -> k = KBid \/ k = KAsk -> first_price none (orders_of k e) = match best k e with Some p => p | None => none end.
Proof.
  intros He Hk. destruct (view_of sid e k He) as (L & HL & <-). destruct L as [|[p os] L]; [by rewrite (cview_nil sid e k He HL)|].
  destruct (cv_q _ _ _ HL p os ltac:(left)) as (Hne & _ & _). destruct os as [|r os]; [done|]. destruct (cview_front sid e k p r os L He HL) as (-> & _ & _). cbn.
  destruct (cview_order sid e k _ p (r :: os) r He HL ltac:(left) ltac:(left)) as (_ & _ & C & D & E).
  rewrite <- D. unfold okey, okind in *. pose proof (lo_type _ _ E). destruct (o_type r), (o_side r), Hk as [-> | ->]; done.
Qed.
Lemma quote_market sid e sd : eng_ok sid e -> quote sd (pit_of e) = market_of sd e.
Proof. intros He. destruct sd; cbn; rewrite (best_first sid) by auto; done. Qed.
Lemma wave_ok sid sd e r e' : good sid e -> activate_level (stop_side sd) (market_of sd e) e = Ok (r, e') ->
  exists xs, wave sd (pit_of e) = (xs, pit_of e') /\ runs sid e xs e' /\ (count (pit_of e') <= count (pit_of e))%nat /\
    (if r then (count (pit_of e') < count (pit_of e))%nat else xs = [] /\ e' = e).
Proof.
  intros Hg Hact. pose proof (g_ok _ _ Hg) as He. unfold wave. destruct (view_of sid e (stop_side sd) He) as (L & HL & HF). rewrite stops_orders, <- HF.
  unfold activate_level in Hact. destruct L as [|[p os] L].
  - rewrite (cview_nil sid e _ He HL) in Hact. injection Hact as <- <-. exists []. split; [done|]. split; [by apply runs_refl|]. done.
  - destruct (cv_q _ _ _ HL p os ltac:(left)) as (Hne & _ & _). destruct os as [|o os]; [done|]. destruct (cview_front sid e _ p o os L He HL) as (Hb & _ & _). rewrite Hb in Hact.
    destruct (cview_find sid e _ p (o :: os) L He HL) as (l & Hl & Hids). rewrite Hl in Hact. cbn [of_opt rbind] in Hact. rewrite Hids in Hact.
    assert (Hkey : forall q rs x, (q, rs) ∈ (p, o :: os) :: L -> x ∈ rs -> o_stop x = q /\ o_side x = sd).
    { intros q rs x H1 H2. destruct (cview_order sid e _ _ q rs x He HL H1 H2) as (_ & _ & A & B & _). destruct (stop_side_type x sd A) as (_ & C & D). split; congruence. }
    destruct (Hkey p (o :: os) o ltac:(left) ltac:(left)) as [Hp Hsd]. change (flat ((p, o :: os) :: L)) with (o :: os ++ flat L). cbn iota.
    assert (Htr : triggers o (pit_of e) <-> arb (stop_side sd) p (market_of sd e) = true).
    { unfold triggers. rewrite Hsd, !(quote_market sid) by done. unfold arb. destruct sd; cbn; lia. }
    destruct (arb (stop_side sd) p (market_of sd e)) eqn:Ea; cbn [negb] in Hact.
    + rewrite decide_True by (by apply Htr).
      assert (Efil : filter (fun r => o_stop r = o_stop o) (o :: os ++ flat L) = o :: os).
      { change (o :: os ++ flat L) with ((o :: os) ++ flat L). rewrite filter_app. assert (filter (fun r => o_stop r = o_stop o) (flat L) = []) as ->.
        { apply filter_nil. intros x Hx E. apply elem_flat in Hx as (q & rs & Hin & Hx).
          pose proof (cv_sorted _ _ _ HL) as Hst. apply StronglySorted_inv in Hst as [_ Hst]. rewrite Forall_forall in Hst. specialize (Hst _ Hin). cbn in Hst.
          destruct (Hkey q rs x ltac:(by right) Hx) as [E2 _]. rewrite <- E2, E, Hp, better_irrefl in Hst. done. }
        rewrite app_nil_r. apply filter_whole. intros x Hx. rewrite Hp. by apply (Hkey p (o :: os)); [left|]. }
      rewrite Efil. destruct (ids_ok sid sd (o :: os) false e r e' Hg) as (xs & Hall & Hrun & -> & Hc & Hc').
      * intros x Hx. rewrite stops_orders, <- HF. apply elem_flat. exists p, (o :: os). split; [left|done].
      * pose proof (orders_ids sid e (stop_side sd) He) as Hnd. rewrite <- HF in Hnd. change (flat ((p, o :: os) :: L)) with ((o :: os) ++ flat L) in Hnd. rewrite map_app in Hnd. by apply NoDup_app in Hnd as [? _].
      * done.
      * exists xs. split; [done|]. split; [done|]. split; [done|]. by apply Hc'.
    + injection Hact as <- <-. rewrite decide_False by (intros H; apply Htr in H; done). exists []. split; [done|]. split; [by apply runs_refl|]. done.
Qed.

(** ** Rounds *)
Lemma pit_same e e' : e_ords e' = e_ords e -> same_sides (e_bk e) (e_bk e') -> quotes e' = quotes e -> pit_of e' = pit_of e.
Proof. intros H1 H2 [= H3 H4]. unfold pit_of. rewrite !(orders_same e e' H1 (proj2 H2)). by rewrite H3, H4. Qed.
Lemma trail_best sid e k : good sid e -> k = KTrailBuy \/ k = KTrailSell -> best k e = None.
Proof.
  intros Hg Hk. pose proof (g_ok _ _ Hg) as He. destruct (view_of sid e k He) as (L & HL & HF). apply (cview_nil sid e k He). destruct L as [|[p os] L]; [done|].
  destruct (cv_q _ _ _ HL p os ltac:(left)) as (Hne & _ & _). destruct os as [|r os]; [done|]. destruct (g_trail _ _ Hg) as [H1 H2]. destruct Hk as [-> | ->]; rewrite <- HF in *; done.
Qed.
Lemma recalc_same sid s e e' : good sid e -> recalc s e = Ok e' -> runs sid e [] e' /\ pit_of e' = pit_of e.
Proof.
  intros Hg H. assert (Hw : forall fuel k e0 e1, recalc_walk fuel k None None e0 = Ok e1 -> e1 = e0) by (intros [|fuel] k e0 e1; cbn; [done|by intros [= <-]]).
  assert (Hmain : e_ords e' = e_ords e /\ same_sides (e_bk e) (e_bk e') /\ quotes e' = quotes e /\ e_log e' = e_log e).
  { unfold recalc in H. destruct s.
    - destruct (best KAsk e); [|by injection H as <-]. destruct (_ <=? _); [by injection H as <-|].
      assert (Hb : best KTrailBuy (set_bk (set_trail_ask (trailing_market_ask (e_bk e)) (e_bk e)) e) = best KTrailBuy e) by done.
      rewrite Hb, (trail_best sid e KTrailBuy Hg) in H by auto. apply Hw in H. by subst.
    - destruct (best KBid e); [|by injection H as <-]. destruct (_ <=? _); [by injection H as <-|].
      assert (Hb : best KTrailSell (set_bk (set_trail_bid (trailing_market_bid (e_bk e)) (e_bk e)) e) = best KTrailSell e) by done.
      rewrite Hb, (trail_best sid e KTrailSell Hg) in H by auto. apply Hw in H. by subst. }
  destruct Hmain as (A & B & C & D). split; [|by apply pit_same]. constructor; [by eapply good_same|rewrite A; apply frame_refl|]. exists []. by rewrite app_nil_r.
Qed.
Lemma trail_level sid e k m : good sid e -> k = KTrailBuy \/ k = KTrailSell -> activate_level k m e = Ok (false, e).
Proof. intros Hg Hk. unfold activate_level. by rewrite (trail_best sid e k Hg Hk). Qed.
Lemma pair_ok sid sd kt m' e r e' : good sid e -> kt = KTrailBuy \/ kt = KTrailSell ->
  (do '(r1, e) <- activate_level (stop_side sd) (market_of sd e) e; do '(r1, e) <- (if (r1 : bool) then Ok (true, e) else activate_level kt (m' e) e); do e <- recalc sd e; Ok (r1, e)) = Ok (r, e') ->
  exists xs, wave sd (pit_of e) = (xs, pit_of e') /\ runs sid e xs e' /\ (count (pit_of e') <= count (pit_of e))%nat /\
    (if r : bool then (count (pit_of e') < count (pit_of e))%nat else xs = [] /\ pit_of e' = pit_of e).
Proof.
  intros Hg Hk H. destruct (activate_level (stop_side sd) (market_of sd e) e) as [[r1 e1]| |] eqn:E1; try done. cbn [rbind] in H.
  destruct (wave_ok sid sd e r1 e1 Hg E1) as (xs & Hw & Hrun & Hc & Hr1). pose proof (r_good _ _ _ _ Hrun) as Hg1.
  assert (E2 : (if (r1 : bool) then Ok (true, e1) else activate_level kt (m' e1) e1) = Ok (r1, e1)) by (destruct r1; [done|by apply (trail_level sid)]).
  rewrite E2 in H. cbn [rbind] in H. destruct (recalc sd e1) as [e2| |] eqn:E3; try done. cbn in H. injection H as <- <-.
  destruct (recalc_same sid sd e1 e2 Hg1 E3) as [Hrun2 Hp]. exists xs. rewrite Hp. split; [done|]. split; [rewrite <- (app_nil_r xs); by eapply runs_trans|]. split; [done|].
  destruct r1; [done|]. destruct Hr1 as [-> ->]. done.
Qed.
Lemma round_ok sid e r e' : good sid e -> activate_round e = Ok (r, e') ->
  exists xs, round (pit_of e) = (xs, pit_of e') /\ runs sid e xs e' /\ (count (pit_of e') <= count (pit_of e))%nat /\
    (if r then (count (pit_of e') < count (pit_of e))%nat else xs = [] /\ pit_of e' = pit_of e).
Proof.
  intros Hg H.
  assert (exists r1 e1 r2, (do '(r1, e) <- activate_level (stop_side BUY) (market_of BUY e) e; do '(r1, e) <- (if (r1 : bool) then Ok (true, e) else activate_level KTrailBuy (market_ask (e_bk e)) e); do e <- recalc BUY e; Ok (r1, e)) = Ok (r1, e1) /\
    (do '(r1, e) <- activate_level (stop_side SELL) (market_of SELL e1) e1; do '(r1, e) <- (if (r1 : bool) then Ok (true, e) else activate_level KTrailSell (market_bid (e_bk e)) e); do e <- recalc SELL e; Ok (r1, e)) = Ok (r2, e') /\ r = orb r1 r2) as (r1 & e1 & r2 & H1 & H2 & ->).
  { unfold activate_round in H. cbn [stop_side market_of]. destruct (activate_level KBuyStop (market_ask (e_bk e)) e) as [[a1 u1]| |]; cbn [rbind] in H |- *; try done.
    destruct (if (a1 : bool) then Ok (true, u1) else activate_level KTrailBuy (market_ask (e_bk u1)) u1) as [[a2 u2]| |]; cbn [rbind] in H |- *; try done.
    destruct (recalc BUY u2) as [u3| |]; cbn [rbind] in H |- *; try done.
    destruct (activate_level KSellStop (market_bid (e_bk u3)) u3) as [[a4 u4]| |] eqn:E4; cbn [rbind] in H |- *; try done.
    destruct (if (a4 : bool) then Ok (true, u4) else activate_level KTrailSell (market_bid (e_bk u4)) u4) as [[a5 u5]| |] eqn:E5; cbn [rbind] in H |- *; try done.
    destruct (recalc SELL u5) as [u6| |] eqn:E6; cbn [rbind] in H |- *; try done. injection H as <- <-.
    exists a2, u3, a5. split; [done|]. rewrite E4. cbn [rbind]. rewrite E5. cbn [rbind]. rewrite E6. done. }
  destruct (pair_ok sid BUY KTrailBuy (fun e => market_ask (e_bk e)) e r1 e1 Hg ltac:(auto) H1) as (xs1 & W1 & R1 & C1 & D1).
  destruct (pair_ok sid SELL KTrailSell (fun e => market_bid (e_bk e)) e1 r2 e' (r_good _ _ _ _ R1) ltac:(auto) H2) as (xs2 & W2 & R2 & C2 & D2).
  exists (xs1 ++ xs2). unfold round. rewrite W1, W2. split; [done|]. split; [by eapply runs_trans|]. split; [lia|].
  destruct r1, r2; cbn [orb]; try lia. destruct D1 as [-> D1], D2 as [-> D2]. split; [done|]. by rewrite D2, D1.
Qed.
Definition settles (sid : Z) (e e' : eng) : Prop :=
  exists n xs, rounds n (pit_of e) = (xs, pit_of e') /\ runs sid e xs e' /\ round (pit_of e') = ([], pit_of e') /\ (n + count (pit_of e') <= count (pit_of e))%nat.
Lemma loop_ok sid : forall fuel r0 e r e', good sid e -> activate_loop fuel r0 e = Ok (r, e') -> settles sid e e'.
Proof.
  induction fuel as [|fuel IH]; intros r0 e r e' Hg H; cbn [activate_loop] in H; [done|]. destruct (activate_round e) as [[r1 e1]| |] eqn:E; cbn [rbind] in H; try done.
  destruct (round_ok sid e r1 e1 Hg E) as (xs & Hr & Hrun & Hc & Hd). destruct r1.
  - destruct (IH true e1 r e' (r_good _ _ _ _ Hrun) H) as (n & xs' & A & B & C & D). exists (S n), (xs ++ xs'). split; [cbn [rounds]; by rewrite Hr, A|]. split; [by eapply runs_trans|]. split; [done|]. lia.
  - injection H as _ <-. destruct Hd as [-> Hd]. exists 0%nat, []. cbn [rounds plus]. rewrite Hd in *. done.
Qed.
Lemma settles_trans sid a b c : settles sid a b -> settles sid b c -> settles sid a c.
Proof.
  intros (n & xs & A & B & C & D) (m & ys & A' & B' & C' & D'). exists (n + m)%nat, (xs ++ ys). split; [by eapply rounds_plus|]. split; [by eapply runs_trans|]. split; [done|]. lia.
Qed.
Lemma settles_good sid a b : settles sid a b -> good sid b.
Proof. intros (n & xs & _ & B & _). apply B. Qed.
Lemma match_ok sid : forall fuel e e', good sid e -> match_loop fuel e = Ok e' -> settles sid e e'.
Proof.
  induction fuel as [|fuel IH]; intros e e' Hg H; cbn [match_loop] in H; [done|]. unfold fuel_of in H. cbn [match_while] in H. rewrite (g_cross _ _ Hg) in H. cbn [rbind] in H.
  destruct (activate_all e) as [[again e1]| |] eqn:E; cbn [rbind] in H; try done. pose proof (loop_ok sid _ _ _ _ _ Hg E) as Hs. destruct again.
  - eapply settles_trans; [done|]. apply IH; [by eapply settles_good|done].
  - by injection H as <-.
Qed.
Lemma match_book_ok2 sid e e' : good sid e -> match_book e = Ok e' ->
  exists xs, rounds (length (y_buys (pit_of e)) + length (y_sells (pit_of e))) (pit_of e) = (xs, pit_of e') /\ runs sid e xs e'.
Proof.
  intros Hg E. destruct (match_ok sid _ _ _ Hg E) as (n & xs & A & B & C & D). exists xs. split; [|done].
  change (length (y_buys (pit_of e)) + length (y_sells (pit_of e)))%nat with (count (pit_of e)). assert (Hn : count (pit_of e) = (n + (count (pit_of e) - n))%nat) by lia.
  rewrite Hn, <- (app_nil_r xs). eapply rounds_plus; [done|]. by apply rounds_fix.
Qed.
Lemma close_ok sid e e' er : good sid e -> finish true e = Ok (e', er) -> er = OK /\ exists xs, close (pit_of e) = (xs, pit_of e') /\ runs sid e xs e'.
Proof.
  intros Hg H. unfold finish in H. destruct (match_book e) as [e1| |] eqn:E; cbn [rbind] in H; try done. injection H as <- <-. split; [done|].
  destruct (match_book_ok2 sid e e1 Hg E) as (xs & Hc & B). exists xs.
  unfold close. rewrite Hc. split; [done|]. destruct B as [B1 B2 (evs & B3 & B4)]. constructor; [|done|by exists evs].
  eapply (good_same sid e1); [done|done|done].
Qed.
