(** * PropsFok.v -- a Fill-Or-Kill order that is not filled changes nothing: C14. *)
From Coq Require Import ZifyBool.
From stdpp Require Import fin_maps relations.
From Verif Require Import Types Book Engine Manager Factory Validate LevelFacts BookInv EngInv EngPrim Steps StepsOk Refine1 Refine2 Refine3 Refine4 Api StateInv Micro Reach Calls Trades Settle Witness PropsState PropsSettle CallFacts PropsTrades PropsOrders Spec Spec2.

(** Matching a book that is not crossed and has no stop orders does nothing but refresh the
    trailing reference prices. *)
Definition eng_same (e e' : eng) : Prop := e_ords e' = e_ords e /\ e_log e' = e_log e /\ same_levels (e_bk e) (e_bk e').
Lemma eng_same_refl e : eng_same e e.
Proof. done. Qed.
Lemma eng_same_trans a b c : eng_same a b -> eng_same b c -> eng_same a c.
Proof. intros (A1&A2&(A3&A4&A5&A6)) (B1&B2&(B3&B4&B5&B6)). split; [congruence|]. split; [congruence|]. split; [congruence|]. split; [intros k; by rewrite B4, A4|]. split; congruence. Qed.
Definition no_stop_levels (e : eng) : Prop := best KBuyStop e = None /\ best KSellStop e = None /\ best KTrailBuy e = None /\ best KTrailSell e = None.
Lemma eng_same_best e e' k : eng_same e e' -> best k e' = best k e.
Proof. intros (_&_&(_&H&_)). unfold best. by rewrite H. Qed.
Lemma no_stop_same e e' : eng_same e e' -> no_stop_levels e -> no_stop_levels e'.
Proof. intros H. unfold no_stop_levels. by rewrite !(eng_same_best e e' _ H). Qed.
Lemma recalc_quiet sd e : no_stop_levels e -> exists e', recalc sd e = Ok e' /\ eng_same e e'.
Proof.
  intros (_ & _ & H1 & H2). assert (Hf : forall e0, walk_fuel e0 = S (pred (walk_fuel e0))) by (intros e0; unfold walk_fuel; cbn; done).
  unfold recalc. destruct sd.
  - destruct (best KAsk e); [|by exists e]. set (e1 := set_bk _ e). assert (Hs : eng_same e e1) by (repeat split; by intros []).
    assert (Hn : best KTrailBuy e1 = None) by (by rewrite (eng_same_best _ _ _ Hs)).
    exists e1. split; [|done]. destruct (_ <=? _); [done|]. rewrite Hn, Hf. done.
  - destruct (best KBid e); [|by exists e]. set (e1 := set_bk _ e). assert (Hs : eng_same e e1) by (repeat split; by intros []).
    assert (Hn : best KTrailSell e1 = None) by (by rewrite (eng_same_best _ _ _ Hs)).
    exists e1. split; [|done]. destruct (_ <=? _); [done|]. rewrite Hn, Hf. done.
Qed.
Lemma activate_quiet e : no_stop_levels e -> exists e', activate_all e = Ok (false, e') /\ eng_same e e'.
Proof.
  intros Hn. pose proof Hn as (H1 & H2 & H3 & H4). unfold activate_all, fuel_of. cbn [activate_loop]. unfold activate_round.
  unfold activate_level at 1. rewrite H1. cbn [rbind]. unfold activate_level at 1. rewrite H3. cbn [rbind].
  destruct (recalc_quiet BUY e Hn) as (e1 & -> & Hs1). cbn [rbind]. pose proof (no_stop_same _ _ Hs1 Hn) as Hn1. pose proof Hn1 as (K1 & K2 & K3 & K4).
  unfold activate_level at 1. rewrite K2. cbn [rbind]. unfold activate_level at 1. rewrite K4. cbn [rbind].
  destruct (recalc_quiet SELL e1 Hn1) as (e2 & -> & Hs2). cbn [rbind]. exists e2. split; [done|]. by eapply eng_same_trans.
Qed.
Lemma match_book_quiet e : crossed e = None -> no_stop_levels e -> exists e', match_book e = Ok e' /\ eng_same e e'.
Proof.
  intros Hc Hn. unfold match_book, fuel_of. cbn [match_loop]. unfold fuel_of. cbn [match_while]. rewrite Hc. cbn [rbind].
  destruct (activate_quiet e Hn) as (e' & -> & Hs). cbn [rbind]. by exists e'.
Qed.
Lemma finish_quiet mt e : crossed e = None -> no_stop_levels e -> exists e', finish mt e = Ok (e', OK) /\ eng_same e e'.
Proof.
  intros Hc Hn. unfold finish. destruct mt.
  - destruct (match_book_quiet e Hc Hn) as (e' & -> & Hs). cbn [rbind]. eexists. split; [done|]. eapply eng_same_trans; [done|].
    repeat split; by intros [].
  - cbn [rbind]. eexists. split; [done|]. repeat split; by intros [].
Qed.

(** A Fill-Or-Kill order that matching does not fill leaves the engine as it was. *)
Lemma match_order_fok sid e o : eng_ok sid e -> fly_ok sid (e_ords e) o -> 0 < o_leaves o -> is_fok o = true ->
  exists o1 e1, match_order o e = Ok (o1, e1) /\ eng_ok sid e1 /\
    ((o1 = o /\ e1 = e) \/ exists evs x p q, e_log e1 = e_log e ++ evs ++ [EExecute x p q] /\ o_id x = o_id o).
Proof.
  intros He Hf Hlv Hk. destruct (match_order_ok sid e o He Hf Hlv) as (o1 & e1 & Heq & Hr & _ & Hw). exists o1, e1. split; [done|].
  pose proof (tsteps_ok sid _ _ Hr He Hf) as (He1 & _ & _). split; [done|].
  rewrite Hk in Hw. destruct (Hw eq_refl) as [[= <- <-]|Hz]; [by left|]. right.
  apply rtc_inv in Hr as [E|([e2 o2] & Hst & Hr)]; [injection E as <- <-; lia|].
  inversion Hst as [e0 o0 p r e3 q _ _ Hn|e0 o0 e3 _ Hlv2 Hcx]; subst; [congruence|].
  apply rtc_inv in Hr as [[= <- <-]|([e4 o4] & Hst2 & _)].
  2: { exfalso. assert (0 < o_leaves (executed (o_leaves o) o)) by (by inversion Hst2). cbn in *. lia. }
  destruct (cx_chain_log sid o) with (c := (o_leaves o, e)) (c' := (0, e3)) as [(evs2 & Hl2 & _) _]; try done.
  { apply Hf. } { unfold is_aon. unfold is_fok in Hk. apply bool_decide_eq_true in Hk. by rewrite Hk. }
  { cbn. destruct Hf as [_ _ L0 L1 _ _ _ _ _ _]. pose proof (total_nonneg (e_ords e) (fun i x Hx => ltac:(pose proof (lo_leaves _ _ (mo_live _ (proj1 He) _ _ Hx)); lia))). lia. }
  cbn in Hl2. exists evs2, o, (o_price o), (o_leaves o). cbn. rewrite Hl2, <- !app_assoc. done.
Qed.

Lemma no_stops_levels s i b : inv s -> get_book i s = Some b -> no_live_stops s i -> forall l, no_stop_levels (mkEng b (st_ords s) l).
Proof.
  intros Hinv Hb Hn l. pose proof (inv_eng _ _ _ Hinv Hb) as He.
  assert (H : forall k, k = KBuyStop \/ k = KSellStop \/ k = KTrailBuy \/ k = KTrailSell -> best k (mkEng b (st_ords s) l) = None).
  { intros k Hk. destruct (best k _) as [p|] eqn:Eb; [|done]. exfalso. destruct (best_some _ _ _ _ _ (proj2 He) Eb) as [Hq _].
    destruct (queue b k p) as [|x rest] eqn:Eq; [done|]. destruct (queue_facts i (eng_of b s) k p x He) as (r & Hr & Hi & Hs & Hkr & _).
    { cbn. rewrite Eq. left. }
    specialize (Hn x r). rewrite (get_order_inv _ _ Hinv) in Hn. specialize (Hn Hr Hs). unfold okind in Hkr. rewrite Hn in Hkr. cbn in Hkr.
    destruct (o_side r), Hk as [-> |[-> |[-> | ->]]]; done. }
  split; [|split; [|split]]; apply H; auto.
Qed.
Lemma same_levels_refl b : same_levels b b.
Proof. done. Qed.
(** A new Fill-Or-Kill limit or market order for which no execution is reported leaves everything
    as it was: it is reported added and deleted, and nothing else happens.  (With matching enabled
    the book is taken to be uncrossed, which C01 establishes, and without resting stop orders,
    because the call also looks for stop orders to activate.) *)
Theorem C14_killed s o s' er evs b : reach s -> op_ok s (AddOrder o) -> call s (AddOrder o) s' er evs ->
  validate o = OK -> o_tif o = FOK -> o_type o = LIMIT \/ o_type o = MARKET ->
  get_book (o_sym o) s = Some b -> (st_match s = true -> uncrossed b /\ no_live_stops s (o_sym o)) ->
  execs_of (o_id o) evs = [] ->
  er = OK /\ (exists p, evs = [EAddOrder o; EDeleteOrder (set_price p o)]) /\ (forall i, get_order i s' = get_order i s) /\
  (forall i bi, get_book i s = Some bi -> exists bi', get_book i s' = Some bi' /\ same_levels bi bi').
Proof.
  intros Hr Hop [Hstep Hlog] Hval Htif Hty Hb Hq Hnone. pose proof (reach_inv _ Hr) as Hinv. pose proof (inv_eng _ _ _ Hinv Hb) as He.
  set (sid := o_sym o) in *. set (e := emit (EAddOrder o) (eng_of b s)).
  destruct (validate_ok o Hval (proj1 Hop)) as (Hid & Hlv & _ & Htr & _).
  assert (Hf : fly_ok sid (e_ords e) o).
  { destruct Hop as [(R1&R2&R3&R4&R5&R6&R7&R8&R9&R10&R11) Ht]. constructor; try done; unfold u64_range in *; cbn; lia. }
  assert (He0 : eng_ok sid e) by by apply emit_ok.
  assert (Hk : is_fok o = true) by (unfold is_fok; by rewrite Htif).
  (* what remains to be shown, given that the order is dropped unchanged *)
  assert (Hend : forall p, step s (AddOrder o) = on_book sid b (fun _ => finish (st_match s) (emit (EDeleteOrder (set_price p o)) e)) s ->
    er = OK /\ (exists p, evs = [EAddOrder o; EDeleteOrder (set_price p o)]) /\ (forall i, get_order i s' = get_order i s) /\
    (forall i bi, get_book i s = Some bi -> exists bi', get_book i s' = Some bi' /\ same_levels bi bi')).
  { intros p Hs. set (e1 := emit (EDeleteOrder (set_price p o)) e) in *.
    assert (exists e2, finish (st_match s) e1 = Ok (e2, OK) /\ eng_same e1 e2) as (e2 & Hfin & Hsame).
    { destruct (st_match s).
      - destruct (Hq eq_refl) as [Hu Hns]. apply finish_quiet; [by apply crossed_uncrossed|]. by eapply no_stops_levels.
      - eexists. split; [done|]. repeat split; by intros []. }
    rewrite Hstep in Hs. unfold on_book in Hs. rewrite Hfin in Hs. cbn [rbind] in Hs. injection Hs as -> ->. destruct Hsame as (A1 & A2 & A3). cbn in Hlog, A1, A2.
    split; [done|]. split; [exists p; rewrite A2, <- !app_assoc in Hlog; by apply app_inv_head in Hlog|].
    split; [intros i; unfold get_order; cbn; by rewrite A1|].
    intros i bi Hbi. fold (put_eng sid e2 s). rewrite (get_book_put sid e2 s i b Hb). destruct (decide (sid = i)) as [<-|Hne].
    - eexists. split; [done|]. assert (bi = b) by congruence. by subst.
    - exists bi. split; [done|apply same_levels_refl]. }
  assert (Hfill : forall o1 e1 o2 e2 e3 er3, eng_ok sid e1 -> (o1 = o2 /\ e1 = e2 \/ exists evs x p q, e_log e1 = e_log e ++ evs ++ [EExecute x p q] /\ o_id x = o_id o) ->
    finish (st_match s) (emit (EDeleteOrder o1) e1) = Ok (e3, er3) -> e_log e3 = st_log s ++ evs -> o1 = o2 /\ e1 = e2).
  { intros o1 e1 o2 e2 e3 er3 He1 [?|(evs0 & x & p & q & Hl & Hx)] Hfin Hl3; [done|]. exfalso.
    assert (He1' : eng_ok sid (emit (EDeleteOrder o1) e1)) by by apply emit_ok.
    destruct (finish_none (W:=True) (st_match s) sid _ He1') as (e4 & er4 & Hfin' & Hen). rewrite Hfin in Hfin'. injection Hfin' as <- <-.
    destruct (ending_micro _ _ sid (wide True) _ _ _ Hen ltac:(by split) (allows_wide _ _ _ (or_introl I)) (fun _ => I) (fun _ => I)) as [evs4 Hu].
    assert (e_log e3 = e_log (emit (EDeleteOrder o1) e1) ++ evs4) as Hl4. { by apply (usteps_ok sid (wide True) _ _ _ Hu ltac:(by split)). }
    cbn in Hl4. rewrite Hl4, Hl in Hl3. cbn in Hl3. rewrite <- !app_assoc in Hl3. apply app_inv_head in Hl3. subst evs.
    rewrite (execs_of_app (o_id o) [EAddOrder o]), !execs_of_app in Hnone. rewrite (execs_of_one (o_id o) x p q [] eq_refl), decide_True in Hnone by done. cbn in Hnone. by destruct (execs_of (o_id o) evs0). }
  assert (Hstep' := Hstep). cbn [step] in Hstep'. unfold api_add in Hstep'. rewrite Hval in Hstep'. fold sid in Hstep'. rewrite Hb in Hstep'.
  assert (Hrest : forall o1 e1 p, eng_ok sid e1 ->
     (o1 = set_price p o /\ e1 = e \/ exists evs x p q, e_log e1 = e_log e ++ evs ++ [EExecute x p q] /\ o_id x = o_id o) ->
     add_order (st_match s) o (eng_of b s) = finish (st_match s) (emit (EDeleteOrder o1) e1) ->
     er = OK /\ (exists p, evs = [EAddOrder o; EDeleteOrder (set_price p o)]) /\ (forall i, get_order i s' = get_order i s) /\
    (forall i bi, get_book i s = Some bi -> exists bi', get_book i s' = Some bi' /\ same_levels bi bi')).
  { intros o1 e1 p He1 Hcase Hadd. assert (o1 = set_price p o /\ e1 = e) as [-> ->].
    - unfold on_book in Hstep'. fold (eng_of b s) in Hstep'. rewrite Hadd in Hstep'.
      destruct (finish (st_match s) (emit (EDeleteOrder o1) e1)) as [[e3 er3]| |] eqn:Hfin; [|done|done]. cbn [rbind] in Hstep'.
      injection Hstep' as <- <-. cbn in Hlog. by eapply Hfill.
    - apply (Hend p). cbn [step]. unfold api_add. rewrite Hval. fold sid. rewrite Hb. unfold on_book. fold (eng_of b s). by rewrite Hadd. }
  assert (Ep : o = set_price (o_price o) o) by by destruct o.
  assert (Hm : forall p, u64_range p -> let o0 := set_price p o in exists o1 e1, match_order o0 e = Ok (o1, e1) /\ eng_ok sid e1 /\ same_kind o0 o1 /\
     (o1 = o0 /\ e1 = e \/ exists evs x p q, e_log e1 = e_log e ++ evs ++ [EExecute x p q] /\ o_id x = o_id o)).
  { intros p Hp o0. destruct (match_order_fok sid e o0 He0) as (o1 & e1 & Heq & He1 & Hcase); [by destruct Hf; constructor|done|done|].
    exists o1, e1. split; [done|]. split; [done|]. split; [|done].
    destruct (match_order_ok sid e o0 He0) as (o2 & e2 & Heq2 & Hr2 & _); [by destruct Hf; constructor|done|]. rewrite Heq in Heq2. injection Heq2 as <- <-.
    apply (tsteps_kind _ _ Hr2). }
  assert (Him : forall o1, o_tif o1 = o_tif o -> (0 <? o_leaves o1) && negb (immediate o1) = false).
  { intros o1 Ht. unfold immediate, is_fok. rewrite Ht, Htif, orb_true_r. by rewrite andb_false_r. }
  unfold add_order in Hrest. destruct Hty as [Hty|Hty]; rewrite Hty in Hrest.
  - unfold add_limit in Hrest. fold e in Hrest. unfold add_limit_tail, if_match in Hrest. destruct (st_match s).
    + destruct (Hm (o_price o)) as (o1 & e1 & Heq & He1 & Hk1 & Hcase); [apply Hf|]. rewrite <- Ep in Heq, Hk1, Hcase.
      rewrite Heq in Hrest. cbn [rbind] in Hrest. rewrite (Him o1) in Hrest by apply Hk1. apply (Hrest o1 e1 (o_price o) He1); [by rewrite <- Ep|done].
    + cbn [rbind] in Hrest. rewrite (Him o) in Hrest by done. apply (Hrest o e (o_price o) He0); [left; by rewrite <- Ep|done].
  - unfold add_market in Hrest. fold e in Hrest. unfold if_match in Hrest. destruct (st_match s).
    + unfold match_market in Hrest. destruct (best (opp (o_side o)) e) as [p|] eqn:Eb.
      * destruct (Hm (market_price o p)) as (o1 & e1 & Heq & He1 & Hk1 & Hcase).
        { apply market_price_range; [apply Hf|]. by eapply best_range. }
        rewrite Heq in Hrest. cbn [rbind] in Hrest. by apply (Hrest o1 e1 (market_price o p) He1).
      * cbn [rbind] in Hrest. apply (Hrest o e (o_price o) He0); [left; by rewrite <- Ep|done].
    + cbn [rbind] in Hrest. apply (Hrest o e (o_price o) He0); [left; by rewrite <- Ep|done].
Qed.
Print Assumptions C14_killed.
Example C14_killed_example : let s := hist (setup ++ [EnableMatching; SL 1 100 5; SL 2 101 5]) in let o := LimitOrder 3 0 BUY 100 8 FOK MAX64 in
  reach s /\ uncrossed (the_book s) /\ no_live_stops s 0 /\ st_match s = true /\ execs (news s (AddOrder o)) = [] /\
  map (fun x => (o_id (fst (fst x)), snd x)) (execs (news s (LIM BUY 3 101 8 FOK))) = [(1, 5); (2, 3); (3, 8)].
Proof.
  split; [apply hist_reach|]. split. { intros bid ask. vm_compute. done. }
  split; [|by vm_compute]. intros j o Hj _. assert (H : forallb (fun x => bool_decide (o_type (snd x) = LIMIT)) (map_to_list (st_ords (hist (setup ++ [EnableMatching; SL 1 100 5; SL 2 101 5])))) = true) by by vm_compute.
  unfold get_order in Hj. destruct (j =? 0); [done|]. apply elem_of_map_to_list, elem_of_list_In in Hj.
  pose proof (proj1 (forallb_forall _ _) H _ Hj) as H1. by apply bool_decide_eq_true in H1.
Qed.
