(** * PropsFok2.v -- Fill-Or-Kill in all notifications, triggered stop orders included: C14. *)
From Coq Require Import ZifyBool.
From stdpp Require Import fin_maps relations.
From Verif Require Import Types Book Engine Manager Factory Validate LevelFacts BookInv EngInv EngPrim Steps StepsOk Refine1 Refine2 Refine3 Refine4 Api StateInv Micro Reach Calls Trades Settle Witness PropsState PropsSettle CallFacts PropsTrades PropsOrders Spec Spec2 Spec16.
Open Scope Z_scope. Open Scope list_scope.

Definition calm_ev (ev : event) : Prop := forall x, ~ offers ev x.
Lemma app_cons_split {A} (a b pre post : list A) ev : a ++ b = pre ++ ev :: post ->
  (exists post1, a = pre ++ ev :: post1 /\ post = post1 ++ b) \/ (exists pre1, pre = a ++ pre1 /\ b = pre1 ++ ev :: post).
Proof.
  intros H. apply app_eq_inv in H as [(k & -> & H)|(k & -> & H)].
  - destruct k as [|y k]; cbn in H.
    + right. exists []. split; [by rewrite !app_nil_r|done].
    + injection H as -> H. left. by exists k.
  - right. by exists k.
Qed.
Lemma killed_app x a b : killed x a -> killed x (a ++ b).
Proof. intros (y & post & -> & H). exists y, (post ++ b). done. Qed.
Lemma filled_app x a b : filled x a -> filled x (a ++ b).
Proof. intros (mid & y & z & p & post & -> & H). exists mid, y, z, p, (post ++ b). split; [|done]. by rewrite <- app_assoc. Qed.
Lemma whole_app a b : all_or_nothing a -> all_or_nothing b -> all_or_nothing (a ++ b).
Proof.
  intros Ha Hb pre ev post x Heq Ho. apply app_cons_split in Heq as [(post1 & Heq & ->)|(pre1 & -> & Heq)].
  - destruct (Ha _ _ _ _ Heq Ho) as [H|H]; [left; by apply killed_app|right; by apply filled_app].
  - by eapply Hb.
Qed.
Lemma whole_calm evs : Forall calm_ev evs -> all_or_nothing evs.
Proof. intros H pre ev post x -> Ho. apply Forall_app in H as [_ H]. apply Forall_cons in H as [H _]. by destruct (H x). Qed.
Lemma whole_block ev x post : offers ev x -> Forall calm_ev post -> killed x post \/ filled x post -> all_or_nothing (ev :: post).
Proof.
  intros Ho Hc Hk pre ev' post' x' Heq Ho'. destruct pre as [|e0 pre]; cbn in Heq.
  - injection Heq as <- <-. assert (x' = x) as ->; [|done]. destruct Ho as [[-> | ->] _], Ho' as [[Ho'|Ho'] _]; congruence.
  - injection Heq as <- ->. apply Forall_app in Hc as [_ Hc]. apply Forall_cons in Hc as [Hc _]. by destruct (Hc x').
Qed.
(** Quiet notifications *)
Lemma calm_upd x : (o_tif x <> FOK \/ (o_type x <> LIMIT /\ o_type x <> MARKET)) -> calm_ev (EUpdateOrder x).
Proof. intros H y ([E|E] & Ht & Hy); [done|]. injection E as <-. destruct H as [H|[H1 H2]]; [done|]. by destruct Hy. Qed.
Lemma calm_add x : (o_tif x <> FOK \/ (o_type x <> LIMIT /\ o_type x <> MARKET)) -> calm_ev (EAddOrder x).
Proof. intros H y ([E|E] & Ht & Hy); [|done]. injection E as <-. destruct H as [H|[H1 H2]]; [done|]. by destruct Hy. Qed.
Ltac quiet_ev := intros ?y ([?E|?E] & _); discriminate.
Lemma calm_del x : calm_ev (EDeleteOrder x). Proof. quiet_ev. Qed.
Lemma calm_exec x p q : calm_ev (EExecute x p q). Proof. quiet_ev. Qed.
Lemma calm_lev sid u : Forall calm_ev (lev_evs sid u).
Proof. unfold lev_evs, lev_ev. repeat constructor; [destruct (u_type u); quiet_ev|quiet_ev]. Qed.
Lemma calm_lim o sid u : Forall calm_ev (lim_evs o sid u).
Proof. unfold lim_evs. destruct (is_limit o); [apply calm_lev|constructor]. Qed.
Lemma calm_red x : (o_tif x <> FOK \/ (o_type x <> LIMIT /\ o_type x <> MARKET)) -> calm_ev (red_ev x).
Proof. intros H. unfold red_ev. destruct (_ =? 0); [apply calm_del|by apply calm_upd]. Qed.
Lemma live_not_fok i o : live_ok i o -> o_tif o <> FOK \/ (o_type o <> LIMIT /\ o_type o <> MARKET).
Proof.
  intros Hl. destruct (o_type o) eqn:E; try (right; split; discriminate).
  - by destruct (lo_type _ _ Hl).
  - left. destruct (lo_rest _ _ Hl E) as [-> | ->]; discriminate.
Qed.

Definition quietly (e e' : eng) : Prop := exists evs, e_log e' = e_log e ++ evs /\ Forall calm_ev evs.
Lemma quietly_trans a b c : quietly a b -> quietly b c -> quietly a c.
Proof. intros (x & Hx & Qx) (y & Hy & Qy). exists (x ++ y). split; [by rewrite Hy, Hx, app_assoc|by apply Forall_app]. Qed.
Lemma exec_reduce_calm sid e r p q e1 : eng_ok sid e -> e_ords e !! o_id r = Some r -> o_sym r = sid -> 0 < q <= o_leaves r -> exec_reduce r p q e = Ok e1 -> eng_ok sid e1 /\ quietly e e1.
Proof.
  intros He Hr Hs Hq Hex. destruct (exec_reduce_ok sid e r p q He Hr Hs Hq) as (u & e1' & Heq & Hok & _ & Hlog & _). rewrite Hex in Heq. injection Heq as <-.
  split; [done|]. eexists. split; [exact Hlog|]. constructor; [apply calm_exec|]. constructor; [|apply calm_lim]. apply calm_red. exact (live_not_fok _ _ (mo_live _ (proj1 He) _ _ Hr)).
Qed.
Lemma exec_delete_calm sid e r p q e1 : eng_ok sid e -> e_ords e !! o_id r = Some r -> o_sym r = sid -> exec_delete r p q e = Ok e1 -> eng_ok sid e1 /\ e_ords e1 = delete (o_id r) (e_ords e) /\ quietly e e1.
Proof.
  intros He Hr Hs Hex. destruct (exec_delete_ok sid e r p q He Hr Hs) as (u & e1' & Heq & Hok & Hords & Hlog & _). rewrite Hex in Heq. injection Heq as <-.
  split; [done|]. split; [done|]. eexists. split; [exact Hlog|]. constructor; [apply calm_exec|]. apply Forall_app. split; [apply calm_lim|]. constructor; [apply calm_del|constructor].
Qed.
Lemma cx_calm sid t k price : (k = KBid \/ k = KAsk) -> forall c c', rtc (cxstep t k price) c c' -> eng_ok sid (snd c) -> 0 <= fst c < TWO64 -> quietly (snd c) (snd c').
Proof.
  intros Hk. induction 1 as [c|[v e] [v1 e1] c' Hst _ IH]; intros He Hv; [exists []; rewrite app_nil_r; by split|]. cbn in *.
  inversion Hst as [? ? p r ? Hv0 Hf Hra Ht Hex|? ? p r ? Hv0 Hf Hra Ht Hex]; subst; destruct (front_limit sid e _ p r He Hk Hf) as (Hr & Hs & Hty & Hp & Hlv).
  - destruct (exec_delete_calm sid e r price _ e1 He Hr Hs Hex) as (He1 & _ & Q1). eapply quietly_trans; [exact Q1|]. apply IH; [done|apply u64_bounds].
  - destruct (exec_reduce_calm sid e r price (Z.min (o_leaves r) v) e1 He Hr Hs ltac:(lia) Hex) as (He1 & Q1). eapply quietly_trans; [exact Q1|]. apply IH; [done|apply u64_bounds].
Qed.

(** ** The order in flight *)
Definition fok_run (o : order) : bool := is_fok o && negb (stop_type o).
Definition pending (evs : list event) (o : order) : Prop :=
  (exists pre ev x, evs = pre ++ [ev] /\ all_or_nothing pre /\ offers ev x /\ o_id x = o_id o /\ o_leaves x = o_leaves o /\ o_exec x = o_exec o /\ o_sym x = o_sym o /\ o_side x = o_side o /\ 0 < o_leaves o) \/
  (exists pre ev x mid y p, evs = pre ++ ev :: mid ++ [EExecute y p (o_leaves x)] /\ all_or_nothing pre /\ offers ev x /\ Forall calm_ev mid /\ o_id x = o_id o /\ o_leaves o = 0 /\
     o_id y = o_id x /\ o_leaves y = o_leaves x /\ sum_qty (execs mid) = o_leaves x /\
     (forall r p' q, (r, p', q) ∈ execs mid -> o_sym r = o_sym x /\ o_side r <> o_side x /\ p' = p /\ 0 < q <= o_leaves r)).
Definition so_far (evs : list event) (f : option order) : Prop :=
  match f with
  | None => all_or_nothing evs
  | Some o => if fok_run o then pending evs o else all_or_nothing evs
  end.
Definition tells (L : list event) (c : cfg) : Prop := exists evs, e_log (fst c) = L ++ evs /\ so_far evs (snd c).
Lemma tells_calm L e e' : tells L (e, None) -> quietly e e' -> tells L (e', None).
Proof. intros (evs & Hl & Hs) (ev2 & Hl2 & Hc). exists (evs ++ ev2). cbn in *. split; [by rewrite Hl2, Hl, app_assoc|]. apply whole_app; [done|by apply whole_calm]. Qed.
Lemma quiet_run o : fok_run o = false -> o_tif o <> FOK \/ (o_type o <> LIMIT /\ o_type o <> MARKET).
Proof.
  unfold fok_run, is_fok, stop_type, is_limit, is_market. intros H. destruct (bool_decide_reflect (o_tif o = FOK)) as [E|E]; [|by left]. right.
  cbn in H. destruct (o_type o); cbn in H; done.
Qed.
Lemma run_offers o ev : fok_run o = true -> ev = EAddOrder o \/ ev = EUpdateOrder o -> offers ev o.
Proof.
  unfold fok_run, is_fok, stop_type, is_limit, is_market. intros H He. apply andb_true_iff in H as [H1 H2]. apply bool_decide_eq_true in H1.
  split; [done|]. split; [done|]. destruct (o_type o); cbn in H2; try done; auto.
Qed.
Lemma announce_tells evs o ev : all_or_nothing evs -> ev = EAddOrder o \/ ev = EUpdateOrder o -> 0 < o_leaves o -> so_far (evs ++ [ev]) (Some o).
Proof.
  intros Hw He Hl. cbn. destruct (fok_run o) eqn:Hf.
  - left. exists evs, ev, o. split_and!; try done. by apply run_offers.
  - apply whole_app; [done|]. apply whole_calm. constructor; [|constructor]. pose proof (quiet_run o Hf). destruct He as [-> | ->]; [by apply calm_add|by apply calm_upd].
Qed.
Lemma done_tells evs o : so_far evs (Some o) -> all_or_nothing (evs ++ [EDeleteOrder o]).
Proof.
  cbn. destruct (fok_run o); intros H; [|apply whole_app; [done|]; apply whole_calm; constructor; [apply calm_del|constructor]].
  destruct H as [(pre & ev & x & -> & Hp & Ho & Hi & Hl & Hx & _)|(pre & ev & x & mid & y & p & -> & Hp & Ho & Hm & Hi & Hz & Hy & Hyl & Hsum & Hall)].
  - rewrite <- app_assoc. apply whole_app; [done|]. apply (whole_block ev x); [done|constructor; [apply calm_del|constructor]|]. left. by exists o, [].
  - rewrite <- app_assoc. apply whole_app; [done|]. cbn. rewrite <- app_assoc. apply (whole_block ev x); [done| |].
    + apply Forall_app. split; [done|]. repeat constructor; [apply calm_exec|apply calm_del].
    + right. exists mid, y, o, p, []. done.
Qed.
Lemma converted_leaves o : o_leaves (converted o) = o_leaves o.
Proof. unfold converted. by destruct (o_type o). Qed.
Lemma mstep_tells {F W} sid L c c' : mstep F W c c' -> cfg_ok sid c -> tells L c -> tells L c'.
Proof.
  intros Hst [He Hf] Ht.
  inversion Hst as [e o e' o' Htr Hstop Hprc|e o p Hty Hb Hann|e o Hty Hre Hlv|e o Hfr Hlv Hty Htif Hset|e o Hmv
    |e b a bp ap x r e' Hbb Hba Hcr Hqb Hb Hqa Ha Hnb Hna Hxr Hle (e1 & Hx & Hr)
    |e b a bp ap x k1 k2 v v1 e1 v2 e' Hbb Hba Hcr Hqb Hb Hqa Ha Hax Hv Hk Hc1 Hc2
    |e o e1 Ho Hs Hty Hre Hdel|e o e1 o' Ho Hs Htr Hne Hdel|e s]; subst; cbn [fst snd] in He, Hf; destruct Ht as (evs & Hl & Hs0); cbn [fst snd] in Hl, Hs0.
  - inversion Htr as [? ? p r e1 q Hfr Harb Hfok Haon Hlv Hra Hex|? ? e1 Hfa Hlv Hch]; subst.
    + destruct (front_limit sid e _ p r He (opp_bid_ask _) Hfr) as (Hr & Hs & Hty & Hp & Hrl).
      destruct (exec_reduce_calm sid e r p q e1 He Hr Hs ltac:(unfold q; lia) Hex) as (_ & ev2 & Hl2 & Hc2).
      exists (evs ++ ev2 ++ [EExecute o p q]). cbn [fst snd]. split; [cbn; rewrite Hl2, Hl, !app_assoc; done|].
      assert (Hn : fok_run o = false) by (unfold fok_run; by rewrite Hfok). cbn in Hs0 |- *. rewrite Hn in Hs0. assert (fok_run (executed q o) = false) as -> by exact Hn.
      apply whole_app; [done|]. apply whole_calm. apply Forall_app. split; [done|]. constructor; [apply calm_exec|constructor].
    + assert (Hb : 0 <= o_leaves o < TWO64).
      { destruct Hf. pose proof (total_nonneg (e_ords e)) as Hn. assert (0 <= total (e_ords e)); [|lia]. apply Hn. intros i x Hx. destruct (mo_live _ (proj1 He) _ _ Hx). lia. }
      destruct (cx_calm sid true _ _ (opp_bid_ask (o_side o)) _ _ Hch He Hb) as (ev2 & Hl2 & Hc2). cbn in Hl2.
      exists (evs ++ ev2 ++ [EExecute o (o_price o) (o_leaves o)]). cbn [fst snd]. split; [cbn; rewrite Hl2, Hl, !app_assoc; done|].
      cbn in Hs0 |- *. assert (fok_run (executed (o_leaves o) o) = fok_run o) as -> by done. destruct (fok_run o) eqn:Hk.
      2: { apply whole_app; [done|]. apply whole_calm. apply Forall_app. split; [done|]. constructor; [apply calm_exec|constructor]. }
      destruct Hs0 as [(pre & ev & x & -> & Hp & Ho & Hi & Hlx & Hx & Hsx & Hsdx & _)|(pre & ev & x & mid & y & p & -> & Hp & Ho & Hm & Hi & Hz & _)]; [|lia].
      assert (Hna : is_aon o = false). { unfold fok_run, is_fok in Hk. apply andb_true_iff in Hk as [Hk _]. apply bool_decide_eq_true in Hk. unfold is_aon. by rewrite Hk. }
      destruct (cx_chain_log sid o (fl_sym _ _ _ Hf) Hna _ _ Hch He Hb) as [(ev3 & Hl3 & Hall & Hsum) _]. cbn in Hl3, Hsum. rewrite Hl2 in Hl3. apply app_inv_head in Hl3. subst ev3.
      right. exists pre, ev, x, ev2, o, (o_price o). split_and!; try done.
      * rewrite <- app_assoc. cbn. by rewrite Hlx.
      * cbn. lia.
      * lia.
      * intros r p' q Hin. rewrite Forall_forall in Hall. destruct (Hall _ Hin) as (A1 & A2 & A3 & A4 & A5 & A6). split_and!; try congruence; lia.
  - exists evs. cbn [fst snd]. split; [done|]. cbn in Hs0 |- *. assert (fok_run (set_price (market_price o p) o) = fok_run o) as -> by done. destruct (fok_run o); [|done]. exact Hs0.
  - exists (evs ++ [EUpdateOrder (converted o)]). cbn [fst snd]. split; [cbn; by rewrite Hl, app_assoc|].
    assert (Hn : fok_run o = false) by (unfold fok_run; rewrite Hty; by rewrite andb_false_r). cbn in Hs0. rewrite Hn in Hs0.
    apply announce_tells; [done|by right|by rewrite converted_leaves].
  - pose proof (fly_live _ _ _ Hf Hlv Hty Htif) as Hlive.
    destruct (eng_add_ok sid e o He Hfr Hlive) as (u & e' & Heq & Hok & Hords & Hlog & Hpr & Hp); [apply Hf|apply Hf|]. rewrite Heq.
    assert (Hn : fok_run o = false).
    { unfold fok_run. destruct (is_fok o) eqn:Ek; [|done]. cbn. unfold stop_type, is_limit, is_market. destruct (o_type o) eqn:Et; try done. exfalso. specialize (Htif eq_refl). unfold immediate in Htif. rewrite Ek in Htif. by rewrite orb_true_r in Htif. }
    cbn in Hs0. rewrite Hn in Hs0. exists (evs ++ lim_evs o sid u). cbn. split; [by rewrite Hlog, Hl, app_assoc|]. apply whole_app; [done|]. apply whole_calm, calm_lim.
  - exists (evs ++ [EDeleteOrder o]). cbn [fst snd]. split; [cbn; by rewrite Hl, app_assoc|]. by apply done_tells.
  - assert (Hxm : e_ords e !! o_id x = Some x) by (destruct Hxr as [[-> ->]|[-> ->]]; done).
    assert (Hrm : e_ords e !! o_id r = Some r) by (destruct Hxr as [[-> ->]|[-> ->]]; done).
    destruct (queue_facts _ _ _ _ _ He Hqb) as (b' & Hb' & _ & Hsb & Hkb & Hpb & Hlb). assert (b' = b) by congruence. subst b'.
    destruct (queue_facts _ _ _ _ _ He Hqa) as (a' & Ha' & _ & Hsa & Hka & Hpa & Hla). assert (a' = a) by congruence. subst a'.
    assert (Hne : o_id r <> o_id x). { destruct Hxr as [[-> ->]|[-> ->]]; intros E; congruence. }
    assert (Hsx : o_sym x = sid) by (destruct Hxr as [[-> ->]|[-> ->]]; done). assert (Hsr : o_sym r = sid) by (destruct Hxr as [[-> ->]|[-> ->]]; done).
    destruct (exec_delete_calm sid e x _ _ e1 He Hxm Hsx Hx) as (He1 & Hords & Q1).
    pose proof (lo_leaves _ _ (mo_live _ (proj1 He) _ _ Hxm)) as Hlx.
    destruct (exec_reduce_calm sid e1 r (o_price x) (o_leaves x) e' He1) as (_ & Q2); [by rewrite Hords, lookup_delete_ne by done|done|lia|done|].
    eapply tells_calm; [by exists evs|]. by eapply quietly_trans.
  - assert (K1 : k1 = KBid \/ k1 = KAsk) by (destruct Hk as [(_ & -> & _)|(_ & -> & _)]; auto). assert (K2 : k2 = KBid \/ k2 = KAsk) by (destruct Hk as [(_ & _ & ->)|(_ & _ & ->)]; auto).
    destruct (cxsteps_ok _ _ _ _ _ sid Hc1 He) as (He1 & Hsh1 & Hv1); [cbn; lia|]. cbn in He1.
    pose proof (cx_calm sid _ _ _ K1 _ _ Hc1 He ltac:(cbn; lia)) as Q1. pose proof (cx_calm sid _ _ _ K2 _ _ Hc2 He1 ltac:(cbn; lia)) as Q2.
    eapply tells_calm; [by exists evs|]. by eapply quietly_trans.
  - assert (Hsid : sid_of (e_bk e) = sid) by (eapply bk_id, He). rewrite Hsid in Hs.
    destruct (eng_del_ok sid e o He Ho Hs) as (u & e1' & Heq' & Hords & Hok & Hlog & Hpr & Hp). rewrite Hdel in Heq'. injection Heq' as <-.
    assert (Hnl : o_type o <> LIMIT). { unfold stop_type, is_limit in Hty. case_bool_decide; done. }
    rewrite lim_evs_stop, app_nil_r in Hlog by done.
    exists (evs ++ [EUpdateOrder (converted o)]). cbn [fst snd]. split; [cbn; by rewrite Hlog, Hl, app_assoc|].
    apply announce_tells; [done|by right|]. rewrite converted_leaves. apply (lo_leaves _ _ (mo_live _ (proj1 He) _ _ Ho)).
  - assert (Hsid : sid_of (e_bk e) = sid) by (eapply bk_id, He). rewrite Hsid in Hs.
    destruct (eng_del_ok sid e o He Ho Hs) as (u & e1' & Heq' & Hords & Hok & Hlog & Hpr & Hp). rewrite Hdel in Heq'. injection Heq' as <-.
    destruct (drop_eng_ok sid e o e1 He Ho Hs Hdel) as [He1 Hsh].
    pose proof (mo_live _ (proj1 He) _ _ Ho) as Hlv.
    destruct (retrail_place (calc_trailing o (e_bk e)) o Htr) as (Ei & Es & Et & Esd & Est & El). fold o' in Ei, Es, Et, Esd, Est, El.
    assert (Hput : put o' (emit (EUpdateOrder o') e1) = put o' (drop_id (o_id o) (emit (EUpdateOrder o') e1))).
    { unfold put, drop_id, set_ords; cbn. f_equal. rewrite Ei. by rewrite insert_delete_insert. }
    rewrite Hput.
    assert (Htot : total (delete (o_id o) (e_ords e)) + o_leaves o < TWO64).
    { pose proof (mo_total _ (proj1 He)) as Htt. rewrite (total_delete _ _ _ Ho) in Htt. lia. }
    assert (Hnl : o_type o <> LIMIT /\ o_type o <> MARKET). { unfold is_trailing, is_trailing_stop, is_trailing_stop_limit in Htr. split; intros E; rewrite E in Htr; done. }
    destruct (eng_add_ok sid (drop_id (o_id o) (emit (EUpdateOrder o') e1)) o') as (u2 & e2 & Heq2 & Hok2 & Hords2 & Hlog2 & Hpr2 & Hp2).
    { done. }
    { cbn. rewrite Ei. apply lookup_delete. }
    { rewrite Ei. apply retrail_live; [done| |done]. apply calc_trailing_range, Hlv. }
    { cbn. by rewrite Hords, El. }
    { congruence. }
    rewrite Heq2. rewrite lim_evs_stop, app_nil_r in Hlog by apply Hnl. rewrite lim_evs_stop, app_nil_r in Hlog2 by (rewrite Et; apply Hnl). cbn in Hlog2. rewrite Hlog in Hlog2.
    eapply tells_calm; [by exists evs|]. exists [EUpdateOrder o']. split; [done|]. constructor; [|constructor]. apply calm_upd. right. rewrite Et. exact Hnl.
  - exists evs. destruct s; done.
Qed.
Lemma msteps_tells {F W} sid L c c' : rtc (mstep F W) c c' -> cfg_ok sid c -> tells L c -> tells L c'.
Proof.
  induction 1 as [c|c c1 c' Hst _ IH]; intros Hc Ht; [done|]. apply IH; [|by eapply mstep_tells]. destruct (mstep_ok sid _ _ Hst Hc). done.
Qed.
(** ** Calls *)
Lemma head_tells s sid b a c : inv s -> op_ok s a -> get_book sid s = Some b -> target s a = Some sid -> head (eng_of b s) a c -> cfg_ok sid c -> tells (st_log s) c.
Proof.
  intros Hinv Hop Hb Htg Hhd Hc. destruct (head_hstep s sid b a c Hinv Hb Htg Hhd) as [hevs Hh]. pose proof (inv_eng _ _ _ Hinv Hb) as He.
  inversion Hh as [o o' Hs Hv|i q0 o u e' q o' Q Ho Hid Hs Hq He' Hords Hlog|mit i p q o u e' o' evs0 Q Ho Hid Hs Hq He' Hords Hlog|i ni p q o u e' o' Q evs0 Ho Hid Hs Hq Hni Hty He' Hords Hlog|i o u e' Q evs0 Ho Hid Hs He' Hords Hlog|a0 i price q0 o u e' q o' Q evs0 Ha Ho Hid Hs Hq He' Hords Hlog]; subst.
  - exists [EAddOrder o']. split; [done|]. apply (announce_tells []); [apply whole_calm; constructor|by left|].
    destruct (validate_ok o Hv (proj1 Hop)) as (_ & Hlv & _). assert (o_leaves o' = o_leaves o) as -> ; [|done]. unfold o'. apply placed_same.
  - eexists. split; [exact Hlog|]. apply whole_calm. constructor; [|apply calm_lim]. apply calm_red. exact (live_not_fok _ _ (mo_live _ (proj1 He) _ _ Ho)).
  - exists evs0. split; [exact Hlog|]. pose proof (live_not_fok _ _ (mo_live _ (proj1 He) _ _ Ho)) as Hn.
    assert (Hn' : o_tif o' <> FOK \/ o_type o' <> LIMIT /\ o_type o' <> MARKET). { unfold o', modified. destruct mit; cbn; [destruct (_ <? _)|]; exact Hn. }
    assert (fok_run o' = false) as Hf. { unfold fok_run, is_fok, stop_type, is_limit, is_market. destruct Hn' as [Hn'|[N1 N2]]; [by rewrite bool_decide_eq_false_2|]. rewrite (bool_decide_eq_false_2 _ N1), (bool_decide_eq_false_2 _ N2). by rewrite andb_false_r. }
    cbn. rewrite Hf. unfold evs0. apply whole_app; [apply whole_calm, calm_lim|]. apply whole_calm. destruct (0 <? _); constructor; [by apply calm_upd|constructor].
  - exists evs0. split; [exact Hlog|]. assert (Hn : o_tif o <> FOK) by (destruct (lo_rest _ _ (mo_live _ (proj1 He) _ _ Ho) Hty) as [-> | ->]; discriminate).
    assert (fok_run o' = false) as Hf. { unfold fok_run, is_fok. by rewrite bool_decide_eq_false_2. }
    cbn. rewrite Hf. unfold evs0. apply whole_app; [apply whole_calm, calm_lim|]. apply whole_calm. constructor; [apply calm_del|]. constructor; [apply calm_add; by left|constructor].
  - exists evs0. split; [exact Hlog|]. cbn. unfold evs0. apply whole_app; [apply whole_calm, calm_lim|]. apply whole_calm. constructor; [apply calm_del|constructor].
  - exists evs0. split; [exact Hlog|]. cbn. apply whole_calm. unfold evs0. constructor; [apply calm_exec|]. apply Forall_app. split; [apply calm_lim|]. constructor; [|constructor]. apply calm_red. exact (live_not_fok _ _ (mo_live _ (proj1 He) _ _ Ho)).
Qed.
Lemma outcome_tells s a s' er : inv s -> op_ok s a -> outcome s a s' er -> exists evs, st_log s' = st_log s ++ evs /\ all_or_nothing evs.
Proof.
  intros Hinv Hop Ho. destruct Ho as [er _ _|sid b c e' er Hb Htg Hhd Hc Hfr Hend]; [exists []; rewrite app_nil_r; split; [done|apply whole_calm; constructor]|].
  pose proof (head_tells s sid b a c Hinv Hop Hb Htg Hhd Hc) as Ht.
  destruct Hend as [e1 e2 H1 H2 _ _ _ -> _|e1 o o1 Hs Hfl _ _ _ Hlv _ ->].
  - assert (Hc1 : cfg_ok sid (e1, None) /\ tells (st_log s) (e1, None)).
    { destruct H1 as [-> |(c1 & Hfl & _ & _ & Hst)]; [done|]. pose proof (fsteps_cfg sid _ _ Hfl Hc) as Hcc. split; [destruct (mstep_ok sid _ _ Hst Hcc); done|].
      eapply mstep_tells; [exact Hst|exact Hcc|]. eapply msteps_tells; [by apply fsteps_msteps|done|done]. }
    destruct Hc1 as [Hc1 Ht1]. exact (msteps_tells sid _ _ _ H2 Hc1 Ht1).
  - destruct (msteps_tells sid _ _ _ (fsteps_msteps _ _ Hfl) Hc Ht) as (evs & Hl & Hso). exists (evs ++ [EDeleteOrder o1]). cbn in Hl |- *. split; [by rewrite Hl, app_assoc|]. by apply done_tells.
Qed.
Lemma mrun_tells s s' : mrun s s' -> inv s -> exists evs, st_log s' = st_log s ++ evs /\ all_or_nothing evs.
Proof.
  induction 1 as [|s sid b e' s' Hb Hr He' _ _ IH]; intros Hinv; [exists []; rewrite app_nil_r; split; [done|apply whole_calm; constructor]|].
  pose proof (inv_eng _ _ _ Hinv Hb) as He. assert (Ht : tells (st_log s) (eng_of b s, None)) by (exists []; rewrite app_nil_r; split; [done|apply whole_calm; constructor]).
  destruct (msteps_tells sid _ _ _ Hr (conj He I) Ht) as (ev1 & Hl1 & Hw1).
  destruct IH as (ev2 & Hl2 & Hw2). { eapply put_inv; [done|done|done|]. by destruct (msteps_ok sid _ _ Hr (conj He I)). }
  exists (ev1 ++ ev2). cbn in *. split; [by rewrite Hl2, Hl1, app_assoc|by apply whole_app].
Qed.
(** Every Fill-Or-Kill order that is offered for matching in any call -- new limit and market orders and stop orders of all kinds that
    trigger, in any cascade -- is killed at once with nothing between, or filled whole. *)
Theorem C14_fate s a s' er evs : reach s -> op_ok s a -> call s a s' er evs -> all_or_nothing evs.
Proof.
  intros Hr Hop Hc. destruct (call_result _ _ _ _ _ Hr Hop Hc) as (Hinv & Hres & _). destruct Hc as [_ Hlog].
  assert (Hex : exists evs', st_log s' = st_log s ++ evs' /\ all_or_nothing evs').
  { destruct (registry_op a) eqn:Hreg.
    { destruct (result_registry _ _ _ _ Hres Hreg) as (_ & _ & evs' & Hl & _ & He). exists evs'. split; [done|]. apply whole_calm. destruct He as [->|(ev & -> & Hev)]; [constructor|].
      constructor; [|constructor]. intros x ([-> | ->] & _); done. }
    destruct Hres as [a s' er _ Ho|i o er _ _ _|i o s1 s' er Ho1 Hi Hop1 Ho2|s' Hm|s' Hm| | | | | | | | | |]; try done.
    - by eapply outcome_tells.
    - exists []. rewrite app_nil_r. split; [done|apply whole_calm; constructor].
    - destruct (outcome_tells s (DeleteOrder i) s1 OK Hinv) as (ev1 & Hl1 & Hw1); [apply Hop|done|]. destruct (outcome_tells s1 (AddOrder o) s' er Hi Hop1 Ho2) as (ev2 & Hl2 & Hw2).
      exists (ev1 ++ ev2). split; [by rewrite Hl2, Hl1, app_assoc|by apply whole_app].
    - by apply mrun_tells.
    - destruct (mrun_tells _ _ Hm (inv_matching true s Hinv)) as (ev & Hl & Hw). exists ev. done.
    - exists []. cbn. rewrite app_nil_r. split; [done|apply whole_calm; constructor]. }
  destruct Hex as (evs' & Hl & Hw). rewrite Hlog in Hl. apply app_inv_head in Hl. by subst.
Qed.
Print Assumptions C14_fate.

(** Two Fill-Or-Kill stop-limit orders triggered by one call: the first is filled whole, the second killed. *)
Definition fok_day : list op := setup ++ [EnableMatching; SL 1 100 5; SL 2 105 5; SL 8 110 5;
  AddOrder (StopLimitOrder 3 0 BUY 105 110 5 FOK MAX64); AddOrder (StopLimitOrder 4 0 BUY 105 110 50 FOK MAX64)].
Example C14_fate_example : let s := hist fok_day in let a := BL 7 100 5 in reach s /\ op_ok s a /\
  omap (fun ev => match ev with EUpdateOrder x => if bool_decide (o_tif x = FOK) then Some (o_id x, o_leaves x, bool_decide (o_type x = LIMIT)) else None | _ => None end) (news s a) = [(3, 5, true); (4, 50, true)] /\
  map (fun x => (o_id (fst (fst x)), snd (fst x), snd x)) (execs (news s a)) = [(1, 100, 5); (7, 100, 5); (2, 110, 5); (3, 110, 5)] /\
  is_Some (get_order 3 s) /\ get_order 4 (after s a) = None.
Proof.
  split; [apply hist_reach|]. split; [apply op_okb_ok; vm_compute; reflexivity|].
  split; [vm_compute; reflexivity|]. split; [vm_compute; reflexivity|]. split; [|vm_compute; reflexivity]. vm_compute. eexists. reflexivity.
Qed.
