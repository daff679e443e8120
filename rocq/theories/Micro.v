(** * Micro.v -- every API call as a sequence of micro actions with exact effect on index, book
    and notification log. *)
From Coq Require Import ZifyBool.
From stdpp Require Import fin_maps relations.
From Verif Require Import Types Book Engine Manager LevelFacts BookInv EngInv EngPrim Steps StepsOk Refine1 Refine2 Refine3 Refine4 Api StateInv Spec.

(** What may happen in a run: [md_aon], All-Or-None orders are present; [md_pair], two resting
    orders trade with each other; [md_off], matching is off; [md_stop], an order trades while it
    is of a stop type. *)
Record mode := Mode { md_aon : Prop; md_pair : Prop; md_off : Prop; md_stop : Prop }.
Definition wide (A : Prop) : mode := Mode A True True True.

(** Why a resting order [r] is executed for [q] at [p]. *)
Inductive xcond (A : mode) (e : eng) (f : option order) (r : order) (p q : Z) : Prop :=
| xc_trade o lvl : (* against the in-flight order *)
    f = Some o -> front e (opp (o_side o)) lvl r -> arb (opp (o_side o)) lvl (o_price o) = true ->
    is_fok o = false -> is_aon o = false -> 0 < o_leaves o -> q = Z.min (o_leaves r) (o_leaves o) ->
    (is_aon r = true -> q = o_leaves r) -> p = o_price r -> lvl = o_price r -> (o_type o = MARKET -> priced e o) -> xcond A e f r p q
| xc_chain o lvl : (* in the matching chain of the in-flight FOK/AON order *)
    f = Some o -> front e (opp (o_side o)) lvl r -> arb (opp (o_side o)) lvl (o_price o) = true ->
    is_fok o = true \/ is_aon o = true -> (is_aon r = true -> q = o_leaves r) ->
    p = o_price o -> lvl = o_price r -> xcond A e f r p q
| xc_pair : (* two crossed resting orders *)
    f = None -> is_aon r = false -> within_limit r p -> best (okind r) e = Some (okey r) -> md_pair A -> u64_range p -> xcond A e f r p q
| xc_pchain k lvl : (* in a matching chain of crossed resting orders: only with AON orders *)
    f = None -> front e k lvl r -> (is_aon r = true -> q = o_leaves r) -> md_aon A -> u64_range p -> xcond A e f r p q.

(** No All-Or-None order in the book of [sid] or in flight. *)
Definition no_aon_map (sid : Z) (m : gmap Z order) : Prop := forall i o, m !! i = Some o -> o_sym o = sid -> is_aon o = false.
Definition no_aon (sid : Z) (c : cfg) : Prop :=
  no_aon_map sid (e_ords (fst c)) /\ (forall o, snd c = Some o -> is_aon o = false).

Inductive ustep (sid : Z) (A : mode) : cfg -> list event -> cfg -> Prop :=
| us_exec e f r p q u e' :
    let Q := queue (e_bk e) (okind r) (okey r) in
    e_ords e !! o_id r = Some r -> o_sym r = sid -> o_type r = LIMIT -> 0 < q <= o_leaves r -> xcond A e f r p q ->
    eng_ok sid e' -> e_ords e' = reduced_map (e_ords e) (executed q r) ->
    e_log e' = e_log e ++ EExecute r p q :: red_ev (executed q r) :: lev_evs sid u ->
    bprices (e_bk e') = bprices (after_exec (o_side r) p (e_bk e)) ->
    prim (e_ords e') (okind r) (okey r) (if q =? o_leaves r then filter (fun j => j <> o_id r) Q else Q) (e_bk e) (e_bk e') u ->
    ustep sid A (e, f) (EExecute r p q :: red_ev (executed q r) :: lev_evs sid u) (e', f)
| us_execd e f r p u e' :
    let Q := queue (e_bk e) (okind r) (okey r) in
    e_ords e !! o_id r = Some r -> o_sym r = sid -> o_type r = LIMIT -> xcond A e f r p (o_leaves r) ->
    eng_ok sid e' -> e_ords e' = delete (o_id r) (e_ords e) ->
    e_log e' = e_log e ++ EExecute r p (o_leaves r) :: lev_evs sid u ++ [EDeleteOrder (exec_incr (o_leaves r) r)] ->
    bprices (e_bk e') = bprices (after_exec (o_side r) p (e_bk e)) ->
    prim (e_ords e') (okind r) (okey r) (filter (fun j => j <> o_id r) Q) (e_bk e) (e_bk e') u ->
    ustep sid A (e, f) (EExecute r p (o_leaves r) :: lev_evs sid u ++ [EDeleteOrder (exec_incr (o_leaves r) r)]) (e', f)
| us_note e o p q :
    0 < q <= o_leaves o -> within_limit o p -> (is_fok o = true \/ is_aon o = true -> q = o_leaves o /\ p = o_price o) ->
    (stop_type o = false \/ md_stop A) -> (forall x, ~ announced e x) -> u64_range p ->
    ustep sid A (e, Some o) [EExecute o p q] (exec_note o p q e, Some (executed q o))
| us_mprice e o p :
    o_type o = MARKET -> best (opp (o_side o)) e = Some p -> announced e o ->
    ustep sid A (e, Some o) [] (e, Some (set_price (market_price o p) o))
| us_trigger e o :
    stop_type o = true -> stop_reached o (e_bk e) -> 0 < o_leaves o ->
    ustep sid A (e, Some o) [EUpdateOrder (converted o)] (emit (EUpdateOrder (converted o)) e, Some (converted o))
| us_rest e o u e' :
    e_ords e !! o_id o = None -> 0 < o_leaves o -> o_type o <> MARKET -> (o_type o = LIMIT -> immediate o = false) ->
    eng_ok sid e' -> e_ords e' = <[o_id o := o]> (e_ords e) -> e_log e' = e_log e ++ lim_evs o sid u ->
    bprices (e_bk e') = bprices (e_bk e) ->
    prim (e_ords e') (okind o) (okey o) (queue (e_bk e) (okind o) (okey o) ++ [o_id o]) (e_bk e) (e_bk e') u ->
    (o_type o = LIMIT -> is_aon o = false -> md_off A \/ settled e o) ->
    ustep sid A (e, Some o) (lim_evs o sid u) (e', None)
| us_done e o : may_vanish e o -> ustep sid A (e, Some o) [EDeleteOrder o] (emit (EDeleteOrder o) e, None)
| us_take e o u e' :
    e_ords e !! o_id o = Some o -> o_sym o = sid -> stop_type o = true -> stop_reached o (e_bk e) ->
    eng_ok sid e' -> e_ords e' = delete (o_id o) (e_ords e) -> e_log e' = e_log e ++ [EUpdateOrder (converted o)] ->
    bprices (e_bk e') = bprices (e_bk e) ->
    prim (e_ords e') (okind o) (okey o) (filter (fun j => j <> o_id o) (queue (e_bk e) (okind o) (okey o))) (e_bk e) (e_bk e') u ->
    ustep sid A (e, None) [EUpdateOrder (converted o)] (e', Some (converted o))
| us_trail e o u1 b1 u2 e' :
    let o' := retrail (calc_trailing o (e_bk e)) o in
    e_ords e !! o_id o = Some o -> o_sym o = sid -> is_trailing o = true -> calc_trailing o (e_bk e) <> o_stop o ->
    eng_ok sid e' -> e_ords e' = <[o_id o := o']> (e_ords e) -> e_log e' = e_log e ++ [EUpdateOrder o'] ->
    bprices (e_bk e') = bprices (e_bk e) ->
    prim (delete (o_id o) (e_ords e)) (okind o) (okey o) (filter (fun j => j <> o_id o) (queue (e_bk e) (okind o) (okey o))) (e_bk e) b1 u1 ->
    prim (e_ords e') (okind o') (okey o') (queue b1 (okind o') (okey o') ++ [o_id o]) b1 (e_bk e') u2 ->
    ustep sid A (e, None) [EUpdateOrder o'] (e', None)
| us_tprice e s :
    ustep sid A (e, None) [] (set_bk (match s with
                             | BUY => set_trail_ask (trailing_market_ask (e_bk e)) (e_bk e)
                             | SELL => set_trail_bid (trailing_market_bid (e_bk e)) (e_bk e)
                             end) e, None)
| us_reset e : ustep sid A (e, None) [] (reset_m e, None).

Inductive usteps (sid : Z) (A : mode) : cfg -> list event -> cfg -> Prop :=
| uss_nil c : usteps sid A c [] c
| uss_cons c evs c1 evs' c' : ustep sid A c evs c1 -> usteps sid A c1 evs' c' -> usteps sid A c (evs ++ evs') c'.
Lemma usteps_one sid A c evs c' : ustep sid A c evs c' -> usteps sid A c evs c'.
Proof. intros H. rewrite <- (app_nil_r evs). eapply uss_cons; [done|constructor]. Qed.
Lemma usteps_app sid A c a c1 b c' : usteps sid A c a c1 -> usteps sid A c1 b c' -> usteps sid A c (a ++ b) c'.
Proof. induction 1 as [|c evs c1 evs' c2 Hs _ IH]; intros H2; [done|]. rewrite <- app_assoc. eapply uss_cons; eauto. Qed.

Lemma lim_evs_limit o sid u : o_type o = LIMIT -> lim_evs o sid u = lev_evs sid u.
Proof. intros H. unfold lim_evs, is_limit. by rewrite bool_decide_eq_true_2. Qed.
Lemma lim_evs_stop o sid u : o_type o <> LIMIT -> lim_evs o sid u = [].
Proof. intros H. unfold lim_evs, is_limit. by rewrite bool_decide_eq_false_2. Qed.
Lemma arb_within s lvl o : o_side o = s -> arb (opp s) lvl (o_price o) = true -> within_limit o lvl.
Proof. unfold within_limit, arb, opp. intros ->. destruct s; cbn; lia. Qed.

(** ** Elementary actions are sequences of micro actions *)
Lemma ex_red_micro sid A e f r p q e1 : eng_ok sid e -> e_ords e !! o_id r = Some r -> o_sym r = sid -> o_type r = LIMIT ->
  0 < q <= o_leaves r -> xcond A e f r p q -> exec_reduce r p q e = Ok e1 ->
  eng_ok sid e1 /\ exists evs, ustep sid A (e, f) evs (e1, f).
Proof.
  intros He Hr Hs Ht Hq Hx Hex. destruct (exec_reduce_ok sid e r p q He Hr Hs Hq) as (u & e1' & Heq & Hok & Hords & Hlog & Hpr & Hp).
  rewrite Hex in Heq. injection Heq as <-. rewrite (lim_evs_limit r) in Hlog by done. split; [done|].
  eexists. eapply us_exec; try done.
Qed.
Lemma ex_del_micro sid A e f r p e1 : eng_ok sid e -> e_ords e !! o_id r = Some r -> o_sym r = sid -> o_type r = LIMIT ->
  xcond A e f r p (o_leaves r) -> exec_delete r p (o_leaves r) e = Ok e1 ->
  eng_ok sid e1 /\ exists evs, ustep sid A (e, f) evs (e1, f).
Proof.
  intros He Hr Hs Ht Hx Hex. destruct (exec_delete_ok sid e r p (o_leaves r) He Hr Hs) as (u & e1' & Heq & Hok & Hords & Hlog & Hpr & Hp).
  rewrite Hex in Heq. injection Heq as <-. rewrite (lim_evs_limit r) in Hlog by done. split; [done|].
  eexists. eapply us_execd; try done.
Qed.
Lemma front_limit sid e k lvl r : eng_ok sid e -> (k = KBid \/ k = KAsk) -> front e k lvl r ->
  e_ords e !! o_id r = Some r /\ o_sym r = sid /\ o_type r = LIMIT /\ o_price r = lvl /\ 0 < o_leaves r.
Proof.
  intros He Hk Hf. destruct (front_facts sid e k lvl r He Hf) as (Hs & Hkr & Hp & Hl & Hr).
  destruct Hk as [-> | ->].
  - destruct (okind_bid_ask r SELL (lo_type _ _ Hl) Hkr) as (? & ? & _). repeat split; try done; [congruence|apply Hl].
  - destruct (okind_bid_ask r BUY (lo_type _ _ Hl) Hkr) as (? & ? & _). repeat split; try done; [congruence|apply Hl].
Qed.
Lemma opp_bid_ask s : opp s = KBid \/ opp s = KAsk.
Proof. destruct s; auto. Qed.

Lemma cx_chain_micro sid A o : is_fok o = true \/ is_aon o = true -> forall c c',
  rtc (cxstep true (opp (o_side o)) (o_price o)) c c' -> eng_ok sid (snd c) -> 0 <= fst c < TWO64 ->
  exists evs, usteps sid A (snd c, Some o) evs (snd c', Some o).
Proof.
  intros Hfa. induction 1 as [c|[v e] [v1 e1] c' Hst _ IH]; intros He Hv; [eexists; constructor|]. cbn in *.
  inversion Hst as [? ? p r ? Hv0 Hf Hra Ht Hex|? ? p r ? Hv0 Hf Hra Ht Hex]; subst;
  destruct (front_limit sid e _ p r He (opp_bid_ask _) Hf) as (Hr & Hs & Hty & Hp & Hlv); specialize (Ht eq_refl).
  - destruct (ex_del_micro sid A e (Some o) r (o_price o) e1) as [He1 [evs Hu]]; try done.
    { eapply xc_chain; try done. apply Ht. }
    destruct (IH He1) as [evs' Hus]; [apply u64_bounds|]. eexists. by eapply uss_cons.
  - destruct (ex_red_micro sid A e (Some o) r (o_price o) (Z.min (o_leaves r) v) e1) as [He1 [evs Hu]]; try done. { lia. }
    { eapply xc_chain; try done. intros; congruence. }
    destruct (IH He1) as [evs' Hus]; [apply u64_bounds|]. eexists. by eapply uss_cons.
Qed.
Lemma cx_pchain_micro sid (A : mode) k price : (k = KBid \/ k = KAsk) -> md_aon A -> u64_range price -> forall c c',
  rtc (cxstep false k price) c c' -> eng_ok sid (snd c) -> 0 <= fst c < TWO64 ->
  exists evs, usteps sid A (snd c, None) evs (snd c', None).
Proof.
  intros Hk Ha Hpr. induction 1 as [c|[v e] [v1 e1] c' Hst _ IH]; intros He Hv; [eexists; constructor|]. cbn in *.
  inversion Hst as [? ? p r ? Hv0 Hf Hra Ht Hex|? ? p r ? Hv0 Hf Hra Ht Hex]; subst;
  destruct (front_limit sid e _ p r He Hk Hf) as (Hr & Hs & Hty & Hp & Hlv).
  - destruct (ex_del_micro sid A e None r price e1) as [He1 [evs Hu]]; try done.
    { by eapply xc_pchain. }
    destruct (IH He1) as [evs' Hus]; [apply u64_bounds|]. eexists. by eapply uss_cons.
  - destruct (ex_red_micro sid A e None r price (Z.min (o_leaves r) v) e1) as [He1 [evs Hu]]; try done. { lia. }
    { eapply xc_pchain; try done. intros; congruence. }
    destruct (IH He1) as [evs' Hus]; [apply u64_bounds|]. eexists. by eapply uss_cons.
Qed.

Lemma ex_log_reduce sid e r p q e1 : eng_ok sid e -> e_ords e !! o_id r = Some r -> o_sym r = sid -> o_type r = LIMIT ->
  0 < q <= o_leaves r -> exec_reduce r p q e = Ok e1 -> forall x, ~ announced e1 x.
Proof.
  intros He Hr Hs Ht Hq Hex. destruct (exec_reduce_ok sid e r p q He Hr Hs Hq) as (u & e1' & Heq & Hok & Hords & Hlog & Hpr & Hp).
  rewrite Hex in Heq. injection Heq as <-. rewrite (lim_evs_limit r) in Hlog by done. unfold lev_evs in Hlog.
  intros x [l [H|H]]; rewrite Hlog in H; change (EExecute r p q :: ?y :: [?a; ?b]) with ([EExecute r p q; y; a] ++ [b]) in H;
    rewrite app_assoc in H; apply app_inj_tail in H as [_ H]; done.
Qed.
Lemma ex_log_delete sid e r p e1 : eng_ok sid e -> e_ords e !! o_id r = Some r -> o_sym r = sid -> o_type r = LIMIT ->
  exec_delete r p (o_leaves r) e = Ok e1 -> forall x, ~ announced e1 x.
Proof.
  intros He Hr Hs Ht Hex. destruct (exec_delete_ok sid e r p (o_leaves r) He Hr Hs) as (u & e1' & Heq & Hok & Hords & Hlog & Hpr & Hp).
  rewrite Hex in Heq. injection Heq as <-.
  intros x [l [H|H]]; rewrite Hlog, app_comm_cons, app_assoc in H; apply app_inj_tail in H as [_ H]; done.
Qed.
Lemma cx_unannounced sid t k price : forall c c',
  rtc (cxstep t k price) c c' -> eng_ok sid (snd c) -> (k = KBid \/ k = KAsk) -> 0 < fst c < TWO64 -> fst c' = 0 -> forall x, ~ announced (snd c') x.
Proof.
  assert (H1 : forall c c', cxstep t k price c c' -> eng_ok sid (snd c) -> (k = KBid \/ k = KAsk) -> 0 < fst c < TWO64 ->
    eng_ok sid (snd c') /\ (forall x, ~ announced (snd c') x) /\ 0 <= fst c' < TWO64).
  { intros c c' Hst He Hk Hv. inversion Hst as [v e p r e1 Hv0 Hf Hra Ht Hex|v e p r e1 Hv0 Hf Hra Ht Hex]; subst; cbn in *;
    destruct (front_limit sid e _ p r He Hk Hf) as (Hr & Hs & Hty & Hp & Hlv).
    - destruct (exec_delete_ok sid e r price (o_leaves r) He Hr Hs) as (u & e1' & Heq & Hok & _). rewrite Hex in Heq. injection Heq as <-.
      split; [done|]. split; [by eapply (ex_log_delete sid e r price)|apply u64_bounds].
    - destruct (exec_reduce_ok sid e r price (Z.min (o_leaves r) v) He Hr Hs) as (u & e1' & Heq & Hok & _); [lia|]. rewrite Hex in Heq. injection Heq as <-.
      split; [done|]. split; [|apply u64_bounds]. apply (ex_log_reduce sid e r price (Z.min (o_leaves r) v) e1); try done. lia. }
  intros c c' H. induction H as [c|c c1 c' Hst Hr IH]; intros He Hk Hv H0; [lia|].
  destruct (H1 _ _ Hst He Hk Hv) as (He1 & Hn & Hb). destruct (decide (fst c1 = 0)) as [E|E].
  - inversion Hr as [|? c2 ? Hst2]; subst; [exact Hn|]. exfalso. inversion Hst2; subst; cbn in *; lia.
  - apply IH; [done|done|lia|done].
Qed.

Definition calm (sid : Z) (c : cfg) : Prop := no_aon sid c /\ uncrossed (e_bk (fst c)).
Lemma mstep_micro sid (A : mode) c c' : mstep (md_off A) (md_stop A) c c' -> cfg_ok sid c -> (md_aon A \/ no_aon sid c) ->
  (md_pair A \/ calm sid c) -> exists evs, usteps sid A c evs c'.
Proof.
  intros Hst [He Hf] HA HP.
  inversion Hst as [e o e' o' Ht Hstop Hprc|e o p Hty Hb Hann|e o Hty Hre|e o Hfr Hlv Hty Htif Hset|e o Hmv
    |e b a bp ap x r e' Hbb Hba Hcr Hqb Hb Hqa Ha Hnb Hna Hxr Hle (e1 & Hx & Hr)
    |e b a bp ap x k1 k2 v v1 e1 v2 e' Hbb Hba Hcr Hqb Hb Hqa Ha Hax Hv Hk Hc1 Hc2
    |e o e1 Ho Hs Hty Hre Hdel|e o e1 o' Ho Hs Htr Hne Hdel|e s]; subst; cbn in He, Hf.
  - inversion Ht as [? ? p r e1 q Hfr Harb Hfok Haon Hlv Hra Hex|? ? e1 Hfa Hlv Hch]; subst.
    + destruct (front_limit sid e _ p r He (opp_bid_ask _) Hfr) as (Hr & Hs & Hty & Hp & Hrl).
      destruct (ex_red_micro sid A e (Some o) r p q e1) as [He1 [evs Hu]]; try done. { unfold q. lia. }
      { eapply xc_trade; try done. intros Ha. specialize (Hra Ha). unfold q. lia. }
      eexists. eapply uss_cons; [exact Hu|]. eapply usteps_one. apply us_note.
      * unfold q. lia. * by eapply arb_within. * intros [?|?]; congruence. * done.
      * eapply (ex_log_reduce sid e r p q e1); try done. unfold q. lia.
      * rewrite <- Hp. apply (mo_live _ (proj1 He) _ _ Hr).
    + destruct (cx_chain_micro sid A o Hfa _ _ Hch He) as [evs Hus].
      { cbn. destruct Hf. pose proof (total_nonneg (e_ords e)) as Hn.
        assert (0 <= total (e_ords e)); [|lia]. apply Hn. intros i x Hx. destruct (mo_live _ (proj1 He) _ _ Hx). lia. }
      cbn in Hus. eexists. eapply usteps_app; [exact Hus|]. eapply usteps_one. apply us_note.
      * lia. * unfold within_limit. destruct (o_side o); lia. * done. * done.
      * eapply (cx_unannounced sid _ _ _ _ _ Hch He (opp_bid_ask _)); cbn; [|done]. split; [lia|]. destruct Hf. pose proof (total_nonneg (e_ords e)) as Hn.
        assert (0 <= total (e_ords e)); [|lia]. apply Hn. intros i x Hx. destruct (mo_live _ (proj1 He) _ _ Hx). lia.
      * apply Hf.
  - eexists. eapply usteps_one. by eapply us_mprice.
  - eexists. eapply usteps_one. by eapply us_trigger.
  - pose proof (fly_live _ _ _ Hf Hlv Hty Htif) as Hlive.
    destruct (eng_add_ok sid e o He Hfr Hlive) as (u & e' & Heq & Hok & Hords & Hlog & Hpr & Hp); [apply Hf|apply Hf|].
    rewrite Heq. eexists. eapply usteps_one. by eapply us_rest.
  - eexists. eapply usteps_one. by eapply us_done.
  - assert (HP' : md_pair A). { destruct HP as [HP|[_ Hun]]; [done|]. cbn in Hun. specialize (Hun bp ap Hbb Hba). lia. }
    assert (Hxe : exists kx px, o_id x ∈ queue (e_bk e) kx px) by (destruct Hxr as [[-> ->]|[-> ->]]; eauto).
    assert (Hre : exists kx px, o_id r ∈ queue (e_bk e) kx px) by (destruct Hxr as [[-> ->]|[-> ->]]; eauto).
    assert (Hxm : e_ords e !! o_id x = Some x) by (destruct Hxr as [[-> ->]|[-> ->]]; done).
    assert (Hrm : e_ords e !! o_id r = Some r) by (destruct Hxr as [[-> ->]|[-> ->]]; done).
    destruct Hxe as (kx & px & Hqx), Hre as (kr & pr & Hqr).
    destruct (queue_facts _ _ _ _ _ He Hqx) as (x' & Hx' & _ & Hsx & _). assert (x' = x) by congruence. subst x'.
    destruct (queue_facts _ _ _ _ _ He Hqr) as (r' & Hr' & _ & Hsr & _). assert (r' = r) by congruence. subst r'.
    destruct (queue_facts _ _ _ _ _ He Hqb) as (b' & Hb' & _ & _ & Hkb & Hpb & Hlb). assert (b' = b) by congruence. subst b'.
    destruct (queue_facts _ _ _ _ _ He Hqa) as (a' & Ha' & _ & _ & Hka & Hpa & Hla). assert (a' = a) by congruence. subst a'.
    destruct (okind_bid_ask b SELL (lo_type _ _ Hlb) Hkb) as (Htb & Hob & Hsb).
    destruct (okind_bid_ask a BUY (lo_type _ _ Hla) Hka) as (Hta & Hoa & Hsa).
    assert (Hbuy : o_side b = BUY) by (destruct (o_side b); done).
    assert (Hsell : o_side a = SELL) by (destruct (o_side a); done).
    assert (Hne : o_id r <> o_id x). { destruct Hxr as [[-> ->]|[-> ->]]; intros E; congruence. }
    assert (Hwx : within_limit x (o_price x)) by (unfold within_limit; destruct (o_side x); lia).
    assert (Hwr : within_limit r (o_price x)).
    { unfold within_limit. destruct Hxr as [[-> ->]|[-> ->]]; rewrite ?Hbuy, ?Hsell; lia. }
    assert (Hpx : u64_range (o_price x)) by (apply (mo_live _ (proj1 He) _ _ Hxm)).
    assert (Htx : o_type x = LIMIT) by (destruct Hxr as [[-> ->]|[-> ->]]; done).
    assert (Htr : o_type r = LIMIT) by (destruct Hxr as [[-> ->]|[-> ->]]; done).
    assert (Hnx : is_aon x = false) by (destruct Hxr as [[-> ->]|[-> ->]]; done).
    assert (Hnr : is_aon r = false) by (destruct Hxr as [[-> ->]|[-> ->]]; done).
    destruct (exec_delete_ok sid e x (o_price x) (o_leaves x) He Hxm Hsx) as (u & e1' & Heq & Hok & Hords & _ & _ & Hprim).
    rewrite Hx in Heq. injection Heq as <-.
    assert (Hrm1 : e_ords e1 !! o_id r = Some r). { rewrite Hords, lookup_delete_ne; done. }
    pose proof (lo_leaves _ _ (mo_live _ (proj1 He) _ _ Hxm)).
    destruct (ex_del_micro sid A e None x (o_price x) e1) as [_ [evs1 Hu1]]; try done.
    { apply xc_pair; try done. destruct Hxr as [[-> ->]|[-> ->]]; congruence. }
    destruct (ex_red_micro sid A e1 None r (o_price x) (o_leaves x) e') as [_ [evs2 Hu2]]; try done.
    { apply xc_pair; try done. unfold best. rewrite (pr_sides _ _ _ _ _ _ _ Hprim).
      - destruct Hxr as [[-> ->]|[-> ->]]; unfold best in *; congruence.
      - destruct Hxr as [[-> ->]|[-> ->]]; congruence. }
    eexists. eapply uss_cons; [exact Hu1|]. by apply usteps_one.
  - destruct (cxsteps_ok _ _ _ _ _ sid Hc1 He) as (He1 & Hsh1 & _); [cbn; lia|]. cbn in He1.
    assert (HA' : md_aon A).
    { destruct HA as [HA|[Hno _]]; [done|]. exfalso. cbn in Hno.
      destruct (queue_facts _ _ _ _ _ He Hqb) as (b' & Hb' & _ & Hsb & _). assert (b' = b) by congruence. subst b'.
      destruct (queue_facts _ _ _ _ _ He Hqa) as (a' & Ha' & _ & Hsa & _). assert (a' = a) by congruence. subst a'.
      destruct Hk as [(-> & _)|(-> & _)]; [specialize (Hno _ _ Hb Hsb)|specialize (Hno _ _ Ha Hsa)]; congruence. }
    assert (Hpx : u64_range (o_price x)) by (destruct Hk as [(-> & _)|(-> & _)]; [apply (mo_live _ (proj1 He) _ _ Hb)|apply (mo_live _ (proj1 He) _ _ Ha)]).
    destruct (cx_pchain_micro sid A k1 (o_price x)) with (c := (v, e)) (c' := (v1, e1)) as [evs1 Hu1]; try done.
    { destruct Hk as [(-> & -> & ->)|(-> & -> & ->)]; auto. } { cbn; lia. }
    destruct (cx_pchain_micro sid A k2 (o_price x)) with (c := (v, e1)) (c' := (v2, e')) as [evs2 Hu2]; try done.
    { destruct Hk as [(-> & -> & ->)|(-> & -> & ->)]; auto. } { cbn; lia. }
    eexists. by eapply usteps_app.
  - assert (Hsid : sid_of (e_bk e) = sid) by (eapply bk_id, He). rewrite Hsid in Hs.
    destruct (drop_eng_ok sid e o e1 He Ho Hs Hdel) as [He1 Hsh].
    destruct (eng_del_ok sid e o He Ho Hs) as (u & e1' & Heq' & Hords & Hok & Hlog & Hpr & Hp).
    rewrite Hdel in Heq'. injection Heq' as <-.
    assert (Hnl : o_type o <> LIMIT). { unfold stop_type, is_limit in Hty. case_bool_decide; done. }
    rewrite lim_evs_stop, app_nil_r in Hlog by done.
    eexists. eapply usteps_one. eapply us_take; try done.
    + cbn. by rewrite Hords. + cbn. by rewrite Hlog. + cbn. rewrite Hords. exact Hp.
  - assert (Hsid : sid_of (e_bk e) = sid) by (eapply bk_id, He). rewrite Hsid in Hs.
    destruct (drop_eng_ok sid e o e1 He Ho Hs Hdel) as [He1 Hsh].
    destruct (eng_del_ok sid e o He Ho Hs) as (u & e1' & Heq' & Hords & Hok & Hlog & Hpr & Hp).
    rewrite Hdel in Heq'. injection Heq' as <-.
    pose proof (mo_live _ (proj1 He) _ _ Ho) as Hl.
    destruct (retrail_place (calc_trailing o (e_bk e)) o Htr) as (Ei & Es & Et & Esd & Est & El).
    fold o' in Ei, Es, Et, Esd, Est, El.
    assert (Hput : put o' (emit (EUpdateOrder o') e1) = put o' (drop_id (o_id o) (emit (EUpdateOrder o') e1))).
    { unfold put, drop_id, set_ords; cbn. f_equal. rewrite Ei. by rewrite insert_delete_insert. }
    rewrite Hput.
    assert (Htot : total (delete (o_id o) (e_ords e)) + o_leaves o < TWO64).
    { pose proof (mo_total _ (proj1 He)) as Ht. rewrite (total_delete _ _ _ Ho) in Ht. lia. }
    assert (Hnl : o_type o <> LIMIT). { unfold is_trailing, is_trailing_stop, is_trailing_stop_limit in Htr. repeat case_bool_decide; try congruence; done. }
    destruct (eng_add_ok sid (drop_id (o_id o) (emit (EUpdateOrder o') e1)) o') as (u2 & e2 & Heq2 & Hok2 & Hords2 & Hlog2 & Hpr2 & Hp2).
    { done. }
    { cbn. rewrite Ei. apply lookup_delete. }
    { rewrite Ei. apply retrail_live; [done| |done]. apply calc_trailing_range, Hl. }
    { cbn. by rewrite Hords, El. }
    { congruence. }
    rewrite Heq2. cbn in Hords2. rewrite Ei, insert_delete_insert, Hords in Hords2.
    rewrite lim_evs_stop, app_nil_r in Hlog by done. rewrite lim_evs_stop, app_nil_r in Hlog2 by congruence. cbn in Hlog2. rewrite Hlog in Hlog2.
    eexists. eapply usteps_one. eapply us_trail; try done.
    + rewrite Hpr2. cbn. done.
    + cbn in Hp2. rewrite Ei in Hp2. exact Hp2.
  - eexists. eapply usteps_one. eapply us_tprice.
Qed.
(** ** Micro actions keep configurations well formed; the log grows by the listed events. *)
Lemma fly_same sid m m' o o' : fly_ok sid m o -> total m' <= total m -> o_id o' = o_id o -> o_sym o' = o_sym o -> o_type o' = o_type o ->
  0 <= o_leaves o' <= o_leaves o -> o_maxvis o' = o_maxvis o -> u64_range (o_exec o') -> u64_range (o_price o') -> u64_range (o_stop o') ->
  o_slip o' = o_slip o -> o_tdist o' = o_tdist o -> o_tstep o' = o_tstep o -> fly_ok sid m' o'.
Proof.
  intros [] ? Ei Es Et ? Em ? ? ? Esl Ed Est. constructor; try congruence; try done; try lia.
  unfold trailing_ok in *. by rewrite Et, Ed, Est.
Qed.
Lemma ustep_ok sid A c evs c' : ustep sid A c evs c' -> cfg_ok sid c -> cfg_ok sid c' /\ e_log (fst c') = e_log (fst c) ++ evs.
Proof.
  intros Hu [He Hf]. inversion Hu as [e f r p q u e' Q Hr Hs Ht Hq Hx He' Hords Hlog Hpr Hp
    |e f r p u e' Q Hr Hs Ht Hx He' Hords Hlog Hpr Hp|e o p q Hq Hw Hfa|e o p Hty Hb|e o Hty Hre
    |e o u e' Hfr Hlv Hty Htif He' Hords Hlog Hpr Hp|e o Hmv|e o u e' Ho Hs Hty Hre He' Hords Hlog Hpr Hp
    |e o u1 b1 u2 e' o' Ho Hs Htr Hne He' Hords Hlog Hpr Hp1 Hp2|e s|e]; subst; cbn in *.
  - split; [|done]. split; [done|]. destruct f as [o|]; [|done]. cbn. eapply fly_shrink; [done|].
    rewrite Hords. rewrite (total_reduced _ r) by done. cbn. lia.
  - split; [|done]. split; [done|]. destruct f as [o|]; [|done]. cbn. eapply fly_shrink; [done|].
    rewrite Hords. rewrite (total_delete (e_ords e) _ _ Hr). pose proof (lo_leaves _ _ (mo_live _ (proj1 He) _ _ Hr)). lia.
  - split; [|done]. split; [by apply exec_note_ok|]. cbn. eapply fly_executed; [done|done|done].
  - rewrite app_nil_r. split; [|done]. split; [done|]. cbn.
    pose proof (best_range _ _ _ _ He Hb). destruct Hf. constructor; try done. by apply market_price_range.
  - split; [|done]. split; [by apply emit_ok|]. cbn. by apply converted_fly.
  - split; [|done]. by split.
  - split; [|done]. split; [by apply emit_ok|done].
  - split; [|done]. split; [done|]. cbn. apply converted_fly. apply live_fly; [by apply (mo_live _ (proj1 He))|done|].
    rewrite Hords. pose proof (mo_total _ (proj1 He)) as Ht. rewrite (total_delete _ _ _ Ho) in Ht. lia.
  - split; [|done]. by split.
  - rewrite app_nil_r. split; [|done]. split; [|done]. apply set_bk_ok; [|done]. destruct s; apply same_sides_prices.
  - rewrite app_nil_r. split; [|done]. split; [|done]. by apply reset_ok.
Qed.
Lemma usteps_ok sid A c evs c' : usteps sid A c evs c' -> cfg_ok sid c -> cfg_ok sid c' /\ e_log (fst c') = e_log (fst c) ++ evs.
Proof.
  induction 1 as [|c evs c1 evs' c' Hu _ IH]; intros Hc; [by rewrite app_nil_r|].
  destruct (ustep_ok sid A _ _ _ Hu Hc) as [Hc1 Hl1]. destruct (IH Hc1) as [Hc' Hl']. split; [done|].
  rewrite Hl', Hl1. by rewrite app_assoc.
Qed.

(** Induction principle over micro actions from well-formed configurations. *)
Lemma usteps_ind_ok sid A (R : cfg -> list event -> cfg -> Prop) :
  (forall c, R c [] c) ->
  (forall c evs c1 evs' c', cfg_ok sid c -> ustep sid A c evs c1 -> cfg_ok sid c1 -> R c1 evs' c' -> R c (evs ++ evs') c') ->
  forall c evs c', usteps sid A c evs c' -> cfg_ok sid c -> R c evs c'.
Proof.
  intros Hn Hc c evs c' H. induction H as [|c evs c1 evs' c' Hu _ IH]; intros Hok; [done|].
  destruct (ustep_ok sid A _ _ _ Hu Hok) as [Hok1 _]. eapply Hc; eauto.
Qed.

(** Invariants of configurations and properties of events, step by step. *)
Lemma usteps_forall sid A (I : cfg -> Prop) (E : event -> Prop) :
  (forall c evs c', cfg_ok sid c -> I c -> ustep sid A c evs c' -> I c' /\ Forall E evs) ->
  forall c evs c', usteps sid A c evs c' -> cfg_ok sid c -> I c -> I c' /\ Forall E evs.
Proof.
  intros Hst. apply (usteps_ind_ok sid A (fun c evs c' => I c -> I c' /\ Forall E evs)); [done|].
  intros c evs c1 evs' c' Hc Hu _ IH HI. destruct (Hst _ _ _ Hc HI Hu) as [HI1 HE1]. destruct (IH HI1) as [HI' HE'].
  split; [done|]. by apply Forall_app.
Qed.

(** Order predicates that no engine action breaks. *)
Record closed (Q : order -> Prop) : Prop := {
  cl_red : forall o q, Q o -> 0 < q <= o_leaves o -> Q (set_leaves (o_leaves o - q) o);
  cl_exec : forall o q, Q o -> 0 < q <= o_leaves o -> u64_range (o_exec o) -> Q (executed q o);
  cl_price : forall o p, Q o -> o_type o = MARKET -> Q (set_price p o);
  cl_conv : forall o, Q o -> stop_type o = true -> Q (converted o);
  cl_trail : forall o b, Q o -> is_trailing o = true -> Q (retrail (calc_trailing o b) o);
}.
Definition all_q (sid : Z) (Q : order -> Prop) (c : cfg) : Prop :=
  (forall i o, e_ords (fst c) !! i = Some o -> o_sym o = sid -> Q o) /\ (forall o, snd c = Some o -> Q o).
(** order values reported by a notification (a deleted order may be reported in a mixed state) *)
Definition ev_q (Q : order -> Prop) (ev : event) : Prop :=
  match ev with EExecute o _ _ | EAddOrder o | EUpdateOrder o => Q o | _ => True end.
Lemma lev_evs_q Q sid u : Forall (ev_q Q) (lev_evs sid u).
Proof. unfold lev_evs, lev_ev. destruct (u_type u); repeat constructor. Qed.
Lemma lim_evs_q Q o sid u : Forall (ev_q Q) (lim_evs o sid u).
Proof. unfold lim_evs. destruct (is_limit o); [apply lev_evs_q|constructor]. Qed.
Lemma red_ev_q (Q : order -> Prop) o : Q o -> ev_q Q (red_ev o).
Proof. intros H. unfold red_ev. by destruct (_ =? 0). Qed.

Lemma ustep_q sid A Q c evs c' : closed Q -> cfg_ok sid c -> all_q sid Q c -> ustep sid A c evs c' ->
  all_q sid Q c' /\ Forall (ev_q Q) evs.
Proof.
  intros HQ [He Hf] [Hm Hq] Hu. inversion Hu as [e f r p q u e' Q' Hr Hs Ht Hq0 Hx He' Hords Hlog Hpr Hp
    |e f r p u e' Q' Hr Hs Ht Hx He' Hords Hlog Hpr Hp|e o p q Hq0 Hw Hfa|e o p Hty Hb|e o Hty Hre
    |e o u e' Hfr Hlv Hty Htif He' Hords Hlog Hpr Hp|e o Hmv|e o u e' Ho Hs Hty Hre He' Hords Hlog Hpr Hp
    |e o u1 b1 u2 e' o' Ho Hs Htr Hne He' Hords Hlog Hpr Hp1 Hp2|e s|e]; subst; cbn in *; unfold all_q; cbn.
  - pose proof (mo_live _ (proj1 He) _ _ Hr) as Hl. assert (HQr : Q r) by (by eapply Hm).
    assert (HQe : Q (executed q r)) by (apply (cl_exec _ HQ); [done|done|apply Hl]).
    split.
    + split; [|done]. intros i x Hi Hsx. rewrite Hords in Hi. unfold reduced_map in Hi. cbn in Hi.
      destruct (_ =? 0).
      * apply lookup_delete_Some in Hi as [_ Hi]. by eapply Hm.
      * apply lookup_insert_Some in Hi as [[_ <-]|[_ Hi]]; [done|]. by eapply Hm.
    + constructor; [done|]. constructor; [by apply red_ev_q|apply lev_evs_q].
  - assert (HQr : Q r) by (by eapply Hm). split.
    + split; [|done]. intros i x Hi Hsx. rewrite Hords in Hi. apply lookup_delete_Some in Hi as [_ Hi]. by eapply Hm.
    + constructor; [done|]. match goal with |- Forall _ [?a; ?b; ?d] => change [a; b; d] with ([a; b] ++ [d]) end. apply Forall_app. split; [apply (lev_evs_q Q (o_sym r) u)|by repeat constructor].
  - split; [|by repeat constructor; apply Hq]. split; [done|]. intros x [= <-]. apply (cl_exec _ HQ); [by apply Hq|done|apply Hf].
  - split; [|constructor]. split; [done|]. intros x [= <-]. apply (cl_price _ HQ); [by apply Hq|done].
  - assert (Q (converted o)) by (apply (cl_conv _ HQ); [by apply Hq|done]).
    split; [|by repeat constructor]. split; [done|]. by intros x [= <-].
  - split; [|apply lim_evs_q]. split; [|done]. intros i x Hi Hsx. rewrite Hords in Hi.
    apply lookup_insert_Some in Hi as [[_ <-]|[_ Hi]]; [by apply Hq|by eapply Hm].
  - split; [|by repeat constructor]. done.
  - assert (Q (converted o)) by (apply (cl_conv _ HQ); [by eapply Hm|done]).
    split; [|by repeat constructor]. split; [|by intros x [= <-]].
    intros i x Hi Hsx. rewrite Hords in Hi. apply lookup_delete_Some in Hi as [_ Hi]. by eapply Hm.
  - assert (Q o') by (apply (cl_trail _ HQ); [by eapply Hm|done]).
    split; [|by repeat constructor]. split; [|done].
    intros i x Hi Hsx. rewrite Hords in Hi. apply lookup_insert_Some in Hi as [[_ <-]|[_ Hi]]; [done|by eapply Hm].
  - split; [|constructor]. done.
  - split; [|constructor]. done.
Qed.
Lemma usteps_q sid A Q c evs c' : closed Q -> usteps sid A c evs c' -> cfg_ok sid c -> all_q sid Q c ->
  all_q sid Q c' /\ Forall (ev_q Q) evs.
Proof. intros HQ. apply usteps_forall. intros. by eapply ustep_q. Qed.

Lemma closed_no_aon : closed (fun o => is_aon o = false).
Proof.
  constructor; unfold is_aon; intros o; cbn; intros; try done.
  - unfold converted, to_market, to_limit. destruct (o_type o); cbn; try done; destruct (is_fok _); done.
  - unfold retrail. by destruct (o_type o).
Qed.
Lemma no_aon_q sid c : no_aon sid c <-> all_q sid (fun o => is_aon o = false) c.
Proof. done. Qed.

(** ** Queues that only shrink keep a book uncrossed *)
Definition qsub (b b' : book) : Prop := forall k p, queue b' k p <> [] -> queue b k p <> [].
Lemma qsub_refl b : qsub b b.
Proof. by intros k p. Qed.
Lemma qsub_trans a b c : qsub a b -> qsub b c -> qsub a c.
Proof. intros H1 H2 k p H. apply H1, H2, H. Qed.
Lemma qsub_same b b' : same_sides b b' -> qsub b b'.
Proof. intros H k p. by rewrite (same_sides_queue b b'). Qed.
Lemma qsub_prim m k p ids b b' u : prim m k p ids b b' u -> (ids <> [] -> queue b k p <> []) -> qsub b b'.
Proof.
  intros Hp Hi k' p'. rewrite (prim_queue _ _ _ _ _ _ _ Hp). destruct (decide _) as [[-> ->]|]; [done|done].
Qed.
Lemma filter_ne (x : Z) (l : list Z) : filter (fun j => j <> x) l <> [] -> l <> [].
Proof. intros H ->. by apply H. Qed.
Definition lqsub (b b' : book) : Prop := forall k p, k = KBid \/ k = KAsk -> queue b' k p <> [] -> queue b k p <> [].
Lemma uncrossed_lqsub m m' sid b b' : book_ok m sid b -> book_ok m' sid b' -> lqsub b b' -> uncrossed b -> uncrossed b'.
Proof.
  intros Hb Hb' Hq Hu bid ask Hbid Hask.
  destruct (best_some _ _ _ KBid bid Hb' Hbid) as [Q1 _]. destruct (best_some _ _ _ KAsk ask Hb' Hask) as [Q2 _].
  destruct (best_exists _ _ _ KBid bid Hb (Hq _ _ (or_introl eq_refl) Q1)) as (p1 & E1 & C1).
  destruct (best_exists _ _ _ KAsk ask Hb (Hq _ _ (or_intror eq_refl) Q2)) as (p2 & E2 & C2).
  specialize (Hu p1 p2 E1 E2). unfold better in C1, C2. cbn in C1, C2. lia.
Qed.
Lemma uncrossed_qsub m m' sid b b' : book_ok m sid b -> book_ok m' sid b' -> qsub b b' -> uncrossed b -> uncrossed b'.
Proof. intros Hb Hb' Hq. eapply uncrossed_lqsub; try done. intros k p _. apply Hq. Qed.
Lemma stop_okind o : o_type o <> LIMIT -> okind o <> KBid /\ okind o <> KAsk \/ o_type o = MARKET.
Proof. unfold okind. destruct (o_type o), (o_side o); auto; naive_solver. Qed.

Lemma ustep_calm sid A c evs c' : ustep sid A c evs c' -> cfg_ok sid c -> ~ md_off A -> calm sid c -> calm sid c'.
Proof.
  intros Hu Hc Hoff [Hna Hun]. destruct (ustep_q sid A _ _ _ _ closed_no_aon Hc Hna Hu) as [Hna' _].
  destruct (ustep_ok sid A _ _ _ Hu Hc) as [[He2 _] _]. split; [exact Hna'|]. destruct Hc as [He Hf].
  assert (Hsub : lqsub (e_bk (fst c)) (e_bk (fst c')) -> uncrossed (e_bk (fst c'))).
  { intros Hq. eapply uncrossed_lqsub; [exact (proj2 He)|exact (proj2 He2)|done|done]. }
  inversion Hu as [e f r p q u e' Q Hr Hs Ht Hq Hx He' Hords Hlog Hpr Hp
    |e f r p u e' Q Hr Hs Ht Hx He' Hords Hlog Hpr Hp|e o p q Hq Hw Hfa|e o p Hty Hb|e o Hty Hre
    |e o u e' Hfr Hlv Hty Htif He' Hords Hlog Hpr Hp Hset|e o Hmv|e o u e' Ho Hs Hty Hre He' Hords Hlog Hpr Hp
    |e o u1 b1 u2 e' o' Ho Hs Htr Hne He' Hords Hlog Hpr Hp1 Hp2|e s|e]; subst; cbn [fst snd] in *; try done.
  - apply Hsub. intros k p' _. eapply (qsub_prim _ _ _ _ _ _ _ Hp). destruct (q =? _); [apply filter_ne|done].
  - apply Hsub. intros k p' _. eapply (qsub_prim _ _ _ _ _ _ _ Hp). apply filter_ne.
  - apply Hsub. intros k p' _. cbn. by destruct (o_side o).
  - destruct (decide (o_type o = LIMIT)) as [Hl|Hl].
    2: { apply Hsub. intros k p' Hk. rewrite (prim_queue _ _ _ _ _ _ _ Hp). destruct (decide _) as [[-> ->]|]; [|done].
      destruct (stop_okind o Hl) as [[]|]; naive_solver. }
    assert (Haon : is_aon o = false) by (by apply Hna).
    destruct (Hset Hl Haon) as [?|[?|[Hnc|(p & r & Hfront & _ & Hra & _)]]]; [done|lia| |].
    2: { destruct (front_facts sid e _ _ _ He Hfront) as (Hsr & _ & _ & _ & Hrm). destruct Hna as [Hna _]. cbn in Hna. rewrite (Hna _ _ Hrm Hsr) in Hra. done. }
    intros bid ask Hbid Hask.
    assert (okind o = match o_side o with BUY => KBid | SELL => KAsk end /\ okey o = o_price o) as [Hko Hky].
    { unfold okind, okey; rewrite Hl; by destruct (o_side o). }
    assert (Hoth : s_best (get_side (opp (o_side o)) (e_bk e')) = s_best (get_side (opp (o_side o)) (e_bk e))).
    { rewrite (pr_sides _ _ _ _ _ _ _ Hp); [done|]. rewrite Hko. by destruct (o_side o). }
    destruct (best_some _ _ _ KBid bid (proj2 He') Hbid) as [Q1 _]. destruct (best_some _ _ _ KAsk ask (proj2 He') Hask) as [Q2 _].
    rewrite (prim_queue _ _ _ _ _ _ _ Hp) in Q1. rewrite (prim_queue _ _ _ _ _ _ _ Hp) in Q2.
    unfold no_counter, best, arb in Hnc. destruct (o_side o); cbn in Hoth, Hnc; rewrite Hko in Q1, Q2.
    + rewrite Hoth in Hask. specialize (Hnc _ Hask). destruct (decide _) as [[_ Hbo]|Hn]; [cbn in Hnc; lia|].
      destruct (best_exists _ _ _ KBid bid (proj2 He) Q1) as (p1 & E1 & C1). specialize (Hun _ _ E1 Hask). unfold better in C1. cbn in C1. lia.
    + rewrite Hoth in Hbid. specialize (Hnc _ Hbid). destruct (decide (KAsk = KAsk /\ _)) as [[_ Hbo]|Hn]; [cbn in Hnc; lia|].
      destruct (best_exists _ _ _ KAsk ask (proj2 He) Q2) as (p1 & E1 & C1). specialize (Hun _ _ Hbid E1). unfold better in C1. cbn in C1. lia.
  - apply Hsub. intros k p' _. eapply (qsub_prim _ _ _ _ _ _ _ Hp). apply filter_ne.
  - apply Hsub. intros k p' Hk. assert (Hnl : okind o' <> KBid /\ okind o' <> KAsk).
    { unfold o', retrail. unfold is_trailing, is_trailing_stop, is_trailing_stop_limit in Htr. unfold okind. destruct (o_type o) eqn:Et; try done; cbn; rewrite Et; destruct (o_side o); done. }
    rewrite (prim_queue _ _ _ _ _ _ _ Hp2). destruct (decide _) as [[-> ->]|]; [naive_solver|].
    eapply (qsub_prim _ _ _ _ _ _ _ Hp1). apply filter_ne.
  - apply Hsub. intros k p' _. by destruct s.
Qed.
Lemma usteps_calm sid A c evs c' : usteps sid A c evs c' -> cfg_ok sid c -> ~ md_off A -> calm sid c -> calm sid c'.
Proof.
  intros Hu Hc Hoff. apply (usteps_forall sid A (calm sid) (fun _ => True)) with (evs := evs); [|done|done].
  intros c0 ev c1 Hc0 Hi Hu0. split; [by eapply ustep_calm|by apply Forall_true].
Qed.

Definition allows (A : mode) (sid : Z) (c : cfg) : Prop :=
  (md_aon A \/ no_aon sid c) /\ (md_pair A \/ calm sid c /\ ~ md_off A).
Lemma allows_wide (A : Prop) sid c : A \/ no_aon sid c -> allows (wide A) sid c.
Proof. intros H. split; [done|by left]. Qed.
Lemma msteps_micro sid (A : mode) c c' : rtc (mstep (md_off A) (md_stop A)) c c' -> cfg_ok sid c -> allows A sid c -> exists evs, usteps sid A c evs c'.
Proof.
  induction 1 as [c|c c1 c' Hst _ IH]; intros Hc [HA HP]; [eexists; constructor|].
  destruct (mstep_micro sid A _ _ Hst Hc HA) as [evs Hu]; [naive_solver|].
  destruct (IH (mn_ok _ _ _ (mstep_ok sid _ _ Hst Hc))) as [evs' Hu'].
  { split.
    - destruct HA as [HA|Hno]; [by left|right]. by apply (usteps_q sid A _ _ _ _ closed_no_aon Hu Hc Hno).
    - destruct HP as [HP|[Hcm Hoff]]; [by left|right]. split; [by eapply usteps_calm|done]. }
  eexists. by eapply usteps_app.
Qed.
Lemma mstep_mono (F W F' W' : Prop) c c' : (F -> F') -> (W -> W') -> mstep F W c c' -> mstep F' W' c c'.
Proof.
  intros HF HW H. destruct H.
  - eapply ms_trade; [done| |done]. match goal with X : _ \/ W |- _ => destruct X; [by left|right; auto] end.
  - by apply ms_mprice.
  - by apply ms_trigger.
  - apply ms_rest; try done. intros Hl Ha. match goal with X : _ -> _ -> F \/ _ |- _ => destruct (X Hl Ha); [left; auto|by right] end.
  - by apply ms_done.
  - by eapply ms_pair.
  - by eapply ms_pchain.
  - by apply ms_take.
  - by apply ms_trail.
  - by apply ms_trailprice.
Qed.
Lemma msteps_mono (F W F' W' : Prop) c c' : (F -> F') -> (W -> W') -> rtc (mstep F W) c c' -> rtc (mstep F' W') c c'.
Proof. intros HF HW. apply rtc_subrel. intros x y. by apply mstep_mono. Qed.
Lemma ending_micro W mt sid (A : mode) c e' er : ending W mt sid c e' er -> cfg_ok sid c -> allows A sid c ->
  (mt = false -> md_off A) -> (W -> md_stop A) -> exists evs, usteps sid A c evs (e', None).
Proof.
  intros Hend Hc HA HF HW. inversion Hend as [e1 e2 H1 H2 _ _ He2 ->|e1 o o1 Ho Hfl _ _ Hd _ He1 ->]; subst.
  - assert (rtc (mstep (mt = false) W) c (e2, None)) as Hr.
    { destruct H1 as [->|(c1 & Hfl & _ & _ & Hl)]; [done|]. eapply rtc_transitive; [by apply fsteps_msteps|]. by eapply rtc_l. }
    destruct (msteps_micro sid A _ _ (msteps_mono _ _ _ _ _ _ HF HW Hr) Hc HA) as [evs Hu]. exists (evs ++ []). eapply usteps_app; [done|]. apply usteps_one, us_reset.
  - destruct (msteps_micro sid A _ _ (msteps_mono _ _ _ _ _ _ HF HW (fsteps_msteps _ _ Hfl)) Hc HA) as [evs Hu]. eexists. eapply usteps_app; [done|].
    apply usteps_one, us_done. unfold may_vanish. auto.
Qed.

(** ** Total resting quantity never grows by matching *)
Definition fly_leaves (f : option order) : Z := match f with Some o => o_leaves o | None => 0 end.
Lemma usteps_total sid A c evs c' : usteps sid A c evs c' -> cfg_ok sid c ->
  total (e_ords (fst c')) + fly_leaves (snd c') <= total (e_ords (fst c)) + fly_leaves (snd c).
Proof.
  revert c evs c'. apply (usteps_ind_ok sid A (fun c _ c' => total (e_ords (fst c')) + fly_leaves (snd c') <= total (e_ords (fst c)) + fly_leaves (snd c))).
  { intros; lia. }
  intros c evs c1 evs' c' [He Hf] Hu _ IH. etransitivity; [exact IH|]. clear IH evs' c'.
  inversion Hu as [e f r p q u e' Q Hr Hs Ht Hq Hx He' Hords Hlog Hpr Hp
    |e f r p u e' Q Hr Hs Ht Hx He' Hords Hlog Hpr Hp|e o p q Hq Hw Hfa|e o p Hty Hb|e o Hty Hre
    |e o u e' Hfr Hlv Hty Htif He' Hords Hlog Hpr Hp|e o Hmv|e o u e' Ho Hs Hty Hre He' Hords Hlog Hpr Hp
    |e o u1 b1 u2 e' o' Ho Hs Htr Hne He' Hords Hlog Hpr Hp1 Hp2|e s|e]; subst; cbn in *; try lia.
  - rewrite Hords, (total_reduced _ r) by done. cbn. lia.
  - rewrite Hords, (total_delete (e_ords e) _ _ Hr). pose proof (lo_leaves _ _ (mo_live _ (proj1 He) _ _ Hr)). lia.
  - unfold converted, to_market, to_limit. destruct (o_type o); cbn; lia.
  - rewrite Hords, total_insert by done. lia.
  - destruct Hf. lia.
  - rewrite Hords, (total_delete (e_ords e) _ _ Ho). unfold converted, to_market, to_limit. destruct (o_type o); cbn; lia.
  - rewrite Hords. erewrite total_update by done. destruct (retrail_place (calc_trailing o (e_bk e)) o Htr) as (_ & _ & _ & _ & _ & El).
    fold o' in El. lia.
Qed.
