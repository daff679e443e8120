(** * Trades.v -- the executions of every call are a sequence of two-sided trades
    (books without All-Or-None orders). *)
From Coq Require Import ZifyBool.
From stdpp Require Import fin_maps relations.
From Verif Require Import Types Book Engine Manager LevelFacts BookInv EngInv EngPrim Steps StepsOk Refine1 Refine2 Refine3 Refine4 Api Validate StateInv Micro Reach Calls.

Lemma execs_app a b : execs (a ++ b) = execs a ++ execs b.
Proof. unfold execs. by rewrite omap_app. Qed.
Lemma execs_lev sid u : execs (lev_evs sid u) = [].
Proof. unfold lev_evs, lev_ev. by destruct (u_type u). Qed.
Lemma execs_lim o sid u : execs (lim_evs o sid u) = [].
Proof. unfold lim_evs. destruct (is_limit o); [apply execs_lev|done]. Qed.
Lemma execs_red o : execs [red_ev o] = [].
Proof. unfold red_ev. by destruct (_ =? 0). Qed.
Lemma execs_red_cons o evs : execs (red_ev o :: evs) = execs evs.
Proof. unfold red_ev. by destruct (_ =? 0). Qed.

Lemma trades_nil : trades [].
Proof. by exists []. Qed.
Lemma trades_one t : trade t -> trades t.
Proof. intros H. exists [t]. cbn. rewrite app_nil_r. split; [done|by constructor]. Qed.
Lemma trades_app a b : trades a -> trades b -> trades (a ++ b).
Proof. intros (ta & -> & Ha) (tb & -> & Hb). exists (ta ++ tb). rewrite concat_app. split; [done|by apply Forall_app]. Qed.

Definition grows (P : list (order * Z * Z) -> Prop) (e e' : eng) : Prop :=
  exists evs, e_log e' = e_log e ++ evs /\ P (execs evs).
Lemma grows_trans e1 e2 e3 : grows trades e1 e2 -> grows trades e2 e3 -> grows trades e1 e3.
Proof.
  intros (a & Ha & Pa) (b & Hb & Pb). exists (a ++ b). rewrite Hb, Ha, app_assoc. split; [done|].
  rewrite execs_app. by apply trades_app.
Qed.
Lemma grows_refl e : grows trades e e.
Proof. exists []. rewrite app_nil_r. split; [done|apply trades_nil]. Qed.
Lemma grows_emit e ev : execs [ev] = [] -> grows trades e (emit ev e).
Proof. intros H. exists [ev]. split; [done|]. rewrite H. apply trades_nil. Qed.

Lemma exec_reduce_log sid e r p q e1 : eng_ok sid e -> e_ords e !! o_id r = Some r -> o_sym r = sid -> 0 < q <= o_leaves r ->
  exec_reduce r p q e = Ok e1 -> eng_ok sid e1 /\ grows (eq [(r, p, q)]) e e1.
Proof.
  intros He Hr Hs Hq Hex. destruct (exec_reduce_ok sid e r p q He Hr Hs Hq) as (u & e1' & Heq & Hok & Hords & Hlog & _).
  rewrite Hex in Heq. injection Heq as <-. split; [done|]. eexists. split; [exact Hlog|].
  change (EExecute r p q :: red_ev (executed q r) :: lim_evs r sid u) with ([EExecute r p q] ++ [red_ev (executed q r)] ++ lim_evs r sid u).
  by rewrite !execs_app, execs_red, execs_lim.
Qed.
Lemma exec_delete_log sid e r p e1 : eng_ok sid e -> e_ords e !! o_id r = Some r -> o_sym r = sid -> 
  exec_delete r p (o_leaves r) e = Ok e1 -> eng_ok sid e1 /\ grows (eq [(r, p, o_leaves r)]) e e1 /\ e_ords e1 = delete (o_id r) (e_ords e).
Proof.
  intros He Hr Hs Hex. destruct (exec_delete_ok sid e r p (o_leaves r) He Hr Hs) as (u & e1' & Heq & Hok & Hords & Hlog & _).
  rewrite Hex in Heq. injection Heq as <-. split; [done|]. split; [|done]. eexists. split; [exact Hlog|].
  match goal with |- _ = execs (?a :: ?b ++ ?c) => change (a :: b ++ c) with ([a] ++ b ++ c) end.
  by rewrite !execs_app, execs_lim.
Qed.

Lemma side_opp sid e s p r : eng_ok sid e -> front e (opp s) p r -> o_side r <> s /\ o_price r = p /\ o_type r = LIMIT.
Proof.
  intros He Hf. destruct (front_facts sid e _ p r He Hf) as (Hs & Hkr & Hp & Hl & Hr).
  destruct (okind_bid_ask r s (lo_type _ _ Hl) Hkr) as (? & ? & ?). split; [done|]. split; congruence.
Qed.

(** The executions of a matching chain for a Fill-Or-Kill order. *)
Lemma cx_chain_log sid o : o_sym o = sid -> is_aon o = false -> forall c c', rtc (cxstep true (opp (o_side o)) (o_price o)) c c' ->
  eng_ok sid (snd c) -> 0 <= fst c < TWO64 ->
  grows (fun xs => Forall (fun x => let '(r, p, q) := x in
      o_sym r = o_sym o /\ o_type r = LIMIT /\ o_side r <> o_side o /\ p = o_price o /\ within_limit r p /\ 0 < q <= o_leaves r) xs /\ sum_qty xs = fst c - fst c') (snd c) (snd c') /\ 0 <= fst c' <= fst c.
Proof.
  intros Hso Hno. induction 1 as [c|[v e] [v1 e1] c' Hst _ IH]; intros He Hv; cbn in *.
  { split; [|lia]. exists []. rewrite app_nil_r. cbn. split; [done|]. split; [done|lia]. }
  inversion Hst as [? ? p r ? Hv0 Hf Hra Ht Hex|? ? p r ? Hv0 Hf Hra Ht Hex]; subst; specialize (Ht eq_refl);
  destruct (front_limit _ e _ p r He (opp_bid_ask _) Hf) as (Hr & Hs & Hty & Hp & Hlv);
  destruct (side_opp _ e _ p r He Hf) as (Hsd & Hpr & _).
  - destruct (exec_delete_log _ e r (o_price o) e1 He Hr Hs Hex) as (He1 & (evs & Hlog & Hx) & _). destruct Ht as [Ht Hle].
    assert (Hw : within_limit r (o_price o)).
    { unfold within_limit, arb, opp in *. destruct (o_side o), (o_side r); cbn in *; try done; lia. }
    assert (E : u64 (v - o_leaves r) = v - o_leaves r). { unfold u64. apply Z.mod_small. unfold TWO64 in *. lia. }
    destruct IH as ((evs' & Hlog' & Hall & Hsum) & Hb); [done|rewrite E; lia|]. rewrite E in Hsum, Hb. split; [|lia].
    exists (evs ++ evs'). rewrite Hlog', Hlog, app_assoc. split; [done|]. rewrite execs_app, <- Hx. cbn. split; [|unfold sum_qty in *; lia].
    constructor; [|done]. repeat split; try done; try lia; congruence.
  - destruct (exec_reduce_log _ e r (o_price o) (Z.min (o_leaves r) v) e1 He Hr Hs) as (He1 & (evs & Hlog & Hx)); [lia|done|].
    assert (Hw : within_limit r (o_price o)).
    { unfold within_limit, arb, opp in *. destruct (o_side o), (o_side r); cbn in *; try done; lia. }
    assert (E : u64 (v - Z.min (o_leaves r) v) = v - Z.min (o_leaves r) v). { unfold u64. apply Z.mod_small. unfold TWO64 in *. lia. }
    destruct IH as ((evs' & Hlog' & Hall & Hsum) & Hb); [done|rewrite E; lia|]. rewrite E in Hsum, Hb. split; [|lia].
    exists (evs ++ evs'). rewrite Hlog', Hlog, app_assoc. split; [done|]. rewrite execs_app, <- Hx. cbn. split; [|unfold sum_qty in *; lia].
    constructor; [|done]. repeat split; try done; try lia; congruence.
Qed.

Lemma fok_tif o : is_fok o = true -> o_tif o = FOK.
Proof. unfold is_fok. by intros H%bool_decide_eq_true. Qed.
Lemma fok_tif' o : is_fok o = false -> o_tif o <> FOK.
Proof. unfold is_fok. by intros H%bool_decide_eq_false. Qed.

Lemma mstep_trades {F W} sid c c' : mstep F W c c' -> cfg_ok sid c -> no_aon sid c -> grows trades (fst c) (fst c').
Proof.
  intros Hst [He Hf] [Hno Hnf].
  inversion Hst as [e o e' o' Ht|e o p Hty Hb|e o Hty Hre|e o Hfr Hlv Hty Htif|e o Hmv
    |e b a bp ap x r e' Hbb Hba Hcr Hqb Hb Hqa Ha Hnb Hna Hxr Hle (e1 & Hx & Hr)
    |e b a bp ap x k1 k2 v v1 e1 v2 e' Hbb Hba Hcr Hqb Hb Hqa Ha Hax Hv Hk Hc1 Hc2
    |e o e1 Ho Hs Hty Hre Hdel|e o e1 o' Ho Hs Htr Hne Hdel|e s]; subst; cbn in He, Hf, Hno, Hnf; cbn [fst snd].
  - inversion Ht as [? ? p r e1 q Hfr Harb Hfok Haon Hlv Hra Hex|? ? e1 Hfa Hlv Hch]; subst.
    + destruct (front_limit sid e _ p r He (opp_bid_ask _) Hfr) as (Hr & Hs & Hty & Hp & Hrl).
      destruct (side_opp sid e _ p r He Hfr) as (Hsd & Hpr & _).
      destruct (exec_reduce_log sid e r p q e1 He Hr Hs) as (He1 & evs & Hlog & Hx); [unfold q; lia|done|].
      exists (evs ++ [EExecute o p q]). split. { cbn. by rewrite Hlog, app_assoc. }
      rewrite execs_app, <- Hx. cbn. apply trades_one. rewrite <- Hp. apply tr_hit; try done; [rewrite (fl_sym _ _ _ Hf); congruence| |by apply fok_tif'|unfold q; lia].
      rewrite Hp. by eapply arb_within.
    + destruct Hfa as [Hfok|Haon]; [|specialize (Hnf o eq_refl); congruence].
      destruct (cx_chain_log sid o (fl_sym _ _ _ Hf) (Hnf o eq_refl) _ _ Hch He) as ((evs & Hlog & Hall & Hsum) & _).
      { cbn. destruct Hf. pose proof (total_nonneg (e_ords e)) as Hn.
        assert (0 <= total (e_ords e)); [|lia]. apply Hn. intros i x Hx. destruct (mo_live _ (proj1 He) _ _ Hx). lia. }
      cbn in Hlog, Hsum. exists (evs ++ [EExecute o (o_price o) (o_leaves o)]). split. { cbn. by rewrite Hlog, app_assoc. }
      rewrite execs_app. cbn. apply trades_one. apply tr_fill; try done; [by apply fok_tif|lia].
  - apply grows_refl.
  - by apply grows_emit.
  - pose proof (fly_live _ _ _ Hf Hlv Hty Htif) as Hlive.
    destruct (eng_add_ok sid e o He Hfr Hlive) as (u & e' & Heq & Hok & Hords & Hlog & Hpr & Hp); [apply Hf|apply Hf|].
    rewrite Heq. eexists. split; [exact Hlog|]. rewrite execs_lim. apply trades_nil.
  - by apply grows_emit.
  - assert (Hxm : e_ords e !! o_id x = Some x) by (destruct Hxr as [[-> ->]|[-> ->]]; done).
    assert (Hrm : e_ords e !! o_id r = Some r) by (destruct Hxr as [[-> ->]|[-> ->]]; done).
    destruct (queue_facts _ _ _ _ _ He Hqb) as (b' & Hb' & _ & Hsb' & Hkb & Hpb & Hlb). assert (b' = b) by congruence. subst b'.
    destruct (queue_facts _ _ _ _ _ He Hqa) as (a' & Ha' & _ & Hsa' & Hka & Hpa & Hla). assert (a' = a) by congruence. subst a'.
    destruct (okind_bid_ask b SELL (lo_type _ _ Hlb) Hkb) as (Htb & Hob & Hsb).
    destruct (okind_bid_ask a BUY (lo_type _ _ Hla) Hka) as (Hta & Hoa & Hsa).
    assert (Hbuy : o_side b = BUY) by (destruct (o_side b); done).
    assert (Hsell : o_side a = SELL) by (destruct (o_side a); done).
    assert (Hne : o_id r <> o_id x). { destruct Hxr as [[-> ->]|[-> ->]]; intros E; congruence. }
    assert (Hwr : within_limit r (o_price x)).
    { unfold within_limit. destruct Hxr as [[-> ->]|[-> ->]]; rewrite ?Hbuy, ?Hsell; lia. }
    assert (Hsx : o_sym x = sid) by (destruct Hxr as [[-> ->]|[-> ->]]; done).
    assert (Hsr : o_sym r = sid) by (destruct Hxr as [[-> ->]|[-> ->]]; done).
    pose proof (lo_leaves _ _ (mo_live _ (proj1 He) _ _ Hxm)).
    destruct (exec_delete_log sid e x (o_price x) e1 He Hxm Hsx Hx) as (He1 & (evs1 & Hlog1 & Hx1) & Hords).
    destruct (exec_reduce_log sid e1 r (o_price x) (o_leaves x) e' He1) as (He2 & (evs2 & Hlog2 & Hx2)); try done.
    { by rewrite Hords, lookup_delete_ne. }
    exists (evs1 ++ evs2). rewrite Hlog2, Hlog1, app_assoc. split; [done|]. rewrite execs_app, <- Hx1, <- Hx2. cbn.
    apply trades_one. apply tr_cross; try done; destruct Hxr as [[-> ->]|[-> ->]]; congruence.
  - exfalso. destruct (queue_facts _ _ _ _ _ He Hqb) as (b' & Hb' & _ & Hsb & _). assert (b' = b) by congruence. subst b'.
    destruct (queue_facts _ _ _ _ _ He Hqa) as (a' & Ha' & _ & Hsa & _). assert (a' = a) by congruence. subst a'.
    destruct Hk as [(-> & _)|(-> & _)]; [specialize (Hno _ _ Hb Hsb)|specialize (Hno _ _ Ha Hsa)]; congruence.
  - assert (Hsid : sid_of (e_bk e) = sid) by (eapply bk_id, He). rewrite Hsid in Hs.
    destruct (eng_del_ok sid e o He Ho Hs) as (u & e1' & Heq' & Hords & Hok & Hlog & Hpr & Hp).
    rewrite Hdel in Heq'. injection Heq' as <-.
    eexists. cbn. rewrite Hlog, <- app_assoc. split; [reflexivity|]. rewrite execs_app, execs_lim. apply trades_nil.
  - assert (Hsid : sid_of (e_bk e) = sid) by (eapply bk_id, He). rewrite Hsid in Hs.
    destruct (drop_eng_ok sid e o e1 He Ho Hs Hdel) as [He1 Hsh].
    destruct (eng_del_ok sid e o He Ho Hs) as (u & e1' & Heq' & Hords & Hok & Hlog & Hpr & Hp).
    rewrite Hdel in Heq'. injection Heq' as <-.
    unfold eng_add. destruct (book_add _ _) as [b' u']. unfold emit_lim.
    assert (Hl : e_log e1 = e_log e ++ lim_evs o sid u) by done.
    destruct (is_limit o').
    + rewrite emit_lupd_spec. cbn. eexists. rewrite Hl, <- !app_assoc. split; [reflexivity|].
      rewrite !execs_app, execs_lim. rewrite (execs_lev _ u'). apply trades_nil.
    + eexists. cbn. rewrite Hl, <- !app_assoc. split; [reflexivity|]. rewrite execs_app, execs_lim. apply trades_nil.
  - exists []. rewrite app_nil_r. split; [done|apply trades_nil].
Qed.
Lemma msteps_trades {F W} sid c c' : rtc (mstep F W) c c' -> cfg_ok sid c -> no_aon sid c -> grows trades (fst c) (fst c') /\ no_aon sid c'.
Proof.
  induction 1 as [c|c c1 c' Hst _ IH]; intros Hc Hno; [split; [apply grows_refl|done]|].
  pose proof (mstep_trades sid _ _ Hst Hc Hno) as H1.
  destruct (mstep_micro sid (wide False) c c1) as [evs Hu]; [by eapply (mstep_mono F W)|done|by right|by left|].
  assert (Hno1 : no_aon sid c1) by (by apply (usteps_q sid (wide False) _ _ _ _ closed_no_aon Hu Hc Hno)).
  destruct (IH (mn_ok _ _ _ (mstep_ok sid _ _ Hst Hc)) Hno1) as [H2 Hno']. split; [|done]. by eapply grows_trans.
Qed.
Lemma ending_trades W mt sid c e' er : ending W mt sid c e' er -> cfg_ok sid c -> no_aon sid c -> grows trades (fst c) e'.
Proof.
  intros Hend Hc Hno. inversion Hend as [e1 e2 H1 H2 _ _ He2 ->|e1 o o1 Ho Hfl _ _ Hd _ He1 ->]; subst.
  - assert (rtc (mstep (mt = false) W) c (e2, None)) as Hr.
    { destruct H1 as [->|(c1 & Hfl & _ & _ & Hl)]; [done|]. eapply rtc_transitive; [by apply fsteps_msteps|]. by eapply rtc_l. }
    destruct (msteps_trades sid _ _ Hr Hc Hno) as [Hg _]. exact Hg.
  - destruct (msteps_trades sid _ _ (fsteps_msteps _ _ Hfl) Hc Hno) as [Hg _]. eapply grows_trans; [exact Hg|]. by apply grows_emit.
Qed.

(** Per order call: head notifications, then trades. *)
Lemma hstep_execs sid e a evs c : hstep sid e a evs c ->
  execs evs = [] /\ is_execute a = false \/
  exists i price q0 o, (a = ExecuteOrder i q0 /\ price = o_price o \/ a = ExecuteOrderAt i price q0) /\
    e_ords e !! i = Some o /\ 0 < q0 /\ execs evs = [(o, price, Z.min q0 (o_leaves o))].
Proof.
  intros Hh. inversion Hh as [o o' Hsym Hval|i q0 o u e' q o' Q' Ho Hid Hsym Hq He' Hords Hlog Hpr Hp
    |mit i p q o u e' o' evs' Q' Ho Hid Hsym Hq He' Hords Hlog Hpr Hp
    |i ni p q o u e' o' Q' evs' Ho Hid Hsym Hq Hni Hty He' Hords Hlog Hpr Hp
    |i o u e' Q' evs' Ho Hid Hsym He' Hords Hlog Hpr Hp
    |a' i price q0 o u e' q o' Q' evs' Ha Ho Hid Hsym Hq He' Hords Hlog Hpr Hp]; subst.
  - by left.
  - left. by rewrite execs_red_cons, execs_lim.
  - left. unfold evs'. rewrite execs_app, execs_lim. destruct (0 <? _); by destruct mit.
  - left. unfold evs'. by rewrite execs_app, execs_lim.
  - left. unfold evs'. by rewrite execs_app, execs_lim.
  - right. exists (o_id o), price, q0, o. split; [done|]. split; [done|]. split; [done|].
    unfold evs'. match goal with |- execs (?a :: ?b) = _ => change (a :: b) with ([a] ++ b) end.
    by rewrite !execs_app, execs_lim, execs_red.
Qed.
Lemma outcome_trades s a s' er evs : inv s -> op_ok s a -> outcome s a s' er -> no_live_aon s -> adds_no_aon a ->
  st_log s' = st_log s ++ evs -> is_execute a = false -> trades (execs evs).
Proof.
  intros Hinv Hop Ho Hno Hadd Hlog Hexe. inversion Ho as [|sid b c e' ? Hb Htg Hhd Hc Hfr Hend]; subst.
  { rewrite <- (app_nil_r (st_log s')) in Hlog at 1. apply app_inv_head in Hlog. subst. apply trades_nil. }
  destruct (head_hstep s sid b a c Hinv Hb Htg Hhd) as [hevs Hh].
  assert (HA : no_aon sid c).
  { apply all_q_aon. by destruct (hstep_q sid (fun o => o_tif o <> AON) s b a hevs c closed_tif (aon_keeps a Hadd) Hop (inv_eng _ _ _ Hinv Hb) Hh Hno). }
  destruct (ending_trades _ _ _ _ _ _ Hend Hc HA) as (uevs & Hl & Hx).
  rewrite (hstep_log _ _ _ _ _ Hh) in Hl. cbn in Hl, Hlog. rewrite Hl, <- app_assoc in Hlog. apply app_inv_head in Hlog. subst evs.
  rewrite execs_app. destruct (hstep_execs _ _ _ _ _ Hh) as [[-> ?]|(i & price & q0 & o & Ha & Ho' & Hq & ->)]; [done|].
  by destruct Ha as [[-> _]| ->].
Qed.
(** ExecuteOrder: the requested execution first, then trades. *)
Lemma outcome_execute s a s' evs : inv s -> op_ok s a -> outcome s a s' OK -> no_live_aon s -> is_execute a = true ->
  st_log s' = st_log s ++ evs ->
  exists i price q0 o rest, (a = ExecuteOrder i q0 /\ price = o_price o \/ a = ExecuteOrderAt i price q0) /\
    st_ords s !! i = Some o /\ execs evs = (o, price, Z.min q0 (o_leaves o)) :: rest /\ trades rest.
Proof.
  intros Hinv Hop Ho Hno Hexe Hlog. inversion Ho as [|sid b c e' ? Hb Htg Hhd Hc Hfr Hend]; subst; [done|].
  destruct (head_hstep s sid b a c Hinv Hb Htg Hhd) as [hevs Hh].
  assert (Hadd : adds_no_aon a) by (destruct a; try done; intros ? [=]).
  assert (HA : no_aon sid c).
  { apply all_q_aon. by destruct (hstep_q sid (fun o => o_tif o <> AON) s b a hevs c closed_tif (aon_keeps a Hadd) Hop (inv_eng _ _ _ Hinv Hb) Hh Hno). }
  destruct (ending_trades _ _ _ _ _ _ Hend Hc HA) as (uevs & Hl & Hx).
  rewrite (hstep_log _ _ _ _ _ Hh) in Hl. cbn in Hl, Hlog. rewrite Hl, <- app_assoc in Hlog. apply app_inv_head in Hlog. subst evs.
  rewrite execs_app. destruct (hstep_execs _ _ _ _ _ Hh) as [[_ ?]|(i & price & q0 & o & Ha & Ho' & Hq & ->)]; [congruence|].
  exists i, price, q0, o, (execs uevs). split; [done|]. split; [done|]. by split.
Qed.

Lemma mrun_trades s s' evs : mrun s s' -> inv s -> no_live_aon s -> st_log s' = st_log s ++ evs -> trades (execs evs).
Proof.
  intros Hm. revert evs. induction Hm as [s|s sid b e' s' Hb Hr He' _ Hm IH]; intros evs Hinv Hno Hlog.
  { rewrite <- (app_nil_r (st_log s)) in Hlog at 1. apply app_inv_head in Hlog. subst. apply trades_nil. }
  pose proof (inv_eng _ _ _ Hinv Hb) as He.
  destruct (msteps_trades sid _ _ Hr (conj He I) (no_aon_of sid s b Hno)) as [(evs1 & Hl1 & Ht1) [Hno1 _]].
  assert (Hfr : frame sid (st_ords s) (e_ords e')) by (by destruct (msteps_ok sid _ _ Hr (conj He I))).
  assert (Hinv1 : inv (put_eng sid e' s)) by (by eapply put_inv).
  assert (Hno' : no_live_aon (put_eng sid e' s)).
  { exact (frame_sall sid (fun o => o_tif o <> AON) _ _ Hfr Hno (fun i o Hi Hs H => eq_true_false_abs _ (bool_decide_eq_true_2 _ H) (Hno1 i o Hi Hs))). }
  destruct (mrun_segs True _ _ Hm Hinv1 ltac:(by left)) as (l & evs2 & Hsg & _).
  pose proof (segs_log _ _ _ _ _ Hsg) as Hl2. cbn in Hl1, Hl2. specialize (IH evs2 Hinv1 Hno' Hl2).
  rewrite Hl2, Hl1, <- app_assoc in Hlog. apply app_inv_head in Hlog. subst evs. rewrite execs_app. by apply trades_app.
Qed.

Lemma call_no_aon s a s' er evs : inv s -> op_ok s a -> call s a s' er evs -> no_live_aon s -> adds_no_aon a -> no_live_aon s'.
Proof.
  intros Hinv Hop Hc Hno Hadd. destruct (call_q (fun o => o_tif o <> AON) s a s' er evs closed_tif (aon_keeps a Hadd) Hinv Hop Hc Hno) as [H _]. exact H.
Qed.

(** Every call without All-Or-None orders reports trades only. *)
Theorem call_trades s a s' er evs : inv s -> op_ok s a -> call s a s' er evs -> no_live_aon s -> adds_no_aon a ->
  is_execute a = false -> trades (execs evs).
Proof.
  intros Hinv Hop [Hst Hlog] Hno Hadd Hexe. pose proof (step_result _ _ _ _ Hinv Hop Hst) as Hr.
  destruct (registry_op a) eqn:Hreg.
  { destruct (result_registry _ _ _ _ Hr Hreg) as (_ & _ & evs' & Hl & _ & He). rewrite Hlog in Hl. apply app_inv_head in Hl. subst evs'.
    destruct He as [->|(ev & -> & Hev)]; [apply trades_nil|]. destruct ev; try done; apply trades_nil. }
  inversion Hr as [? ? ? Hord Ho|i o ? H1 H2 Ho|i o s1 ? ? Ho1 Hi1 Hop1 Ho2|? Hm|? Hm| | | | | | | | | |]; subst; try done.
  - by eapply outcome_trades.
  - rewrite <- (app_nil_r (st_log s')) in Hlog at 1. apply app_inv_head in Hlog. subst. apply trades_nil.
  - assert (Hop0 : op_ok s (DeleteOrder i)) by (by destruct Hop).
    assert (Hadd0 : adds_no_aon (DeleteOrder i)) by (intros ? [=]).
    destruct (outcome_segs True s (DeleteOrder i) s1 OK Hinv Hop0 eq_refl Ho1 ltac:(by left)) as (l1 & ev1 & Hs1 & Hl1 & _).
    destruct (outcome_segs True s1 (AddOrder o) s' er Hi1 Hop1 eq_refl Ho2 ltac:(by left)) as (l2 & ev2 & Hs2 & Hl2 & _).
    pose proof (segs_log _ _ _ _ _ Hs1) as E1. pose proof (segs_log _ _ _ _ _ Hs2) as E2.
    assert (Hno1 : no_live_aon s1).
    { destruct (segs_q (wide True) _ _ _ _ _ closed_tif Hs1) as [Hq _]; [|exact Hno|exact Hq]. eapply Forall_impl; [done|]. by intros ? ->. }
    rewrite E2, E1, <- app_assoc in Hlog. apply app_inv_head in Hlog. subst evs. rewrite execs_app. apply trades_app.
    + by eapply (outcome_trades s (DeleteOrder i) s1 OK).
    + eapply (outcome_trades s1 (AddOrder o) s' er); try done.
  - by eapply mrun_trades.
  - exact (mrun_trades (set_matching true s) s' evs Hm (inv_matching true s Hinv) Hno Hlog).
  - cbn in Hlog. rewrite <- (app_nil_r (st_log s)) in Hlog at 1. apply app_inv_head in Hlog. subst. apply trades_nil.
Qed.
