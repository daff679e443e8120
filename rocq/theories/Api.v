(** * Api.v -- every public order operation on one book is a head action followed by elementary
    actions (Steps.v), and it always returns. *)
From Coq Require Import ZifyBool.
From stdpp Require Import fin_maps relations.
From Verif Require Import Types Book Engine LevelFacts BookInv EngInv EngPrim Steps StepsOk Refine1 Refine2 Refine3 Refine4.

(** An in-flight order moves without landing. *)
Definition fstep (F W : Prop) (c c' : cfg) : Prop := mstep F W c c' /\ is_Some (snd c) /\ is_Some (snd c').
Lemma fsteps_msteps {F W} c c' : rtc (fstep F W) c c' -> rtc (mstep F W) c c'.
Proof. induction 1 as [|??? []]; [apply rtc_refl|by eapply rtc_l]. Qed.
Lemma tsteps_fsteps {F W} c c' : rtc tstep c c' -> tradable W (fst c) (snd c) -> rtc (fstep F W) (fst c, Some (snd c)) (fst c', Some (snd c')).
Proof.
  induction 1 as [c|[e o] [e1 o1] c' Hst _ IH]; intros Ht; [apply rtc_refl|].
  eapply rtc_l; [|apply IH; by eapply tstep_tradable]. split; [apply ms_trade; [done|apply Ht|apply Ht]|]. split; by eexists.
Qed.

(** How a call ends after its head action has led to configuration [c]. *)
Inductive ending (W : Prop) (mt : bool) (sid : Z) (c : cfg) (e' : eng) : err -> Prop :=
| end_finish e1 e2 :
    c = (e1, None) \/ (exists c1, rtc (fstep (mt = false) W) c c1 /\ is_Some (snd c1) /\ (mt = false -> c1 = c) /\ mstep (mt = false) W c1 (e1, None)) ->
    rtc (mstep (mt = false) W) (e1, None) (e2, None) ->
    (mt = false -> e2 = e1) ->
    (mt = true -> aon_cross sid e2 \/ matched sid e2) ->
    eng_ok sid e2 -> e' = reset_m e2 -> (mt = true -> match_book e1 = Ok e2) -> ending W mt sid c e' OK
| end_dup e1 o o1 :
    snd c = Some o -> rtc (fstep (mt = false) W) c (e1, Some o1) -> (mt = false -> c = (e1, Some o1)) ->
    e_ords (fst c) !! o_id o <> None -> e_ords e1 !! o_id o1 <> None ->
    0 < o_leaves o1 -> eng_ok sid e1 -> e' = emit (EDeleteOrder o1) e1 -> ending W mt sid c e' ORDER_DUPLICATE.

Lemma reset_ok sid e : eng_ok sid e -> eng_ok sid (reset_m e).
Proof. intros He. apply set_bk_ok; [apply same_sides_reset|done]. Qed.
Section ends.
Context {W : Prop}.
Lemma ending_ok mt sid c e' er : ending W mt sid c e' er -> eng_ok sid e'.
Proof.
  intros H. inversion H; subst; [by apply reset_ok|by apply emit_ok].
Qed.

Lemma finish_ok mt sid e : eng_ok sid e ->
  exists e2, finish mt e = Ok (reset_m e2, OK) /\ rtc (mstep (mt = false) W) (e, None) (e2, None) /\ (mt = false -> e2 = e) /\
    (mt = true -> aon_cross sid e2 \/ matched sid e2) /\ eng_ok sid e2 /\ (mt = true -> match_book e = Ok e2).
Proof.
  intros He. unfold finish. destruct mt.
  - destruct (match_book_ok (F := true = false) (W := W) sid e He) as (e2 & Heq & Hrtc & He2 & Hend). rewrite Heq. cbn [rbind].
    exists e2. done.
  - cbn [rbind]. exists e. split; [done|]. split; [apply rtc_refl|done].
Qed.
Lemma finish_none mt sid e : eng_ok sid e -> exists e' er, finish mt e = Ok (e', er) /\ ending W mt sid (e, None) e' er.
Proof.
  intros He. destruct (finish_ok mt sid e He) as (e2 & Heq & Hr & Hf & Ht & He2 & Hmb).
  exists (reset_m e2), OK. split; [done|]. eapply end_finish; eauto.
Qed.
Lemma finish_land mt sid c c1 e1 : rtc (fstep (mt = false) W) c c1 -> is_Some (snd c1) -> (mt = false -> c1 = c) ->
  mstep (mt = false) W c1 (e1, None) -> eng_ok sid e1 ->
  exists e' er, finish mt e1 = Ok (e', er) /\ ending W mt sid c e' er.
Proof.
  intros Hfl Hs Hmt Hst He. destruct (finish_ok mt sid e1 He) as (e2 & Heq & Hr & Hf & Ht & He2 & Hmb).
  exists (reset_m e2), OK. split; [done|]. eapply end_finish; eauto 10.
Qed.
Lemma msteps_cfg {F} sid c c' : rtc (mstep F W) c c' -> cfg_ok sid c -> cfg_ok sid c'.
Proof. intros H Hc. by destruct (msteps_ok sid _ _ H Hc). Qed.
Lemma fsteps_cfg {F} sid c c' : rtc (fstep F W) c c' -> cfg_ok sid c -> cfg_ok sid c'.
Proof. intros H. apply (msteps_cfg (F := F)). by apply fsteps_msteps. Qed.
Lemma done_land mt sid c e1 o1 : cfg_ok sid c -> rtc (fstep (mt = false) W) c (e1, Some o1) -> (mt = false -> (e1, Some o1) = c) ->
  may_vanish e1 o1 -> exists e' er, finish mt (emit (EDeleteOrder o1) e1) = Ok (e', er) /\ ending W mt sid c e' er.
Proof.
  intros Hc Hfl Hmt Hv. pose proof (fsteps_cfg sid _ _ Hfl Hc) as [He1 _]. cbn in He1.
  eapply finish_land; [exact Hfl|by eexists|done|by apply ms_done|by apply emit_ok].
Qed.

(** Flights keep the identity of the in-flight order and only shrink the index. *)
Lemma fstep_flight {F} sid c c' : fstep F W c c' -> cfg_ok sid c ->
  shrinks sid (e_ords (fst c)) (e_ords (fst c')) /\
  (forall o, snd c = Some o -> exists o', snd c' = Some o' /\ o_id o' = o_id o /\ o_side o' = o_side o).
Proof.
  intros (Hst & H1 & H2) [He Hf].
  inversion Hst; subst; cbn in *; try (by destruct H1); try (by destruct H2).
  - destruct (tstep_ok sid _ _ _ _ H He Hf) as (_ & _ & Hsh). split; [done|].
    intros ? [= <-]. eexists; split; [done|]. apply tstep_kind in H as (?&?&?&?&_). done.
  - split; [apply shrinks_refl|]. intros ? [= <-]. by eexists.
  - split; [apply shrinks_refl|]. intros ? [= <-]. eexists; split; [done|]. unfold converted. by destruct (o_type o).
Qed.
Lemma fsteps_flight {F} sid c c' : rtc (fstep F W) c c' -> cfg_ok sid c ->
  shrinks sid (e_ords (fst c)) (e_ords (fst c')) /\
  (forall o, snd c = Some o -> exists o', snd c' = Some o' /\ o_id o' = o_id o /\ o_side o' = o_side o).
Proof.
  induction 1 as [c|c c1 c' Hst _ IH]; intros Hc.
  { split; [apply shrinks_refl|]. intros o ->. by eexists. }
  destruct (fstep_flight sid _ _ Hst Hc) as (Hsh & Ho).
  destruct (IH (fsteps_cfg sid _ _ (rtc_once _ _ Hst) Hc)) as (Hsh' & Ho').
  split; [by eapply shrinks_trans|]. intros o Eo. destruct (Ho o Eo) as (o1 & E1 & I1 & S1).
  destruct (Ho' o1 E1) as (o2 & E2 & I2 & S2). exists o2. repeat split; congruence.
Qed.

Lemma rest_land mt sid c e1 o1 o : cfg_ok sid c -> snd c = Some o -> rtc (fstep (mt = false) W) c (e1, Some o1) -> (mt = false -> (e1, Some o1) = c) ->
  0 < o_leaves o1 -> o_type o1 <> MARKET -> (o_type o1 = LIMIT -> immediate o1 = false) ->
  (o_type o1 = LIMIT -> is_aon o1 = false -> mt = false \/ settled e1 o1) ->
  exists e' er, insert_rest mt o1 e1 = Ok (e', er) /\ ending W mt sid c e' er.
Proof.
  intros Hc Ho Hfl Hmt Hlv Hty Htif Hse. pose proof (fsteps_cfg sid _ _ Hfl Hc) as [He1 Hf1]. cbn in He1, Hf1.
  destruct (fsteps_flight sid _ _ Hfl Hc) as [Hsh Hid]. destruct (Hid o Ho) as (o' & [= <-] & Eid & _). cbn in Hsh.
  unfold insert_rest. destruct (e_ords e1 !! o_id o1) as [x|] eqn:Ex.
  - eexists _, _. split; [reflexivity|]. eapply (end_dup W mt sid c _ e1 o o1); try done; [by intros; rewrite Hmt| |by rewrite Ex].
    intros Hn. apply (sh_dom _ _ _ Hsh) in Hn. congruence.
  - assert (Hst : mstep (mt = false) W (e1, Some o1) (eng_add o1 (put o1 e1), None)) by (by apply ms_rest).
    pose proof (mstep_ok sid _ _ Hst (conj He1 Hf1)) as [[He2 _] _ _ _]. cbn in He2.
    eapply finish_land; [exact Hfl|by eexists|done|exact Hst|done].
Qed.

(** ** The order that AddOrder really enters: trailing stops are first moved to the market. *)
Definition placed (o : order) (b : book) : order :=
  match o_type o with
  | TRAILING_STOP | TRAILING_STOP_LIMIT => retrail (calc_trailing o b) o
  | _ => o
  end.
Lemma placed_fly sid m o b : fly_ok sid m o -> fly_ok sid m (placed o b).
Proof.
  intros []. unfold placed.
  assert (Hr : u64_range (calc_trailing o b)) by by apply calc_trailing_range.
  unfold retrail. destruct (o_type o) eqn:Et; try (by constructor).
  - constructor; try done. apply u64_range_u64.
Qed.
Lemma placed_same o b : o_id (placed o b) = o_id o /\ o_type (placed o b) = o_type o /\ o_side (placed o b) = o_side o /\
  o_leaves (placed o b) = o_leaves o /\ o_tif (placed o b) = o_tif o /\ o_sym (placed o b) = o_sym o.
Proof. unfold placed, retrail. destruct (o_type o) eqn:E; cbn; auto 10. Qed.

Lemma triggered_reached sid e o : eng_ok sid e -> triggered o (e_bk e) = true -> stop_reached o (e_bk e).
Proof.
  intros He Ht. unfold triggered in Ht. unfold stop_reached. destruct (o_side o).
  - intros p Hp. destruct (best_exists _ _ _ KAsk p (proj2 He) Hp) as (b & Hb & Hc).
    unfold market_ask, best_ask_price in Ht. cbn [get_side] in Hb. rewrite Hb in Ht. unfold better in Hc; cbn in Hc. lia.
  - intros p Hp. destruct (best_exists _ _ _ KBid p (proj2 He) Hp) as (b & Hb & Hc).
    unfold market_bid, best_bid_price in Ht. cbn [get_side] in Hb. rewrite Hb in Ht. unfold better in Hc; cbn in Hc. lia.
Qed.
Lemma fstep_trigger {F} sid e o : eng_ok sid e -> stop_type o = true -> triggered o (e_bk e) = true -> 0 < o_leaves o ->
  fstep F W (e, Some o) (emit (EUpdateOrder (converted o)) e, Some (converted o)).
Proof.
  intros He Hs Ht Hlv. split; [|split; by eexists]. apply ms_trigger; [done|by eapply triggered_reached|done].
Qed.
Lemma fly_trigger sid m o : fly_ok sid m o -> fly_ok sid m (converted o).
Proof. apply converted_fly. Qed.

(** Limit orders: trade, then rest or vanish. *)
Lemma limit_tail_ok mt sid c e o oc : cfg_ok sid c -> snd c = Some oc -> rtc (fstep (mt = false) W) c (e, Some o) -> (mt = false -> (e, Some o) = c) ->
  o_type o = LIMIT -> 0 < o_leaves o ->
  exists e' er, add_limit_tail mt o e = Ok (e', er) /\ ending W mt sid c e' er.
Proof.
  intros Hc Hoc Hfl Hmt Hty Hlv. pose proof (fsteps_cfg sid _ _ Hfl Hc) as [He Hf]. cbn in He, Hf.
  unfold add_limit_tail, if_match.
  assert (exists o1 e1, (if mt then match_order o e else Ok (o, e)) = Ok (o1, e1) /\
     rtc (fstep (mt = false) W) (e, Some o) (e1, Some o1) /\ same_kind o o1 /\ (mt = false -> (e1, o1) = (e, o)) /\ 0 <= o_leaves o1 /\
     (is_fok o = false -> is_aon o = false -> mt = false \/ settled e1 o1)) as (o1 & e1 & Heq & Hfl1 & Hk & Hm1 & Hlv1 & Hse).
  { destruct mt.
    - destruct (match_order_ok sid e o He Hf Hlv) as (o1 & e1 & Heq & Hr & Hse & _). exists o1, e1.
      split; [done|]. split; [apply (tsteps_fsteps _ _ Hr); by apply tradable_limit|]. split; [by apply (tsteps_kind _ _ Hr)|]. split; [done|].
      split; [destruct (tsteps_ok sid _ _ Hr He Hf) as (_ & Hf1 & _); cbn in Hf1; by destruct Hf1|]. intros. right. by apply Hse.
    - exists o, e. split; [done|]. split; [apply rtc_refl|]. split; [apply same_kind_refl|]. split; [done|]. split; [lia|]. by left. }
  rewrite Heq. cbn [rbind].
  assert (Hfl2 : rtc (fstep (mt = false) W) c (e1, Some o1)) by by eapply rtc_transitive.
  assert (Hmt2 : mt = false -> (e1, Some o1) = c). { intros Hmf. pose proof (Hm1 Hmf) as [= -> ->]. by apply Hmt. }
  destruct Hk as (Kid & Ksym & Kty & Kside & _ & _ & _ & Ktif & _).
  destruct ((0 <? o_leaves o1) && negb (immediate o1)) eqn:Er.
  - apply andb_true_iff in Er as [Hp Hni]. apply negb_true_iff in Hni.
    eapply rest_land; try done. { lia. } { congruence. }
    intros _ Hna. apply Hse; [unfold immediate in Hni; apply orb_false_iff in Hni as [_ Hfk]; unfold is_fok in *; by rewrite <- Ktif|unfold is_aon in *; by rewrite <- Ktif].
  - eapply done_land; try done.
    apply andb_false_iff in Er as [Hz|Hi].
    + left. lia. + right; right; left. split; [congruence|]. by apply negb_false_iff in Hi.
Qed.
Lemma market_tail_ok sid c e o oc : cfg_ok sid c -> snd c = Some oc -> rtc (fstep (true = false) W) c (e, Some o) ->
  o_type o = MARKET -> 0 < o_leaves o -> announced e o ->
  exists e' er, (do '(o, e) <- match_market o e; finish true (emit (EDeleteOrder o) e)) = Ok (e', er) /\ ending W true sid c e' er.
Proof.
  intros Hc Hoc Hfl Hty Hlv Han. pose proof (fsteps_cfg sid _ _ Hfl Hc) as [He Hf]. cbn in He, Hf.
  unfold match_market. destruct (best (opp (o_side o)) e) as [p|] eqn:Hb; cbn [rbind].
  - assert (Hm : mstep (true = false) W (e, Some o) (e, Some (set_price (market_price o p) o))) by (by eapply ms_mprice).
    pose proof (mstep_ok sid _ _ Hm (conj He Hf)) as [[_ Hf'] _ _ _]. cbn in Hf'.
    destruct (match_order_ok sid e (set_price (market_price o p) o) He Hf' Hlv) as (o1 & e1 & Heq & Hr & _).
    rewrite Heq. cbn [rbind]. pose proof (tsteps_kind _ _ Hr) as (Ei & _ & Et & _). cbn in Ei, Et.
    eapply (done_land true sid c e1 o1 Hc).
    + eapply rtc_transitive; [exact Hfl|]. eapply rtc_l; [|apply (tsteps_fsteps _ _ Hr); by apply tradable_market]. split; [done|]. split; by eexists.
    + done.
    + right; left. congruence.
  - eapply (done_land true sid c e o Hc Hfl); [done|]. right; by left.
Qed.

Lemma add_order_ok mt sid e o : eng_ok sid e -> fly_ok sid (e_ords e) o -> 0 < o_leaves o ->
  let o' := placed o (e_bk e) in
  exists e' er, add_order mt o e = Ok (e', er) /\ ending W mt sid (emit (EAddOrder o') e, Some o') e' er.
Proof.
  intros He Hf Hlv o'. pose proof (placed_fly sid _ _ (e_bk e) Hf) as Hf'. fold o' in Hf'.
  destruct (placed_same o (e_bk e)) as (Pid & Pty & Pside & Plv & Ptif & _). fold o' in Pid, Pty, Pside, Plv, Ptif.
  set (e0 := emit (EAddOrder o') e). assert (He0 : eng_ok sid e0) by by apply emit_ok.
  assert (Hc : cfg_ok sid (e0, Some o')) by by split.
  assert (Hstop : stop_type o' = true -> is_stop o' || is_trailing_stop o' || is_stop_limit o' || is_trailing_stop_limit o' = true ->
     o_type o' <> LIMIT -> o_type o' <> MARKET ->
     exists e' er, add_stop_rest mt o' e0 = Ok (e', er) /\ ending W mt sid (e0, Some o') e' er).
  { intros _ _ Hnl Hnm. unfold add_stop_rest. rewrite (proj2 (Z.ltb_lt 0 (o_leaves o'))) by lia.
    eapply rest_land; [done|done|apply rtc_refl|done|lia|done|done|done]. }
  unfold add_order. unfold placed in o'. destruct (o_type o) eqn:Ety.
  - (* market *) unfold add_market. change (emit (EAddOrder o) e) with e0. unfold if_match. destruct mt.
    + eapply (market_tail_ok sid _ e0 o); [exact Hc|done|apply rtc_refl|done|done|eexists; by left].
    + cbn [rbind]. eapply done_land; [exact Hc|apply rtc_refl|done|]. right; by left.
  - (* limit *) unfold add_limit. change (emit (EAddOrder o) e) with e0.
    eapply limit_tail_ok; [exact Hc|done|apply rtc_refl|done|done|done].
  - (* stop *) unfold add_stop. assert (Htr : is_trailing o = false) by (unfold is_trailing, is_trailing_stop, is_trailing_stop_limit; by rewrite Ety).
    rewrite Htr. change (emit (EAddOrder o) e) with e0. cbv zeta.
    destruct (mt && triggered o (e_bk e0)) eqn:Etr.
    + apply andb_true_iff in Etr as [-> Etr].
      assert (Hst : stop_type o = true) by (unfold stop_type, is_limit, is_market; by rewrite Ety).
      pose proof (fstep_trigger (F := true = false) sid e0 o He0 Hst Etr Hlv) as Hfs. unfold converted in Hfs. rewrite Ety in Hfs.
      eapply (market_tail_ok sid _ _ (to_market o)); [exact Hc|done|by apply rtc_once|done|done|eexists; by right].
    + apply Hstop; unfold stop_type, is_limit, is_market, is_stop; rewrite Pty; done.
  - (* stop limit *) unfold add_stop_limit. assert (Htr : is_trailing o = false) by (unfold is_trailing, is_trailing_stop, is_trailing_stop_limit; by rewrite Ety).
    rewrite Htr. change (emit (EAddOrder o) e) with e0. cbv zeta.
    destruct (mt && triggered o (e_bk e0)) eqn:Etr.
    + apply andb_true_iff in Etr as [-> Etr].
      assert (Hst : stop_type o = true) by (unfold stop_type, is_limit, is_market; by rewrite Ety).
      pose proof (fstep_trigger (F := true = false) sid e0 o He0 Hst Etr Hlv) as Hfs. unfold converted in Hfs. rewrite Ety in Hfs.
      eapply (limit_tail_ok true sid _ _ (to_limit o)); [exact Hc|done|by apply rtc_once|done|done|done].
    + apply Hstop; unfold stop_type, is_limit, is_market, is_stop_limit; rewrite Pty; try done. by rewrite !orb_true_r.
  - (* trailing stop *) unfold add_stop. assert (Htr : is_trailing o = true) by (unfold is_trailing, is_trailing_stop, is_trailing_stop_limit; by rewrite Ety).
    rewrite Htr. assert (Eo : set_stop (calc_trailing o (e_bk e)) o = o') by (unfold o', retrail; by rewrite Ety).
    rewrite Eo. cbv zeta. change (emit (EAddOrder o') e) with e0.
    destruct (mt && triggered o' (e_bk e0)) eqn:Etr.
    + apply andb_true_iff in Etr as [-> Etr].
      assert (Hst : stop_type o' = true) by (unfold stop_type, is_limit, is_market; by rewrite Pty).
      pose proof (fstep_trigger (F := true = false) sid e0 o' He0 Hst Etr ltac:(by rewrite Plv)) as Hfs. unfold converted in Hfs. rewrite Pty in Hfs.
      eapply (market_tail_ok sid _ _ (to_market o')); [exact Hc|done|by apply rtc_once|done|by rewrite <- Plv in Hlv|eexists; by right].
    + apply Hstop; unfold stop_type, is_limit, is_market, is_trailing_stop; rewrite Pty; try done. by rewrite orb_true_r.
  - (* trailing stop limit *) unfold add_stop_limit. assert (Htr : is_trailing o = true) by (unfold is_trailing, is_trailing_stop, is_trailing_stop_limit; by rewrite Ety).
    rewrite Htr. assert (Eo : set_price (u64 (calc_trailing o (e_bk e) + (o_price o - o_stop o))) (set_stop (calc_trailing o (e_bk e)) o) = o') by (unfold o', retrail; by rewrite Ety).
    cbv zeta. rewrite Eo. change (emit (EAddOrder o') e) with e0.
    destruct (mt && triggered o' (e_bk e0)) eqn:Etr.
    + apply andb_true_iff in Etr as [-> Etr].
      assert (Hst : stop_type o' = true) by (unfold stop_type, is_limit, is_market; by rewrite Pty).
      pose proof (fstep_trigger (F := true = false) sid e0 o' He0 Hst Etr ltac:(by rewrite Plv)) as Hfs. unfold converted in Hfs. rewrite Pty in Hfs.
      eapply (limit_tail_ok true sid _ _ (to_limit o')); [exact Hc|done|by apply rtc_once|done|done|by rewrite <- Plv in Hlv].
    + apply Hstop; unfold stop_type, is_limit, is_market, is_trailing_stop_limit; rewrite Pty; try done. by rewrite !orb_true_r.
Qed.

(** ** Reduce, Delete *)
Lemma api_reduce_ok mt sid e o q : eng_ok sid e -> e_ords e !! o_id o = Some o -> o_sym o = sid -> 0 < q ->
  exists e1 e' er, reduce_order o q e = Ok e1 /\ (do e <- reduce_order o q e; finish mt e) = Ok (e', er) /\
    ending W mt sid (e1, None) e' er.
Proof.
  intros He Ho Hs Hq. destruct (reduce_order_ok sid e o q He Ho Hs Hq) as (u & e1 & Heq & He1 & _).
  rewrite Heq. cbn [rbind]. destruct (finish_none mt sid e1 He1) as (e' & er & Hf & Hend). eauto 10.
Qed.
Lemma api_delete_ok mt sid e o : eng_ok sid e -> e_ords e !! o_id o = Some o -> o_sym o = sid ->
  exists e1 e' er, delete_order o e = Ok e1 /\ (do e <- delete_order o e; finish mt e) = Ok (e', er) /\
    ending W mt sid (e1, None) e' er.
Proof.
  intros He Ho Hs. destruct (delete_order_ok sid e o He Ho Hs) as (u & e1 & Heq & He1 & _).
  rewrite Heq. cbn [rbind]. destruct (finish_none mt sid e1 He1) as (e' & er & Hf & Hend). eauto 10.
Qed.

(** ** Execute by id *)
Definition execute_head (o : order) (price q0 : Z) (e : eng) : res eng :=
  let q := Z.min q0 (o_leaves o) in
  let o' := executed q o in
  do e <- eng_sub_reduce o' q (hidden_q o - hidden_q o') (visible_q o - visible_q o') (put o' (exec_note o price q e));
  Ok (if 0 <? o_leaves o' then emit (EUpdateOrder o') e else drop_id (o_id o') (emit (EDeleteOrder o') e)).
Lemma execute_head_ok sid e o price q0 : eng_ok sid e -> e_ords e !! o_id o = Some o -> o_sym o = sid -> 0 < q0 ->
  let q := Z.min q0 (o_leaves o) in
  let o' := executed q o in
  let Q := queue (e_bk e) (okind o) (okey o) in
  exists u e1, execute_head o price q0 e = Ok e1 /\ eng_ok sid e1 /\
    e_ords e1 = reduced_map (e_ords e) o' /\
    e_log e1 = e_log e ++ EExecute o price q :: lim_evs o sid u ++ [red_ev o'] /\
    bprices (e_bk e1) = bprices (update_matching (o_side o) price (update_last (o_side o) price (e_bk e))) /\
    prim (e_ords e1) (okind o) (okey o)
         (if q =? o_leaves o then filter (fun j => j <> o_id o) Q else Q) (e_bk e) (e_bk e1) u.
Proof.
  intros He Ho Hs Hq0 q o' Q. pose proof (mo_live _ (proj1 He) _ _ Ho) as Hl. pose proof (lo_leaves _ _ Hl) as Hlv.
  assert (Hq : 0 < q <= o_leaves o) by (unfold q; lia).
  destruct (put_exec_ok sid e o price q He Ho) as (He1 & Hords1 & Hlog1 & Hbk1).
  set (e1 := put (exec_incr q o) (exec_note o price q e)) in *.
  set (e1' := put o' (exec_note o price q e)).
  assert (Hx : e_ords e1 !! o_id (exec_incr q o) = Some (exec_incr q o)) by (rewrite Hords1; apply lookup_insert).
  assert (Hbk : e_bk e1' = e_bk e1) by done.
  destruct (eng_red_ok sid (e_ords e1) e1' (exec_incr q o) q (proj1 He1) ltac:(by rewrite Hbk; apply He1) Hx Hs Hq)
    as (u & e2 & Heq & Hords & Hok & Hlog & Hpr & Hp).
  change (set_leaves (o_leaves (exec_incr q o) - q) (exec_incr q o)) with o' in *.
  change (hidden_q (exec_incr q o)) with (hidden_q o) in Heq. change (visible_q (exec_incr q o)) with (visible_q o) in Heq.
  unfold execute_head. fold q. fold o'. fold e1'. rewrite Heq. cbn [rbind].
  assert (Hmap : reduced_map (e_ords e1) o' = reduced_map (e_ords e) o').
  { rewrite Hords1. apply (reduced_map_insert (e_ords e) o (exec_incr q o)). done. }
  rewrite Hmap in Hok, Hp.
  assert (Hmok : map_ok (reduced_map (e_ords e) o')).
  { rewrite <- Hmap. apply (map_ok_reduced (e_ords e1) (exec_incr q o) q); [apply He1|done|done]. }
  assert (Hss : same_sides (e_bk e) (e_bk e1')).
  { rewrite Hbk, Hbk1. eapply same_sides_trans; [apply same_sides_last|apply same_sides_matching]. }
  change (okind (exec_incr q o)) with (okind o) in Hp. change (okey (exec_incr q o)) with (okey o) in Hp.
  change (o_id (exec_incr q o)) with (o_id o) in Hp. change (o_leaves (exec_incr q o)) with (o_leaves o) in Hp.
  rewrite (same_sides_queue _ _ _ _ Hss) in Hp. fold Q in Hp.
  assert (Hp' := same_sides_prim _ _ _ _ _ _ _ _ _ (same_sides_sym _ _ Hss) (same_sides_refl (e_bk e2)) Hp).
  assert (Hpr' : bprices (e_bk e2) = bprices (update_matching (o_side o) price (update_last (o_side o) price (e_bk e)))).
  { rewrite Hpr, Hbk, Hbk1. done. }
  assert (Hlg : e_log e2 = e_log e ++ EExecute o price q :: lim_evs o sid u).
  { rewrite Hlog. cbn. rewrite <- app_assoc. done. }
  exists u. eexists. split; [reflexivity|]. unfold red_ev.
  destruct (Z.ltb_spec 0 (o_leaves o')) as [Hpos|Hz].
  - assert (Hne : (o_leaves o' =? 0) = false) by lia. rewrite Hne.
    assert (Hm2 : e_ords e2 = reduced_map (e_ords e) o'). { rewrite Hords. unfold reduced_map. rewrite Hne. done. }
    unfold eng_ok. cbn [emit e_ords e_bk e_log]. rewrite Hm2, Hlg. split; [by split|]. split; [done|]. split; [by rewrite <- app_assoc|]. by split.
  - assert (Hne : (o_leaves o' =? 0) = true). { unfold o' in *; cbn in *; lia. } rewrite Hne.
    assert (Hm2 : delete (o_id o') (e_ords e2) = reduced_map (e_ords e) o').
    { rewrite Hords. unfold reduced_map. rewrite Hne. cbn. apply delete_insert_delete. }
    unfold eng_ok. cbn [drop_id set_ords emit e_ords e_bk e_log]. rewrite Hm2, Hlg. split; [by split|]. split; [done|]. split; [by rewrite <- app_assoc|]. by split.
Qed.
Lemma execute_order_head mt o price q0 e : 
  execute_order mt o price q0 e = (do e <- execute_head o price q0 e; finish mt e).
Proof.
  unfold execute_order, execute_head. change (set_leaves (o_leaves o - Z.min q0 (o_leaves o)) (exec_incr (Z.min q0 (o_leaves o)) o)) with (executed (Z.min q0 (o_leaves o)) o).
  cbv zeta. destruct (eng_sub_reduce _ _ _ _ _); try done. cbn [rbind]. by destruct (0 <? _).
Qed.
Lemma api_execute_ok mt sid e o price q : eng_ok sid e -> e_ords e !! o_id o = Some o -> o_sym o = sid -> 0 < q ->
  exists e1 e' er, execute_head o price q e = Ok e1 /\ execute_order mt o price q e = Ok (e', er) /\
    ending W mt sid (e1, None) e' er.
Proof.
  intros He Ho Hs Hq. destruct (execute_head_ok sid e o price q He Ho Hs Hq) as (u & e1 & Heq & He1 & _).
  rewrite execute_order_head, Heq. cbn [rbind]. destruct (finish_none mt sid e1 He1) as (e' & er & Hf & Hend). eauto 10.
Qed.

(** ** Modify / Mitigate *)
Definition modify_head (o' : order) (e1 : eng) : eng :=
  if 0 <? o_leaves o' then emit (EUpdateOrder o') e1 else e1.
Lemma flight_any mt sid e o : eng_ok sid e -> fly_ok sid (e_ords e) o -> 0 < o_leaves o -> tradable W e o ->
  exists o1 e1, if_match mt match_order o e = Ok (o1, e1) /\ rtc (fstep (mt = false) W) (e, Some o) (e1, Some o1) /\ same_kind o o1 /\
    (mt = false -> (e1, Some o1) = (e, Some o)) /\ 0 <= o_leaves o1 /\
    (is_fok o = false -> is_aon o = false -> mt = false \/ settled e1 o1).
Proof.
  intros He Hf Hlv Htr. unfold if_match. destruct mt.
  - destruct (match_order_ok sid e o He Hf Hlv) as (o1 & e1 & Heq & Hr & Hse & _). exists o1, e1.
    split; [done|]. split; [by apply (tsteps_fsteps _ _ Hr)|]. split; [by apply (tsteps_kind _ _ Hr)|]. split; [done|].
    split; [destruct (tsteps_ok sid _ _ Hr He Hf) as (_ & Hf1 & _); cbn in Hf1; by destruct Hf1|]. intros. right. by apply Hse.
  - exists o, e. split; [done|]. split; [apply rtc_refl|]. split; [apply same_kind_refl|]. split; [done|]. split; [lia|]. by left.
Qed.
Lemma modify_order_ok mt mit sid e o p q : eng_ok sid e -> e_ords e !! o_id o = Some o -> o_sym o = sid ->
  u64_range p -> 0 < q -> total (delete (o_id o) (e_ords e)) + q < TWO64 -> stop_type o = false \/ W ->
  let o' := modified mit p q o in
  exists e1 e' er, eng_sub_delete o e = Ok e1 /\ modify_order mt mit o p q e = Ok (e', er) /\
    eng_ok sid (drop_id (o_id o) e1) /\
    ending W mt sid (modify_head o' (drop_id (o_id o) e1), Some o') e' er /\ er = OK.
Proof.
  intros He Ho Hs Hp Hq Htot HW o'. pose proof (mo_live _ (proj1 He) _ _ Ho) as Hl.
  destruct (eng_del_ok sid e o He Ho Hs) as (u & e1 & Heq & Hords & Hok & _).
  exists e1. unfold modify_order. rewrite Heq. cbn [rbind]. fold o'.
  set (e2 := drop_id (o_id o) e1).
  assert (Hords2 : e_ords e2 = delete (o_id o) (e_ords e)) by (cbn; by rewrite Hords).
  assert (He2 : eng_ok sid e2). { split; rewrite Hords2; [apply map_ok_delete, He|done]. }
  assert (Hid : o_id o' = o_id o) by (unfold o', modified; by destruct mit).
  assert (Hty : o_type o' = o_type o) by (unfold o', modified; by destruct mit).
  assert (Htif : o_tif o' = o_tif o) by (unfold o', modified; by destruct mit).
  assert (Hlv : 0 <= o_leaves o' <= q).
  { unfold o', modified. destruct mit; cbn; [|lia]. destruct (Z.ltb_spec (o_exec o) q); [|lia].
    destruct (lo_exec _ _ Hl). lia. }
  assert (Hf : fly_ok sid (e_ords e2) o').
  { destruct Hl. rewrite Hords2. constructor; unfold o', modified; destruct mit; cbn; try done; try lia.
    - unfold o', modified in Hlv; cbn in Hlv. lia.
    - unfold o', modified in Hlv; cbn in Hlv. lia. }
  assert (Hnone : e_ords e2 !! o_id o' = None) by (rewrite Hords2, Hid; apply lookup_delete).
  unfold modify_head. destruct (Z.ltb_spec 0 (o_leaves o')) as [Hpos|Hz].
  - set (e3 := emit (EUpdateOrder o') e2). assert (He3 : eng_ok sid e3) by by apply emit_ok.
    destruct (flight_any mt sid e3 o' He3 Hf Hpos) as (o4 & e4 & Hm & Hfl & Hk & Hmt & Hlv4 & Hse).
    { split; [unfold stop_type, is_limit, is_market in *; by rewrite Hty|]. rewrite Hty. intros Hmk. by destruct (lo_type _ _ Hl). }
    rewrite Hm. cbn [rbind]. assert (Hc : cfg_ok sid (e3, Some o')) by by split.
    pose proof (fsteps_cfg sid _ _ Hfl Hc) as [He4 Hf4]. cbn in He4, Hf4.
    destruct (fsteps_flight sid _ _ Hfl Hc) as [Hsh _]. cbn in Hsh.
    destruct Hk as (Kid & Ksym & Kty & Kside & _ & _ & _ & Ktif & _).
    destruct (Z.ltb_spec 0 (o_leaves o4)) as [Hp4|Hz4].
    + assert (Hst : mstep (mt = false) W (e4, Some o4) (eng_add o4 (put o4 e4), None)).
      { apply ms_rest; try done. 
        - apply (sh_dom _ _ _ Hsh). rewrite Kid. exact Hnone.
        - rewrite Kty, Hty. apply Hl.
        - rewrite Kty, Hty. intros Hlim. destruct (lo_rest _ _ Hl Hlim) as [E|E];
          unfold immediate, is_ioc, is_fok; rewrite Ktif, Htif, E; done.
        - rewrite Kty, Hty. intros Hlim Hna. apply Hse; [|unfold is_aon in *; by rewrite <- Ktif].
          destruct (lo_rest _ _ Hl Hlim) as [E|E]; unfold is_fok; by rewrite Htif, E. }
      pose proof (mstep_ok sid _ _ Hst (conj He4 Hf4)) as [[He5 _] _ _ _]. cbn in He5.
      destruct (finish_land mt sid (e3, Some o') _ _ Hfl ltac:(by eexists) Hmt Hst He5) as (e' & er & Hfin & Hend).
      exists e', er. do 4 (split; [done|]).
      destruct (finish_ok mt sid _ He5) as (? & Heq' & _). congruence.
    + destruct (done_land mt sid (e3, Some o') e4 o4 Hc Hfl Hmt) as (e' & er & Hfin & Hend). { left. lia. }
      exists e', er. do 4 (split; [done|]).
      destruct (finish_ok mt sid _ (emit_ok sid (EDeleteOrder o4) e4 He4)) as (? & Heq' & _). congruence.
  - destruct (done_land mt sid (e2, Some o') e2 o') as (e' & er & Hfin & Hend); [by split|apply rtc_refl|done|left; lia|].
    exists e', er. do 4 (split; [done|]).
    destruct (finish_ok mt sid _ (emit_ok sid (EDeleteOrder o') e2 He2)) as (? & Heq' & _). congruence.
Qed.

(** ** Replace *)
Lemma replace_order_ok mt sid e o ni p q : eng_ok sid e -> e_ords e !! o_id o = Some o -> o_sym o = sid ->
  o_type o = LIMIT -> 0 < ni -> u64_range p -> 0 < q -> total (delete (o_id o) (e_ords e)) + q < TWO64 ->
  let o' := replaced ni p q o in
  exists e1 e' er, delete_order o e = Ok e1 /\ replace_order mt o ni p q e = Ok (e', er) /\
    eng_ok sid e1 /\ fly_ok sid (e_ords e1) o' /\
    ending W mt sid (emit (EAddOrder o') e1, Some o') e' er.
Proof.
  intros He Ho Hs Hlim Hni Hp Hq Htot o'. pose proof (mo_live _ (proj1 He) _ _ Ho) as Hl.
  destruct (delete_order_ok sid e o He Ho Hs) as (u & e1 & Heq & He1 & Hords & _).
  exists e1. unfold replace_order. rewrite Heq. cbn [rbind]. fold o'.
  assert (Hf : fly_ok sid (e_ords e1) o').
  { destruct Hl. rewrite Hords. constructor; try done; cbn; try lia. }
  set (e2 := emit (EAddOrder o') e1). assert (He2 : eng_ok sid e2) by by apply emit_ok.
  assert (Hc : cfg_ok sid (e2, Some o')) by by split.
  destruct (flight_any mt sid e2 o' He2 Hf Hq) as (o4 & e4 & Hm & Hfl & Hk & Hmt & Hlv4 & Hse).
  { by apply tradable_limit. }
  rewrite Hm. cbn [rbind]. destruct Hk as (Kid & Ksym & Kty & Kside & _ & _ & _ & Ktif & _).
  destruct (Z.ltb_spec 0 (o_leaves o4)) as [Hp4|Hz4].
  - destruct (rest_land mt sid (e2, Some o') e4 o4 o' Hc eq_refl Hfl Hmt Hp4) as (e' & er & Hfin & Hend).
    { rewrite Kty. cbn. congruence. }
    { intros _. destruct (lo_rest _ _ Hl Hlim) as [E|E]; unfold immediate, is_ioc, is_fok; rewrite Ktif; cbn; rewrite E; done. }
    { intros _ Hna. apply Hse; [|unfold is_aon in *; by rewrite <- Ktif].
      destruct (lo_rest _ _ Hl Hlim) as [E|E]; unfold is_fok; cbn; by rewrite E. }
    eauto 10.
  - destruct (done_land mt sid (e2, Some o') e4 o4 Hc Hfl Hmt) as (e' & er & Hfin & Hend). { left. lia. }
    eauto 10.
Qed.
End ends.
