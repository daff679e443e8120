(** * PropsStops.v -- stop orders and what makes them trade: C16, C17. *)
From Coq Require Import ZifyBool.
From stdpp Require Import fin_maps relations.
From Verif Require Import Types Book Engine Manager Factory Validate LevelFacts BookInv EngInv EngPrim Steps StepsOk Refine3 Refine4 Api StateInv Micro Reach Calls Witness PropsState PropsSettle CallFacts PropsMirror PropsMirror2 Split Spec Spec2 Spec3 Spec4.

Lemma stop_type_kind o : stop_type o = stop_kind (o_type o).
Proof. unfold stop_type, is_limit, is_market. by destruct (o_type o). Qed.
Lemma lev_not_exec sid u o p q : EExecute o p q ∉ lev_evs sid u.
Proof. unfold lev_evs, lev_ev. destruct (u_type u); set_solver. Qed.
Lemma lim_not_exec x sid u o p q : EExecute o p q ∉ lim_evs x sid u.
Proof. unfold lim_evs. destruct (is_limit x); [apply lev_not_exec|set_solver]. Qed.
Lemma red_not_exec x o p q : EExecute o p q <> red_ev x.
Proof. unfold red_ev. by destruct (_ =? 0). Qed.
(** Which micro actions report executions. *)
Lemma ustep_execs sid A c a r p q b c' : cfg_ok sid c -> ustep sid A c (a ++ EExecute r p q :: b) c' ->
  a = [] /\ ((exists e f, c = (e, f) /\ e_ords e !! o_id r = Some r /\ o_sym r = sid /\ o_type r = LIMIT /\ xcond A e f r p q /\ 0 < q) \/
             (snd c = Some r /\ within_limit r p /\ (stop_type r = false \/ md_stop A) /\ (forall x, ~ announced (fst c) x) /\ 0 < q <= o_leaves r)).
Proof.
  intros Hc Hu. assert (Hex : exists evs, evs = a ++ EExecute r p q :: b) by eauto. destruct Hex as [evs E]. rewrite <- E in Hu.
  assert (Hin : EExecute r p q ∈ evs) by (rewrite E; set_solver).
  destruct Hu as [e f r0 p0 q0 u e' Q' Hr Hs Ht Hq0 Hx He' Hords Hlog Hpr Hp
    |e f r0 p0 u e' Q' Hr Hs Ht Hx He' Hords Hlog Hpr Hp|e o p0 q0 Hq0 Hw Hfa Hst Hna|e o p0 Hty Hb|e o Hty Hre
    |e o u e' Hfr Hlv Hty Htif He' Hords Hlog Hpr Hp|e o Hmv|e o u e' Ho Hs Hty Hre He' Hords Hlog Hpr Hp
    |e o u1 b1 u2 e' o' Ho Hs Htr Hne He' Hords Hlog Hpr Hp1 Hp2|e s|e].
  all: try (by exfalso; set_solver).
  - destruct a as [|y a]; cbn in E.
    + injection E as -> -> -> _. split; [done|]. left. exists e, f. repeat (split; [done|]). lia.
    + exfalso. injection E as _ E. assert (EExecute r p q ∈ red_ev (executed q0 r0) :: lev_evs sid u) as Hd.
      { rewrite E. set_solver. } apply elem_of_cons in Hd as [Hd|Hd]; [by eapply red_not_exec|by eapply lev_not_exec].
  - destruct a as [|y a]; cbn in E.
    + injection E as -> -> <- _. split; [done|]. left. exists e, f. repeat (split; [done|]).
      pose proof (lo_leaves _ _ (mo_live _ (proj1 (proj1 Hc)) _ _ Hr)). lia.
    + exfalso. injection E as _ E. assert (EExecute r p q ∈ lev_evs sid u ++ [EDeleteOrder (exec_incr (o_leaves r0) r0)]) as Hd by (unfold lev_evs; cbn [app]; rewrite E; set_solver).
      apply elem_of_app in Hd as [Hd|Hd]; [by eapply lev_not_exec|set_solver].
  - destruct a as [|y a]; [|by destruct a]. injection E as -> -> -> _. split; [done|]. right. cbn. done.
  - exfalso. by eapply lim_not_exec.
Qed.
(** ** C16 *)
Lemma mod_stop_spec s a : inv s -> mod_stop s a -> modifies_stop s a.
Proof.
  intros Hinv (i & p & q & o & Ha & Ho & Hst). exists i, o. rewrite get_order_inv by done. rewrite <- stop_type_kind.
  destruct Ha as [-> | ->]; done.
Qed.
Theorem C16_stop_trades_partial s a s' er evs o p q : reach s -> op_ok s a -> call s a s' er evs -> ~ modifies_stop s a ->
  EExecute o p q ∈ evs -> stop_kind (o_type o) = true -> is_execute a = true /\ refers a = Some (o_id o).
Proof.
  intros Hr Hop Hc Hnm Hin Hk. pose proof (reach_inv _ Hr) as Hinv. apply elem_of_list_split in Hin as (pre & post & ->).
  destruct (registry_op a) eqn:Hreg.
  { destruct (call_result _ _ _ _ _ Hr Hop Hc) as (_ & Hres & _). destruct Hc as [_ Hlog].
    destruct (result_registry _ _ _ _ Hres Hreg) as (_ & _ & evs' & Hl & _ & He). rewrite Hlog in Hl. apply app_inv_head in Hl. subst evs'.
    destruct He as [E|(ev & E & Hev)]; [by destruct pre|]. destruct pre as [|e0 pre]; cbn in E; [injection E as <- _; done|injection E as _ E; by destruct pre]. }
  destruct (call_made s a s' er pre (EExecute o p q) post (Mode True True True False) Hr Hop Hreg Hc) as (s1 & x & l1 & pre1 & pre2 & post1 & Hs & Hinv1 & Hop1 & Hx & _ & Hmade & ->).
  { constructor; cbn; [split; by left|by left|done|]. intros H. apply Hnm. by apply mod_stop_spec. }
  destruct Hmade as [a1 sid b hevs c post2 -> Hord Hb Htg Hh Hcf E|sid b h c0 c1 c2 pre3 a' b' Hb Hst Hc0 Hus Hc1 Hu ->].
  - assert (Hin : EExecute o p q ∈ hevs) by (rewrite E; set_solver).
    destruct Hh as [o0 o' Hsym Hval|i q0 o0 u e' q1 o' Q' Ho Hid Hsym Hq He' Hords Hlog Hpr Hp
    |mit i p0 q0 o0 u e' o' evs' Q' Ho Hid Hsym Hq He' Hords Hlog Hpr Hp
    |i ni p0 q0 o0 u e' o' Q' evs' Ho Hid Hsym Hq Hni Hty He' Hords Hlog Hpr Hp
    |i o0 u e' Q' evs' Ho Hid Hsym He' Hords Hlog Hpr Hp
    |a2 i price q0 o0 u e' q1 o' Q' evs' Ha Ho Hid Hsym Hq He' Hords Hlog Hpr Hp].
    + set_solver.
    + exfalso. apply elem_of_cons in Hin as [Hin|Hin]; [by eapply red_not_exec|by eapply lim_not_exec].
    + exfalso. apply elem_of_app in Hin as [Hin|Hin]; [by eapply lim_not_exec|]. destruct (0 <? _); set_solver.
    + exfalso. apply elem_of_app in Hin as [Hin|Hin]; [by eapply lim_not_exec|]. set_solver.
    + exfalso. apply elem_of_app in Hin as [Hin|Hin]; [by eapply lim_not_exec|]. set_solver.
    + apply elem_of_cons in Hin as [Hin|Hin].
      * injection Hin as -> -> ->.
        assert (Hxe : is_execute a2 = true /\ refers a2 = Some i) by (by destruct Ha as [[-> _]| ->]).
        destruct Hxe as [Hxe Hre]. assert (a2 = a) as <-; [|split; [done|congruence]].
        destruct a; cbn in Hx; try done. destruct Hx as [-> | ->]; done.
      * exfalso. apply elem_of_app in Hin as [Hin|Hin]; [by eapply lim_not_exec|]. apply elem_of_list_singleton in Hin. by eapply red_not_exec.
  - exfalso. destruct (ustep_execs _ _ _ _ _ _ _ _ _ Hc1 Hu) as [_ [(e & f & _ & _ & _ & Hty & _)|(_ & _ & [Hty|[]] & _)]].
    + by rewrite Hty in Hk. + rewrite stop_type_kind in Hty. congruence.
Qed.
Print Assumptions C16_stop_trades_partial.

(** Stops of all kinds in a book in which matching goes on. *)
Definition ex_stops : list op := setup ++ [EnableMatching; BL 1 90 10; SL 2 110 10; AddOrder (StopOrder 3 0 BUY 112 3 GTC MAX64);
  AddOrder (StopLimitOrder 4 0 SELL 85 80 4 GTC MAX64); AddOrder (TrailingStopOrder 5 0 BUY 130 5 15 2 GTC MAX64); SL 6 120 10].
Definition stop_trades (s : state) (a : op) : list (Z * otype * Z * Z) :=
  map (fun x => (o_id (fst (fst x)), o_type (fst (fst x)), snd (fst x), snd x)) (execs (news s a)).
Example C16_example : let s := hist ex_stops in let a := BL 7 110 10 in reach s /\ op_ok s a /\ ~ modifies_stop s a /\
  call s a (after s a) OK (news s a) /\ size (filter (fun x => stop_kind (o_type (snd x)) = true) (st_ords s)) = 3%nat /\
  stop_trades s a = [(2, LIMIT, 110, 10); (7, LIMIT, 110, 10); (6, LIMIT, 120, 3); (3, MARKET, 120, 3)].
Proof.
  split; [apply hist_reach|]. split; [by apply op_okb_ok; vm_compute|]. split; [by intros (i & o & [=] & _)|].
  split; [by apply (hist_call ex_stops); vm_compute|]. by vm_compute.
Qed.
(** ModifyOrder on a stop-limit order matches it at once although its stop price is not reached: the
    sell order at 100 trades with a buy stop of stop price 200. *)
Theorem C16_modify_refuted : exists s i p q s' evs o, reach s /\ op_ok s (ModifyOrder i p q) /\ call s (ModifyOrder i p q) s' OK evs /\
  EExecute o 100 5 ∈ evs /\ o_type o = STOP_LIMIT /\ o_side o = BUY /\ o_stop o = 200 /\
  exists b, get_book 0 s = Some b /\ s_best (b_asks b) = Some 100.
Proof.
  pose (ops := setup ++ [EnableMatching; SL 1 100 10; AddOrder (StopLimitOrder 2 0 BUY 200 50 5 GTC MAX64)]).
  exists (hist ops), 2, 100, 5, (after (hist ops) (ModifyOrder 2 100 5)), (news (hist ops) (ModifyOrder 2 100 5)), (StopLimitOrder 2 0 BUY 200 100 5 GTC MAX64).
  split; [apply hist_reach|]. split; [by apply op_okb_ok; vm_compute|]. split; [by apply (hist_call ops); vm_compute|].
  split; [vm_compute; set_solver|]. split; [done|]. split; [done|]. split; [done|]. eexists. by vm_compute.
Qed.
Print Assumptions C16_modify_refuted.

(** ** C17 *)
Lemma converted_activated y : stop_kind (o_type y) = true -> activated y (converted y).
Proof.
  intros Hk. unfold activated, converted, to_market, to_limit, is_fok. destruct (o_type y) eqn:Et; cbn; try done; repeat (split; [done|]); rewrite ?Et; try done;
  try (split; [done|]); unfold bool_decide; by destruct (decide_rel _ _ _) || destruct (decide _).
Qed.
Lemma lev_not_upd sid u o : EUpdateOrder o ∉ lev_evs sid u.
Proof. unfold lev_evs, lev_ev. destruct (u_type u); set_solver. Qed.
Lemma lim_not_upd x sid u o : EUpdateOrder o ∉ lim_evs x sid u.
Proof. unfold lim_evs. destruct (is_limit x); [apply lev_not_upd|set_solver]. Qed.
Lemma red_upd o x : red_ev o = EUpdateOrder x -> x = o.
Proof. unfold red_ev. destruct (_ =? 0); [done|]. by intros [= ->]. Qed.
Lemma reached_mirror ms sid b t o : book_ok ms sid b -> (forall ty p, t ty p = shown b ty p) -> stop_reached o b -> reached_in t o.
Proof.
  intros Hb Ht Hr. unfold stop_reached in Hr. unfold reached_in. destruct (o_side o); intros p Hp; apply Hr; rewrite Ht in Hp.
  - by apply (shown_queue ms sid b SELL p Hb). - by apply (shown_queue ms sid b BUY p Hb).
Qed.
(** Which micro actions report an order update: a partial fill, a conversion, a trailing move. *)
Lemma ustep_updates sid A c a x b c' : ustep sid A c (a ++ EUpdateOrder x :: b) c' ->
  (exists r p q, a = [EExecute r p q] /\ x = executed q r /\ o_type r = LIMIT) \/
  (a = [] /\ exists o, stop_type o = true /\ stop_reached o (e_bk (fst c)) /\ x = converted o /\
    (snd c = Some o /\ 0 < o_leaves o \/ snd c = None /\ e_ords (fst c) !! o_id o = Some o /\ o_sym o = sid)) \/
  (a = [] /\ stop_kind (o_type x) = true /\ exists o, e_ords (fst c) !! o_id o = Some o /\ o_sym o = sid /\ snd c = None /\ x = retrail (calc_trailing o (e_bk (fst c))) o /\
     is_trailing o = true /\ calc_trailing o (e_bk (fst c)) <> o_stop o).
Proof.
  intros Hu. assert (Hex : exists evs, evs = a ++ EUpdateOrder x :: b) by eauto. destruct Hex as [evs E]. rewrite <- E in Hu.
  assert (Hin : EUpdateOrder x ∈ evs) by (rewrite E; set_solver).
  destruct Hu as [e f r0 p0 q0 u e' Q' Hr Hs Ht Hq0 Hx He' Hords Hlog Hpr Hp
    |e f r0 p0 u e' Q' Hr Hs Ht Hx He' Hords Hlog Hpr Hp|e o p0 q0 Hq0 Hw Hfa Hst Hna|e o p0 Hty Hb|e o Hty Hre
    |e o u e' Hfr Hlv Hty Htif He' Hords Hlog Hpr Hp|e o Hmv|e o u e' Ho Hs Hty Hre He' Hords Hlog Hpr Hp
    |e o u1 b1 u2 e' o' Ho Hs Htr Hne He' Hords Hlog Hpr Hp1 Hp2|e s|e].
  all: try (by exfalso; set_solver).
  - left. destruct a as [|y1 a]; [done|]. cbn in E. injection E as <- E. destruct a as [|y2 a]; cbn in E.
    + injection E as E _. apply red_upd in E as ->. by exists r0, p0, q0.
    + injection E as _ E. exfalso. apply (lev_not_upd sid u x). rewrite E. set_solver.
  - exfalso. destruct a as [|y1 a]; [done|]. cbn in E. injection E as _ E. assert (EUpdateOrder x ∈ lev_evs sid u ++ [EDeleteOrder (exec_incr (o_leaves r0) r0)]) as Hd by (unfold lev_evs; cbn [app]; rewrite E; set_solver).
    apply elem_of_app in Hd as [Hd|Hd]; [by eapply lev_not_upd|set_solver].
  - right. left. destruct a as [|y a]; [|by destruct a]. injection E as <- _. split; [done|]. exists o. cbn. auto 10.
  - exfalso. by eapply lim_not_upd.
  - right. left. destruct a as [|y a]; [|by destruct a]. injection E as <- _. split; [done|]. exists o. cbn. auto 10.
  - right. right. destruct a as [|y a]; [|by destruct a]. injection E as <- _. split; [done|]. split; [|by exists o].
    unfold is_trailing, is_trailing_stop, is_trailing_stop_limit in Htr. unfold o', retrail. by destruct (o_type o) eqn:Et; cbn; rewrite ?Et.
Qed.
Theorem C17_stop_activation s a s' er pre x post c g d y : reach s -> op_ok s a -> call s a s' er (pre ++ EUpdateOrder x :: post) ->
  mirrors c s -> (forall i, g !! i = get_order i s) -> listen_all g pre = Some d -> d !! o_id x = Some y ->
  stop_kind (o_type y) = true -> stop_kind (o_type x) = false ->
  activated y x /\ exists m t, hear_all c pre = Some m /\ m (o_sym y) = Some t /\ reached_in t y.
Proof.
  intros Hr Hop Hc Hm Hg Hl Hy Hky Hkx. pose proof (reach_inv _ Hr) as Hinv.
  assert (g = st_ords s) as ->. { apply map_eq. intros i. by rewrite Hg, get_order_inv. }
  destruct (registry_op a) eqn:Hreg.
  { destruct (call_result _ _ _ _ _ Hr Hop Hc) as (_ & Hres & _). destruct Hc as [_ Hlog].
    destruct (result_registry _ _ _ _ Hres Hreg) as (_ & _ & evs' & Hl' & _ & He). rewrite Hlog in Hl'. apply app_inv_head in Hl'. subst evs'.
    destruct He as [E|(ev & E & Hev)]; [by destruct pre|]. destruct pre as [|e0 pre]; cbn in E; [injection E as <- _; done|injection E as _ E; by destruct pre]. }
  destruct (call_made s a s' er pre (EUpdateOrder x) post (wide True) Hr Hop Hreg Hc) as (s1 & w & l1 & pre1 & pre2 & post1 & Hs & Hinv1 & Hop1 & Hx & _ & Hmade & ->).
  { apply permits_wide. by left. }
  assert (El : st_ords (start_of s a) = st_ords s) by (by destruct a).
  apply listen_all_app in Hl as (d1 & Hl1 & Hl2). rewrite <- El in Hl1. pose proof (segs_heard _ _ _ _ _ _ Hs Hl1) as ->.
  destruct (segs_hears _ _ _ _ _ Hs c) as (m1 & Hm1 & Hmi1). { eapply mirrors_books; [|done]. intros i. by destruct a. }
  apply hears_all in Hm1.
  destruct Hmade as [a1 sid b hevs c0 post2 -> Hord Hb Htg Hh Hcf E|sid b h c0 c1 c2 pre3 a' b' Hb Hst Hc0 Hus Hc1 Hu ->].
  - (* head actions keep the type of the order *)
    exfalso. assert (Hin : EUpdateOrder x ∈ hevs) by (rewrite E; set_solver). pose proof (inv_eng _ _ _ Hinv1 Hb) as He1.
    destruct Hh as [o0 o' Hsym Hval|i q0 o0 u e' q1 o' Q' Ho Hid Hsym Hq He' Hords Hlog Hpr Hp
    |mit i p0 q0 o0 u e' o' evs' Q' Ho Hid Hsym Hq He' Hords Hlog Hpr Hp
    |i ni p0 q0 o0 u e' o' Q' evs' Ho Hid Hsym Hq Hni Hty He' Hords Hlog Hpr Hp
    |i o0 u e' Q' evs' Ho Hid Hsym He' Hords Hlog Hpr Hp
    |a2 i price q0 o0 u e' q1 o' Q' evs' Ha Ho Hid Hsym Hq He' Hords Hlog Hpr Hp]; cbn in Ho || idtac.
    + set_solver.
    + destruct pre2 as [|y1 pre2]; cbn in E.
      * injection E as E _. apply red_upd in E as ->. cbn in Hl2. injection Hl2 as <-. cbn in Hy. rewrite Hid, Ho in Hy. injection Hy as <-. cbn in Hkx. congruence.
      * injection E as _ E. apply (lim_not_upd o0 sid u x). rewrite E. set_solver.
    + assert (x = o') as ->. { apply elem_of_app in Hin as [Hin|Hin]; [by destruct (lim_not_upd o0 sid u x)|]. destruct (0 <? _) in Hin; set_solver. }
      assert (pre2 = lim_evs o0 sid u) as ->.
      { unfold evs' in E. destruct (app_cons_split _ _ _ _ _ E) as [(b1 & E1 & _)|(a1 & -> & E1)].
        - destruct (lim_not_upd o0 sid u o'). rewrite E1. set_solver.
        - destruct (0 <? _) in E1; [|by destruct a1]. destruct a1 as [|? a1]; [by rewrite app_nil_r|]. by destruct a1. }
      rewrite listen_lim0 in Hl2. injection Hl2 as <-. assert (o_id o' = o_id o0) as Eid by (unfold o', modified; by destruct mit).
      rewrite Eid, Hid, Ho in Hy. injection Hy as <-. assert (o_type o' = o_type o0) as Ety by (unfold o', modified; by destruct mit). congruence.
    + apply elem_of_app in Hin as [Hin|Hin]; [by eapply lim_not_upd|]. set_solver.
    + apply elem_of_app in Hin as [Hin|Hin]; [by eapply lim_not_upd|]. set_solver.
    + destruct pre2 as [|y1 pre2]; [done|]. cbn in E. injection E as <- E.
      assert (red_ev o' = EUpdateOrder x /\ pre2 = lim_evs o0 sid u) as [Ex ->].
      { destruct (app_cons_split _ _ _ _ _ E) as [(b1 & E1 & _)|(a1 & -> & E1)].
        - destruct (lim_not_upd o0 sid u x). rewrite E1. set_solver.
        - destruct a1 as [|? a1]; [injection E1 as E1 _; by rewrite app_nil_r|]. by destruct a1. }
      apply red_upd in Ex as ->. rewrite (listen_step _ _ _ _ (listen_execute _ o0 price q1 ltac:(by rewrite Hid))), listen_lim0 in Hl2. injection Hl2 as <-.
      cbn in Hy. rewrite lookup_insert in Hy. injection Hy as <-. cbn in Hkx, Hky. congruence.
  - rewrite app_assoc in Hl2. apply listen_all_app in Hl2 as (d1 & Hl2 & Hl3).
    pose proof (micro_heard _ _ _ _ _ _ _ _ _ _ Hinv1 Hb Hst Hc0 Hus Hl2) as Hcl.
    destruct (micro_hears _ _ _ _ _ _ _ _ _ _ Hinv1 Hb Hmi1 Hst Hc0 Hus) as (m & Hmm & Hk). destruct (knows_view _ _ _ _ Hk) as (t & Ht & Hv).
    destruct (ustep_updates _ _ _ _ _ _ _ Hu) as [(r & p & q & -> & -> & Hty)|[(-> & o & Hso & Hre & -> & Hwh)|(_ & Hk' & _)]].
    + exfalso. cbn in Hl3. destruct (d1 !! o_id r) as [r1|]; [|done]. cbn in Hl3. destruct (decide _); [|done]. injection Hl3 as <-.
      cbn in Hy. rewrite lookup_insert in Hy. injection Hy as <-. cbn in Hky. by rewrite Hty in Hky.
    + injection Hl3 as <-. rewrite app_nil_r in *.
      assert (Eid : o_id (converted o) = o_id o). { unfold converted, to_market, to_limit. destruct (o_type o); cbn; try done; by destruct (is_fok _). }
      assert (o_sym o = sid /\ y = o) as [Hsy ->].
      { destruct c1 as [e1 f1]. cbn in *. destruct Hwh as [[-> Hlv]|(-> & Ho & Hs0)].
        - split; [apply (proj2 Hc1)|]. destruct Hcl as (_ & y' & Hsf & ->). rewrite Eid in Hy. cbn in Hy. rewrite lookup_insert in Hy. injection Hy as <-.
          destruct Hsf as [?|[[Hmk _]|?]]; [done| |lia]. rewrite stop_type_kind, Hmk in Hso. done.
        - split; [done|]. unfold client in Hcl. cbn in Hcl. subst d1. rewrite Eid, Ho in Hy. by injection Hy as <-. }
      split; [by apply converted_activated|]. exists m, t. split; [by eapply hear_all_app|]. split; [by rewrite Hsy|].
      eapply (reached_mirror _ sid); [exact (proj2 (proj1 Hc1))|done|done].
    + congruence.
Qed.
Print Assumptions C17_stop_activation.
(** An execution at 110 brings the best ask to 120 and triggers the buy stop at 112. *)
Example C17_example : let s := hist ex_stops in let a := BL 7 110 10 in
  exists pre x post d y, reach s /\ op_ok s a /\ call s a (after s a) OK (pre ++ EUpdateOrder x :: post) /\ (length pre > 6)%nat /\
    listen_all (st_ords s) pre = Some d /\ d !! o_id x = Some y /\ o_type y = STOP /\ o_stop y = 112 /\ o_type x = MARKET.
Proof.
  cbv zeta. set (s := hist ex_stops). set (a := BL 7 110 10).
  set (pre := take 7 (news s a)). 
  exists pre, (to_market (StopOrder 3 0 BUY 112 3 GTC MAX64)), (drop 8 (news s a)), (default ∅ (listen_all (st_ords s) pre)), (StopOrder 3 0 BUY 112 3 GTC MAX64).
  split; [apply hist_reach|]. split; [by apply op_okb_ok; vm_compute|]. split.
  { assert (pre ++ EUpdateOrder (to_market (StopOrder 3 0 BUY 112 3 GTC MAX64)) :: drop 8 (news s a) = news s a) as -> by (by vm_compute).
    by apply (hist_call ex_stops); vm_compute. }
  split; [vm_compute; lia|]. by vm_compute.
Qed.
