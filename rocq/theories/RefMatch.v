(** * RefMatch.v -- MatchOrder against the reference algorithm of Spec7.v, on one engine state. *)
From Coq Require Import ZifyBool.
From stdpp Require Import fin_maps relations sorting.
From Verif Require Import Types Book Engine Manager Validate LevelFacts BookInv EngInv EngPrim Steps StepsOk Refine1 Trades PropsTrades PropsOrders PropsFill Spec Spec2 Spec3 Spec5 Spec6 Spec7.

Definition lev (p : Z) (os : list order) (L : list (Z * list order)) : list (Z * list order) :=
  match os with [] => L | _ => (p, os) :: L end.
Definition flat (L : list (Z * list order)) : list order := concat (map snd L).
Lemma flat_lev p os L : flat (lev p os L) = os ++ flat L.
Proof. by destruct os. Qed.

(** ** The reference functions on split lists *)
Lemma after_fill_executed q o : executed q o = after_fill q o.
Proof. done. Qed.
Definition in_limit (o : order) (rs : list order) : Prop := forall r, r ∈ rs -> within_limit o (o_price r).
Lemma within_after q o p : within_limit (after_fill q o) p <-> within_limit o p.
Proof. done. Qed.
Lemma in_limit_after q o rs : in_limit o rs -> in_limit (after_fill q o) rs.
Proof. done. Qed.
Lemma ref_none o rs : o_leaves o <= 0 -> fills o rs = [] /\ filled o rs = o /\ remaining o rs = rs /\ taken o rs = [].
Proof.
  intros H. assert (Hn : forall r, ~ takes o r) by (intros r [? _]; lia).
  destruct rs as [|r rs]; cbn; [done|]. by rewrite !decide_False by apply Hn.
Qed.
Lemma ref_far o r rs : ~ within_limit o (o_price r) -> fills o (r :: rs) = [] /\ filled o (r :: rs) = o /\ remaining o (r :: rs) = r :: rs /\ taken o (r :: rs) = [].
Proof. intros H. assert (Hn : ~ takes o r) by (intros [_ ?]; done). cbn. by rewrite !decide_False by apply Hn. Qed.
Lemma ref_app : forall os o rs, in_limit o os ->
  fills o (os ++ rs) = fills o os ++ fills (filled o os) rs /\
  filled o (os ++ rs) = filled (filled o os) rs /\
  taken o (os ++ rs) = taken o os ++ taken (filled o os) rs /\
  remaining o (os ++ rs) = remaining o os ++ remaining (filled o os) rs.
Proof.
  induction os as [|r os IH]; intros o rs Hin; [done|]. cbn [app fills filled taken remaining].
  destruct (decide (takes o r)) as [Ht|Ht].
  - destruct (IH (after_fill (Z.min (o_leaves r) (o_leaves o)) o) rs) as (E1 & E2 & E3 & E4). { intros x Hx. apply (Hin x). by right. }
    rewrite E1, E2, E3, E4. split; [done|]. split; [done|]. split; [done|]. by rewrite app_assoc.
  - assert (o_leaves o <= 0). { destruct (Z.le_gt_cases (o_leaves o) 0); [done|]. exfalso. apply Ht. split; [lia|]. apply Hin. left. }
    destruct (ref_none o rs) as (E1 & E2 & E3 & E4); [done|]. rewrite E1, E2, E3, E4. done.
Qed.
Lemma filled_kind : forall rs o, same_kind o (filled o rs).
Proof.
  induction rs as [|r rs IH]; intros o; [done|]. cbn [filled]. destruct (decide (takes o r)); [|done].
  eapply same_kind_trans; [|apply IH]. done.
Qed.
Lemma arb_within o p : arb (opp (o_side o)) p (o_price o) = true <-> within_limit o p.
Proof. unfold arb, within_limit, opp. destruct (o_side o); cbn; lia. Qed.

(** ** What matching on side [k] leaves alone *)
Record only_side (sid : Z) (k : kind) (e e' : eng) : Prop := {
  os_sym : b_sym (e_bk e') = b_sym (e_bk e);
  os_sides : forall k', k' <> k -> get_side k' (e_bk e') = get_side k' (e_bk e);
  os_some : forall j o, e_ords e !! j = Some o -> ~ (o_sym o = sid /\ okind o = k) -> e_ords e' !! j = Some o;
  os_none : forall j, e_ords e !! j = None -> e_ords e' !! j = None;
}.
Lemma only_side_refl sid k e : only_side sid k e e.
Proof. by constructor. Qed.
Lemma only_side_trans sid k a b c : only_side sid k a b -> only_side sid k b c -> only_side sid k a c.
Proof.
  intros [A1 A2 A3 A4] [B1 B2 B3 B4]. constructor; [congruence| |auto|auto].
  intros k' Hk. by rewrite B2, A2.
Qed.
Lemma only_side_same sid k e e' : same_sides (e_bk e) (e_bk e') -> e_ords e' = e_ords e -> only_side sid k e e'.
Proof. intros [H1 H2] H3. constructor; [done|auto|by rewrite H3|by rewrite H3]. Qed.
Lemma cview_ext e e' k L : (forall p, queue (e_bk e') k p = queue (e_bk e) k p) ->
  (forall p os o, (p, os) ∈ L -> o ∈ os -> e_ords e !! o_id o = Some o -> e_ords e' !! o_id o = Some o) -> cview e k L -> cview e' k L.
Proof.
  intros Hq Ho [H1 H2 H3]. constructor; [done| |].
  - intros p os Hin. destruct (H2 p os Hin) as (? & Hqq & Hall). split; [done|]. split; [by rewrite Hq|]. intros o Hoo. eapply Ho; [done|done|auto].
  - intros q. rewrite Hq. apply H3.
Qed.
Lemma cview_order sid e k L p os o : eng_ok sid e -> cview e k L -> (p, os) ∈ L -> o ∈ os ->
  e_ords e !! o_id o = Some o /\ o_sym o = sid /\ okind o = k /\ okey o = p /\ live_ok (o_id o) o.
Proof.
  intros He Hv Hin Ho. destruct (cv_q _ _ _ Hv p os Hin) as (_ & Hq & Hall). pose proof (Hall _ Ho) as Hm.
  destruct (queue_facts sid e k p (o_id o) He) as (r & Hr & Hid & Hs & Hk & Hp & Hl). { rewrite Hq. apply elem_of_list_fmap. eauto. }
  assert (r = o) by congruence. by subst.
Qed.
Lemma cview_other sid k k2 e e' M : eng_ok sid e -> k2 <> k -> only_side sid k e e' -> cview e k2 M -> cview e' k2 M.
Proof.
  intros He Hk Ho Hv. eapply cview_ext; [| |exact Hv].
  - intros p. unfold queue. by rewrite (os_sides _ _ _ _ Ho).
  - intros p os o Hin Hoo Hm. eapply os_some; [done|done|]. destruct (cview_order sid e k2 M p os o He Hv Hin Hoo) as (_ & _ & Hk2 & _). intros [_ ?]. congruence.
Qed.
Lemma prim_only sid k m' p ids e e' u o : okind o = k -> o_sym o = sid -> e_ords e !! o_id o = Some o ->
  prim m' k p ids (e_bk e) (e_bk e') u -> (forall j, j <> o_id o -> e_ords e' !! j = e_ords e !! j) -> only_side sid k e e'.
Proof.
  intros Hk Hs Ho Hp Hj. constructor; [by eapply pr_sym|by eapply pr_sides| |].
  - intros j x Hx Hn. rewrite Hj; [done|]. intros ->. apply Hn. assert (x = o) by congruence. by subst.
  - intros j Hn. rewrite Hj; [done|]. intros ->. congruence.
Qed.

(** ** The matching prices *)
Definition quotes (e : eng) : Z * Z := (b_match_bid (e_bk e), b_match_ask (e_bk e)).
Definition noted (sd : oside) (xs : list (order * Z * Z)) (m : Z * Z) : Z * Z :=
  match last xs with None => m | Some (_, p, _) => match sd with BUY => (p, MAX64) | SELL => (0, p) end end.
Lemma noted_app sd a b m : noted sd (a ++ b) m = noted sd b (noted sd a m).
Proof. unfold noted. rewrite last_app. by destruct (last b). Qed.
Lemma noted_two sd a p q o m : noted sd [a; (o, p, q)] m = match sd with BUY => (p, MAX64) | SELL => (0, p) end.
Proof. done. Qed.
Lemma quotes_exec sd p e e' : bprices (e_bk e') = bprices (after_exec sd p (e_bk e)) -> quotes e' = (0, MAX64).
Proof. unfold bprices, after_exec, reset_matching, quotes. intros [=]. cbn in *. congruence. Qed.
Lemma quotes_note o p q e : quotes e = (0, MAX64) -> quotes (exec_note o p q e) = match o_side o with BUY => (p, MAX64) | SELL => (0, p) end.
Proof. unfold quotes. intros [= H1 H2]. unfold exec_note, upd_prices, update_matching, update_last. destruct (o_side o); cbn; congruence. Qed.

(** ** One execution of the front order *)
Lemma front_trade sid e k p r os L price q : eng_ok sid e -> cview e k ((p, r :: os) :: L) -> 0 < q <= o_leaves r ->
  exists e1 evs, exec_reduce r price q e = Ok e1 /\ eng_ok sid e1 /\ e_log e1 = e_log e ++ evs /\ execs evs = [(r, price, q)] /\
    only_side sid k e e1 /\ total (e_ords e1) = total (e_ords e) - q /\
    cview e1 k (lev p ((if decide (q = o_leaves r) then [] else [after_fill q r]) ++ os) L) /\ quotes e1 = (0, MAX64).
Proof.
  intros He Hv Hq. pose proof (cview_front _ _ _ _ _ _ _ He Hv) as Hf.
  destruct (front_facts _ _ _ _ _ He Hf) as (Hs & Hk & Hp & Hl & Hr).
  destruct (exec_reduce_ok sid e r price q He Hr Hs Hq) as (u & e1 & Heq & Hok & Hords & Hlog & Hbp & Hpr).
  exists e1. eexists. split; [done|]. split; [done|]. split; [exact Hlog|].
  assert (Hj : forall j, j <> o_id r -> e_ords e1 !! j = e_ords e !! j).
  { intros j Hj. rewrite Hords. by apply reduced_ne. }
  split. { change (EExecute r price q :: red_ev (executed q r) :: lim_evs r sid u) with ([EExecute r price q; red_ev (executed q r)] ++ lim_evs r sid u).
           rewrite execs_app, execs_lim. unfold red_ev. by destruct (_ =? 0). }
  split. { rewrite <- Hk. eapply prim_only; done. }
  split. { rewrite Hords. erewrite total_reduced by done. cbn. lia. }
  split; [|by eapply quotes_exec].
  destruct (decide (q = o_leaves r)) as [->|Hne].
  - refine (proj1 (cview_pop sid e e1 k p r os L He Hv _ _)); [|done].
    intros q'. rewrite <- Hk, <- Hp. rewrite (pr_queue _ _ _ _ _ _ _ Hpr). by rewrite Z.eqb_refl.
  - cbn [app lev]. assert (Hqq : forall p', queue (e_bk e1) k p' = queue (e_bk e) k p').
    { intros p'. rewrite <- Hk. rewrite (pr_queue _ _ _ _ _ _ _ Hpr). rewrite (proj2 (Z.eqb_neq q (o_leaves r))) by done. by destruct (Z.eqb_spec p' (okey r)) as [->|]. }
    assert (Hr1 : e_ords e1 !! o_id r = Some (after_fill q r)).
    { rewrite Hords. unfold reduced_map. cbn. rewrite (proj2 (Z.eqb_neq (o_leaves r - q) 0)) by lia. by rewrite lookup_insert. }
    pose proof (cv_sorted _ _ _ Hv) as Hsort. apply StronglySorted_inv in Hsort as [Hs1 Hs2].
    destruct (cv_q _ _ _ Hv p (r :: os)) as (_ & Hqp & Hall); [left|].
    pose proof (queue_nodup _ _ _ k p (proj2 He)) as Hnd. rewrite Hqp in Hnd. cbn in Hnd. apply NoDup_cons in Hnd as [Hni _].
    constructor.
    + constructor; [done|]. exact Hs2.
    + intros p' os' Hin. apply elem_of_cons in Hin as [[= -> ->]|Hin].
      * split; [done|]. split; [by rewrite Hqq, Hqp|]. intros o Ho. apply elem_of_cons in Ho as [->|Ho]; [done|]. rewrite Hj; [apply Hall; by right|].
        intros E. apply Hni. rewrite <- E. apply elem_of_list_fmap. eauto.
      * destruct (cv_q _ _ _ Hv p' os') as (Hne' & Hq' & Hall'); [by right|]. split; [done|]. split; [by rewrite Hqq|].
        intros o Ho. rewrite Hj; [auto|]. intros E. destruct (cview_order sid e k _ p' os' o He Hv ltac:(by right) Ho) as (Hm & _ & _ & Hko & _).
        rewrite E, Hr in Hm. injection Hm as <-. rewrite Forall_forall in Hs2. pose proof (Hs2 _ Hin) as Hb. cbn in Hb. rewrite <- Hko, Hp, better_irrefl in Hb. done.
    + intros q0 Hq0. rewrite Hqq in Hq0. by apply (cv_all _ _ _ Hv) in Hq0.
Qed.

(** ** MatchOrder of an order that is neither Fill-Or-Kill nor All-Or-None *)
Lemma note_only sid k o p q e : only_side sid k e (exec_note o p q e).
Proof. apply only_side_same; [|done]. eapply same_sides_trans; [apply same_sides_last|apply same_sides_matching]. Qed.
Lemma note_view o p q e k L : cview e k L -> cview (exec_note o p q e) k L.
Proof.
  intros Hv. eapply (cview_ext e); [|done|exact Hv]. intros p'. cbn. apply same_sides_queue.
  eapply same_sides_trans; [apply same_sides_last|apply same_sides_matching].
Qed.
Definition plain_lists (L : list (Z * list order)) : Prop := forall p os r, (p, os) ∈ L -> r ∈ os -> is_aon r = false.
Lemma match_ids_ref sid p L : forall os e o,
  eng_ok sid e -> fly_ok sid (e_ords e) o -> 0 < o_leaves o -> is_fok o = false -> is_aon o = false ->
  arb (opp (o_side o)) p (o_price o) = true ->
  cview e (opp (o_side o)) (lev p os L) -> (forall r, r ∈ os -> is_aon r = false) ->
  exists stop e' evs, match_ids (map o_id os) o e = Ok (stop, filled o os, e') /\ e_log e' = e_log e ++ evs /\ execs evs = fills o os /\
    eng_ok sid e' /\ fly_ok sid (e_ords e') (filled o os) /\ only_side sid (opp (o_side o)) e e' /\
    cview e' (opp (o_side o)) (lev p (remaining o os) L) /\ in_limit o os /\
    (stop = true -> o_leaves (filled o os) = 0) /\ (stop = false -> 0 < o_leaves (filled o os) /\ remaining o os = []) /\
    quotes e' = noted (o_side o) (fills o os) (quotes e).
Proof.
  induction os as [|r os IH]; intros e o He Hfl Hlv Hfok Haon Harb Hv Hna.
  { exists false, e, []. rewrite app_nil_r. split_and!; try done. intros r Hr; by apply elem_of_nil in Hr. }
  cbn [lev] in Hv. set (k := opp (o_side o)) in *. pose proof (cview_front _ _ _ _ _ _ _ He Hv) as Hf.
  destruct (front_facts _ _ _ _ _ He Hf) as (Hs & Hk & Hp & Hl & Hr). pose proof (lo_leaves _ _ Hl) as Hrl.
  destruct (okind_bid_ask r (o_side o) (lo_type _ _ Hl) Hk) as (Hrt & Hrp & _). rewrite Hp in Hrp.
  assert (Hw : within_limit o (o_price r)). { apply arb_within. by rewrite <- Hrp. }
  cbn [match_ids map]. rewrite Hr. cbn [of_opt rbind]. rewrite (Hna r) by left. cbn [andb].
  cbn [fills filled remaining]. rewrite !decide_True by done.
  set (q := Z.min (o_leaves r) (o_leaves o)).
  destruct (front_trade sid e k p r os L (o_price r) q He Hv ltac:(unfold q; lia)) as (e1 & evs1 & Heq & He1 & Hlog1 & Hx1 & Ho1 & _ & Hv1 & Hm1).
  rewrite Heq. cbn [rbind].
  assert (Hstep : tstep (e, o) (exec_note o p q e1, executed q o)).
  { unfold q. eapply ts_trade; try done; [by rewrite Hna by left|]. rewrite Hrp. done. }
  rewrite Hrp in Hstep. destruct (tstep_ok _ _ _ _ _ Hstep He Hfl) as (He2 & Hfl2 & _).
  set (e2 := exec_note o (o_price r) q e1) in *.
  change (set_leaves (o_leaves (exec_incr q o) - q) (exec_incr q o)) with (after_fill q o).
  change (set_leaves (o_leaves o - q) (exec_incr q o)) with (after_fill q o).
  rewrite after_fill_executed in Hfl2.
  assert (Ho2 : only_side sid k e e2). { eapply only_side_trans; [done|]. apply note_only. }
  assert (Hv2 : cview e2 k (lev p ((if decide (q = o_leaves r) then [] else [after_fill q r]) ++ os) L)) by by apply note_view.
  assert (Hlog2 : e_log e2 = e_log e ++ evs1 ++ [EExecute o (o_price r) q]). { cbn. by rewrite Hlog1, app_assoc. }
  assert (Hm2 : quotes e2 = noted (o_side o) [(r, o_price r, q); (o, o_price r, q)] (quotes e)) by (rewrite noted_two; by apply quotes_note).
  assert (Hlim : in_limit o (r :: os)).
  { intros x Hx. destruct (cview_order sid e k _ p (r :: os) x He Hv ltac:(left) Hx) as (_ & _ & Hkx & Hpx & Hlx).
    destruct (okind_bid_ask x (o_side o) (lo_type _ _ Hlx) Hkx) as (_ & Hxp & _). rewrite <- Hxp, Hpx. by apply arb_within. }
  destruct (Z.eqb_spec (o_leaves (after_fill q o)) 0) as [E0|E0].
  { destruct (ref_none (after_fill q o) os) as (E1 & E2 & E3 & _); [lia|]. rewrite E1, E2, E3.
    exists true, e2, (evs1 ++ [EExecute o (o_price r) q]). split; [done|]. split; [done|]. split; [by rewrite execs_app, Hx1|].
    split_and!; done. }
  cbn in E0. assert (Hqr : q = o_leaves r) by (unfold q in *; lia). rewrite (decide_True _ _ Hqr) in Hv2 |- *. cbn [app] in Hv2 |- *.
  destruct (IH e2 (after_fill q o)) as (stop & e3 & evs3 & Heq3 & Hlog3 & Hx3 & He3 & Hf3 & Ho3 & Hv3 & _ & Hst & Hns & Hm3); try done.
  { cbn. unfold q in *. lia. }
  { intros x Hx. apply Hna. by right. }
  exists stop, e3, ((evs1 ++ [EExecute o (o_price r) q]) ++ evs3). split; [done|]. split; [by rewrite Hlog3, Hlog2, <- !app_assoc|].
  split; [by rewrite !execs_app, Hx1, Hx3|]. split; [done|]. split; [done|]. split; [by eapply only_side_trans|].
  split; [done|]. split; [done|]. split; [done|]. split; [done|].
  change ((r, o_price r, q) :: (o, o_price r, q) :: fills (after_fill q o) os) with ([(r, o_price r, q); (o, o_price r, q)] ++ fills (after_fill q o) os).
  rewrite noted_app, <- Hm2. exact Hm3.
Qed.
Lemma cview_nil sid e k : eng_ok sid e -> cview e k [] -> best k e = None.
Proof.
  intros He Hv. destruct (best k e) as [p|] eqn:E; [|done]. destruct (best_some _ _ _ _ _ (proj2 He) E) as [Hq _].
  apply (cv_all _ _ _ Hv) in Hq. by apply elem_of_nil in Hq.
Qed.
Lemma match_loop_ref sid : forall L fuel e o,
  eng_ok sid e -> fly_ok sid (e_ords e) o -> 0 < o_leaves o -> is_fok o = false -> is_aon o = false ->
  cview e (opp (o_side o)) L -> plain_lists L -> (length L < fuel)%nat ->
  exists e' evs L', match_order_loop fuel o e = Ok (filled o (flat L), e') /\ e_log e' = e_log e ++ evs /\ execs evs = fills o (flat L) /\
    eng_ok sid e' /\ fly_ok sid (e_ords e') (filled o (flat L)) /\ only_side sid (opp (o_side o)) e e' /\
    cview e' (opp (o_side o)) L' /\ flat L' = remaining o (flat L) /\ quotes e' = noted (o_side o) (fills o (flat L)) (quotes e).
Proof.
  induction L as [|[p os] L IH]; intros fuel e o He Hfl Hlv Hfok Haon Hv Hna Hfuel; (destruct fuel as [|fuel]; [cbn in Hfuel; lia|]).
  { cbn [match_order_loop]. rewrite (cview_nil sid e _ He Hv). exists e, [], []. rewrite app_nil_r. split_and!; done. }
  destruct (cv_q _ _ _ Hv p os) as (Hne & _ & _); [left|]. destruct os as [|r os]; [done|]. clear Hne.
  pose proof (cview_front _ _ _ _ _ _ _ He Hv) as Hf. set (k := opp (o_side o)) in *.
  destruct (cview_find sid e k p (r :: os) L He Hv) as (l & Hfind & Hids).
  cbn [match_order_loop]. fold k. rewrite (proj1 Hf), Hfind. cbn [of_opt rbind].
  destruct (front_facts _ _ _ _ _ He Hf) as (Hs & Hk & Hp & Hl & Hr).
  destruct (okind_bid_ask r (o_side o) (lo_type _ _ Hl) Hk) as (Hrt & Hrp & _). rewrite Hp in Hrp.
  destruct (arb k p (o_price o)) eqn:Harb; cbn [negb].
  2: { destruct (ref_far o r (os ++ flat L)) as (E1 & E2 & E3 & _). { intros Hw. apply arb_within in Hw. fold k in Hw. rewrite <- Hrp in Hw. congruence. }
       change (flat ((p, r :: os) :: L)) with (r :: os ++ flat L). rewrite E1, E2, E3.
       exists e, [], ((p, r :: os) :: L). rewrite app_nil_r. split_and!; done. }
  rewrite Hfok, Haon. cbn [orb]. rewrite Hids.
  destruct (match_ids_ref sid p L (r :: os) e o) as (stop & e1 & evs1 & Heq & Hlog1 & Hx1 & He1 & Hf1 & Ho1 & Hv1 & Hlim & Hst & Hns & Hm1); try done.
  { intros x Hx. eapply Hna; [left|done]. }
  rewrite Heq. cbn [rbind]. fold k in Ho1, Hv1.
  change (flat ((p, r :: os) :: L)) with ((r :: os) ++ flat L). destruct (ref_app (r :: os) o (flat L) Hlim) as (E1 & E2 & _ & E4). rewrite E1, E2, E4.
  destruct (filled_kind (r :: os) o) as (_ & _ & _ & Hsd & _ & _ & _ & Htif & _).
  set (o1 := filled o (r :: os)) in *. destruct stop.
  - destruct (ref_none o1 (flat L)) as (F1 & F2 & F3 & _); [rewrite Hst; done|]. rewrite F1, F2, F3, app_nil_r.
    exists e1, evs1, (lev p (remaining o (r :: os)) L). split_and!; try done; by rewrite flat_lev.
  - destruct (Hns eq_refl) as [Hpos Hrem]. rewrite Hrem in Hv1 |- *. cbn [lev] in Hv1.
    destruct (IH fuel e1 o1) as (e2 & evs2 & L2 & Heq2 & Hlog2 & Hx2 & He2 & Hf2 & Ho2 & Hv2 & Hfl2 & Hm2); try done.
    { unfold is_fok in *. by rewrite Htif. } { unfold is_aon in *. by rewrite Htif. }
    { rewrite Hsd. fold k. done. }
    { intros p' os' x Hin Hx. eapply Hna; [by right|done]. }
    { cbn in Hfuel. lia. }
    rewrite Hsd in Ho2, Hv2. fold k in Ho2, Hv2.
    exists e2, (evs1 ++ evs2), L2. split; [done|]. split; [by rewrite Hlog2, Hlog1, <- !app_assoc|]. split; [by rewrite execs_app, Hx1, Hx2|].
    split; [done|]. split; [done|]. split; [by eapply only_side_trans|]. split; [done|]. split; [done|].
    rewrite noted_app, <- Hm1, Hm2. by rewrite Hsd.
Qed.
(** The view of a side is unique: it is what the levels list. *)
Lemma cview_unique sid e k L M : eng_ok sid e -> cview e k L -> cview e k M -> L = M.
Proof.
  intros He HL HM.
  assert (Hsub : forall A B, cview e k A -> cview e k B -> forall x, x ∈ A -> x ∈ B).
  { intros A B HA HB [p os] Hin. destruct (cv_q _ _ _ HA p os Hin) as (Hne & Hq & Ho).
    assert (Hp : p ∈ map fst B). { apply (cv_all _ _ _ HB). rewrite Hq. by destruct os. }
    apply elem_of_list_fmap in Hp as ([p' os'] & E & Hin'). cbn in E. subst p'. destruct (cv_q _ _ _ HB p os' Hin') as (_ & Hq' & Ho').
    assert (os' = os); [|by subst]. rewrite Hq in Hq'. clear -Hq' Ho Ho'. revert os Hq' Ho. induction os' as [|x os' IH]; intros [|y os] E Ho; try done.
    cbn in E. injection E as E1 E2. f_equal.
    - pose proof (Ho' x ltac:(left)) as Hx. pose proof (Ho y ltac:(left)) as Hy. rewrite <- E1 in Hx. congruence.
    - apply IH; [intros z Hz; apply Ho'; by right|done|intros z Hz; apply Ho; by right]. }
  pose proof (cv_sorted _ _ _ HL) as SL. pose proof (cv_sorted _ _ _ HM) as SM.
  assert (Hnd : forall A, StronglySorted (fun a b : Z * list order => better k (fst a) (fst b) = true) A -> NoDup A).
  { clear. induction 1 as [|a A _ IH Ha]; constructor; [|done]. intros Hin. rewrite Forall_forall in Ha. pose proof (Ha a Hin) as H. by rewrite better_irrefl in H. }
  assert (Hperm : L ≡ₚ M). { apply NoDup_Permutation; [auto|auto|]. intros x. split; eauto. }
  clear -SL SM Hperm. revert M SM Hperm. induction SL as [|a L _ IH Ha]; intros M SM Hperm.
  { symmetry in Hperm. by apply Permutation_nil_r in Hperm. }
  destruct M as [|b M]; [by apply Permutation_nil_r in Hperm|]. apply StronglySorted_inv in SM as [SM Hb].
  assert (a = b) as ->.
  { assert (H1 : a ∈ b :: M) by (rewrite <- Hperm; left). assert (H2 : b ∈ a :: L) by (rewrite Hperm; left).
    apply elem_of_cons in H1 as [->|H1]; [done|]. apply elem_of_cons in H2 as [->|H2]; [done|].
    rewrite Forall_forall in Ha, Hb. specialize (Ha _ H2). specialize (Hb _ H1). by rewrite (better_asym k _ _ Ha) in Hb. }
  f_equal. apply IH; [done|]. by apply Permutation_cons_inv in Hperm.
Qed.
Lemma cview_length sid e k L : eng_ok sid e -> cview e k L -> length L = length (lvls k e).
Proof.
  intros He Hv. destruct (cview_intro sid e k He) as (M & _ & Hf & HM). rewrite (cview_unique sid e k L M He Hv HM).
  rewrite <- (map_length fst), Hf. apply map_length.
Qed.
Lemma flat_levels sid e k L : eng_ok sid e -> cview e k L ->
  omap (fun j => e_ords e !! j) (concat (map l_ids (lvls k e))) = flat L.
Proof.
  intros He Hv. destruct (cview_intro sid e k He) as (M & HM & _ & HvM). rewrite (cview_unique sid e k L M He Hv HvM). clear L Hv HvM.
  revert M HM. generalize (lvls k e). induction l as [|l ls IH]; intros M HM.
  { unfold resolve in HM. cbn in HM. by injection HM as <-. }
  unfold resolve in HM. cbn in HM. destruct (mapM (fun i => e_ords e !! i) (l_ids l)) as [os|] eqn:Eos; [|done]. cbn in HM.
  destruct (mapM _ ls) as [M'|] eqn:EM; [|done]. cbn in HM. injection HM as <-.
  cbn [map concat]. rewrite omap_app, (IH M' EM). change (flat ((l_price l, os) :: M')) with (os ++ flat M'). f_equal.
  clear -Eos. revert os Eos. induction (l_ids l) as [|i ids IH]; intros os E; cbn in *; [by injection E as <-|].
  destruct (e_ords e !! i); [|done]. cbn in E. destruct (mapM _ ids) as [os'|]; [|done]. cbn in E. injection E as <-. cbn. f_equal. by apply IH.
Qed.

Lemma match_order_ref sid e o L : eng_ok sid e -> fly_ok sid (e_ords e) o -> 0 < o_leaves o -> is_fok o = false -> is_aon o = false ->
  cview e (opp (o_side o)) L -> plain_lists L ->
  exists e' evs L', match_order o e = Ok (filled o (flat L), e') /\ e_log e' = e_log e ++ evs /\ execs evs = fills o (flat L) /\
    eng_ok sid e' /\ fly_ok sid (e_ords e') (filled o (flat L)) /\ only_side sid (opp (o_side o)) e e' /\
    cview e' (opp (o_side o)) L' /\ flat L' = remaining o (flat L) /\ quotes e' = noted (o_side o) (fills o (flat L)) (quotes e).
Proof.
  intros He Hfl Hlv Hfok Haon Hv Hna. unfold match_order. eapply match_loop_ref; try done. rewrite (cview_length sid e _ L He Hv). lia.
Qed.

(** ** Fill-Or-Kill *)
(** What holds of the lists of a bid or ask side without All-Or-None orders. *)
Definition good_lists (L : list (Z * list order)) : Prop :=
  forall p os r, (p, os) ∈ L -> r ∈ os -> is_aon r = false /\ 0 < o_leaves r /\ o_price r = p.
Lemma good_intro sid e sd L : eng_ok sid e -> cview e (opp sd) L -> plain_lists L -> good_lists L.
Proof.
  intros He Hv Hna p os r Hin Hr. split; [by eapply Hna|].
  destruct (cview_order sid e _ L p os r He Hv Hin Hr) as (_ & _ & Hk & Hp & Hl). split; [by apply Hl|].
  destruct (okind_bid_ask r sd (lo_type _ _ Hl) Hk) as (_ & Hrp & _). congruence.
Qed.
Lemma good_tail p os L : good_lists ((p, os) :: L) -> good_lists L.
Proof. intros H p' os' r Hin. eapply H. by right. Qed.
Lemma supply_app o a b : supply o (a ++ b) = supply o a + supply o b.
Proof.
  unfold supply. rewrite filter_app, map_app. generalize (map o_leaves (filter (fun r => within_limit o (o_price r)) a)). generalize (map o_leaves (filter (fun r => within_limit o (o_price r)) b)).
  intros l2 l1. induction l1 as [|x l IH]; [done|]. change (sumZ ((x :: l) ++ l2)) with (x + sumZ (l ++ l2)). change (sumZ (x :: l)) with (x + sumZ l). lia.
Qed.
Lemma supply_in o rs : in_limit o rs -> supply o rs = sumZ (map o_leaves rs).
Proof.
  intros H. unfold supply. f_equal. f_equal. induction rs as [|r rs IH]; [done|]. rewrite filter_cons_True by (apply H; left).
  f_equal. apply IH. intros x Hx. apply H. by right.
Qed.
Lemma supply_out o rs : (forall r, r ∈ rs -> ~ within_limit o (o_price r)) -> supply o rs = 0.
Proof.
  intros H. unfold supply. induction rs as [|r rs IH]; [done|]. rewrite filter_cons_False by (apply H; left).
  apply IH. intros x Hx. apply H. by right.
Qed.
Lemma elem_flat L r : r ∈ flat L <-> exists p os, (p, os) ∈ L /\ r ∈ os.
Proof.
  induction L as [|[p os] L IH]; cbn.
  { split; [intros H; by apply elem_of_nil in H|]. intros (p & os & H & _). by apply elem_of_nil in H. }
  change (r ∈ os ++ flat L <-> exists p0 os0, (p0, os0) ∈ (p, os) :: L /\ r ∈ os0). rewrite elem_of_app, IH. split.
  - intros [H|(p' & os' & H & Hr)]; [exists p, os; split; [left|done]|exists p', os'; split; [by right|done]].
  - intros (p' & os' & H & Hr). apply elem_of_cons in H as [[= -> ->]|H]; [by left|right; eauto].
Qed.
(** Beyond a level that is out of the limit everything is. *)
Lemma far_levels o p os L : StronglySorted (fun a b : Z * list order => better (opp (o_side o)) (fst a) (fst b) = true) ((p, os) :: L) ->
  good_lists ((p, os) :: L) -> ~ within_limit o p -> forall r, r ∈ flat ((p, os) :: L) -> ~ within_limit o (o_price r).
Proof.
  intros Hs Hg Hn r Hr Hw. apply elem_flat in Hr as (p' & os' & Hin & Hr). destruct (Hg _ _ _ Hin Hr) as (_ & _ & E). rewrite E in Hw.
  apply elem_of_cons in Hin as [[= -> ->]|Hin]; [done|]. apply StronglySorted_inv in Hs as [_ Hs]. rewrite Forall_forall in Hs.
  specialize (Hs _ Hin). cbn in Hs. apply Hn. unfold within_limit, better, opp in *. destruct (o_side o); cbn in *; lia.
Qed.
Lemma sumZ_nonneg os : (forall r, r ∈ os -> 0 < o_leaves r) -> 0 <= sumZ (map o_leaves os).
Proof.
  intros H. induction os as [|r os IH]; [done|]. change (sumZ (map o_leaves (r :: os))) with (o_leaves r + sumZ (map o_leaves os)).
  pose proof (H r ltac:(left)). assert (0 <= sumZ (map o_leaves os)); [|lia]. apply IH. intros x Hx. apply H. by right.
Qed.
Lemma chain1_orders_ref volume : forall os avail, 0 <= avail < volume -> volume < TWO64 -> (forall r, r ∈ os -> is_aon r = false /\ 0 < o_leaves r) ->
  chain1_orders volume avail os = if volume <=? avail + sumZ (map o_leaves os) then inl volume else inr (avail + sumZ (map o_leaves os)).
Proof.
  induction os as [|r os IH]; intros avail Hav Hv Hg; cbn [chain1_orders map sumZ foldr].
  { rewrite Z.add_0_r. by rewrite (proj2 (Z.leb_gt volume avail)) by lia. }
  destruct (Hg r) as [-> Hlv]; [left|]. rewrite (u64_id (volume - avail)) by lia. rewrite (u64_id (avail + _)) by lia.
  assert (Hsum : 0 <= sumZ (map o_leaves os)).
  { apply sumZ_nonneg. intros x Hx. apply Hg. by right. }
  change (foldr Z.add 0 (map o_leaves os)) with (sumZ (map o_leaves os)).
  destruct (Z.eqb_spec volume (avail + Z.min (o_leaves r) (volume - avail))) as [E|E].
  - rewrite (proj2 (Z.leb_le volume _)) by lia. f_equal. lia.
  - rewrite (proj2 (Z.ltb_ge volume _)) by lia. rewrite IH; [|lia|done|intros x Hx; apply Hg; by right].
    replace (avail + Z.min (o_leaves r) (volume - avail)) with (avail + o_leaves r) by lia. by rewrite Z.add_assoc.
Qed.
Lemma chain1_ref o volume : forall L avail, 0 <= avail < volume -> volume < TWO64 -> good_lists L ->
  StronglySorted (fun a b : Z * list order => better (opp (o_side o)) (fst a) (fst b) = true) L ->
  chain1 (opp (o_side o)) (o_price o) volume avail L = if volume <=? avail + supply o (flat L) then volume else 0.
Proof.
  induction L as [|[p os] L IH]; intros avail Hav Hv Hg Hs; cbn [chain1].
  { change (supply o (flat [])) with 0. by rewrite (proj2 (Z.leb_gt volume _)) by lia. }
  destruct (arb (opp (o_side o)) p (o_price o)) eqn:Harb; cbn [negb].
  2: { rewrite supply_out. 2: { eapply far_levels; [done|done|]. intros Hw. apply arb_within in Hw. congruence. }
       by rewrite (proj2 (Z.leb_gt volume _)) by lia. }
  apply arb_within in Harb. change (flat ((p, os) :: L)) with (os ++ flat L).
  assert (Hin : in_limit o os). { intros r Hr. destruct (Hg p os r) as (_ & _ & ->); [left|done|done]. }
  assert (Hgo : forall r, r ∈ os -> is_aon r = false /\ 0 < o_leaves r). { intros r Hr. destruct (Hg p os r) as (? & ? & _); [left|done|done]. }
  rewrite chain1_orders_ref by done. rewrite supply_app, (supply_in o os Hin).
  assert (H0 : 0 <= supply o (flat L)).
  { apply sumZ_nonneg. intros r Hr. apply elem_of_list_filter in Hr as [_ Hr]. apply elem_flat in Hr as (p' & os' & Hin' & Hr). apply (Hg p' os' r); [by right|done]. }
  assert (H1 : 0 <= sumZ (map o_leaves os)).
  { apply sumZ_nonneg. intros r Hr. by apply Hgo. }
  destruct (Z.leb_spec volume (avail + sumZ (map o_leaves os))) as [Hle|Hgt].
  - by rewrite (proj2 (Z.leb_le volume _)) by lia.
  - rewrite IH; [|lia|done|by eapply good_tail|by apply StronglySorted_inv in Hs as [? _]]. by rewrite Z.add_assoc.
Qed.

Lemma chain_ids_ref sid k p L price : forall os e o, eng_ok sid e -> 0 <= o_leaves o < TWO64 -> in_limit o os ->
  cview e k (lev p os L) -> (forall r, r ∈ os -> is_aon r = false) ->
  exists e' evs, exec_chain_ids (map o_id os) price (o_leaves o) e = Ok (o_leaves (filled o os), e') /\ e_log e' = e_log e ++ evs /\
    execs evs = map (fun y => (fst y, price, snd y)) (taken o os) /\ eng_ok sid e' /\ only_side sid k e e' /\
    cview e' k (lev p (remaining o os) L) /\ 0 <= o_leaves (filled o os) < TWO64 /\ (0 < o_leaves (filled o os) -> remaining o os = []) /\
    quotes e' = (if taken o os then quotes e else (0, MAX64)).
Proof.
  induction os as [|r os IH]; intros e o He Hlv Hin Hv Hna.
  { exists e, []. rewrite app_nil_r. split_and!; try done; cbn; lia. }
  cbn [exec_chain_ids map]. destruct (Z.eqb_spec (o_leaves o) 0) as [E0|E0].
  { destruct (ref_none o (r :: os)) as (_ & -> & -> & ->); [lia|]. exists e, []. rewrite app_nil_r. split_and!; try done; lia. }
  cbn [lev] in Hv. pose proof (cview_front _ _ _ _ _ _ _ He Hv) as Hf.
  destruct (front_facts _ _ _ _ _ He Hf) as (Hs & Hk & Hp & Hl & Hr). pose proof (lo_leaves _ _ Hl) as Hrl.
  rewrite Hr. cbn [of_opt rbind]. rewrite (Hna r) by left.
  assert (Ht : takes o r). { split; [lia|]. apply Hin. left. }
  cbn [filled remaining taken]. rewrite !decide_True by done. set (q := Z.min (o_leaves r) (o_leaves o)).
  destruct (front_trade sid e k p r os L price q He Hv ltac:(unfold q; lia)) as (e1 & evs1 & Heq & He1 & Hlog1 & Hx1 & Ho1 & _ & Hv1 & Hm1).
  rewrite Heq. cbn [rbind]. rewrite (u64_id (o_leaves o - q)) by (unfold q; lia).
  destruct (decide (o_leaves o - q = 0)) as [Ez|Ez].
  - destruct (ref_none (after_fill q o) os) as (_ & -> & -> & ->); [cbn; lia|]. exists e1, evs1.
    split. { rewrite Ez. cbn [after_fill o_leaves set_leaves set_exec]. rewrite Ez. by destruct os. }
    split_and!; try done; cbn; lia.
  - assert (Eq : q = o_leaves r) by (unfold q in *; lia). rewrite (decide_True _ _ Eq) in Hv1 |- *. cbn [app] in Hv1 |- *.
    destruct (IH e1 (after_fill q o)) as (e2 & evs2 & Heq2 & Hlog2 & Hx2 & He2 & Ho2 & Hv2 & Hb & Hz & Hm2); try done.
    { cbn. unfold q in *. lia. } { intros x Hx. apply (Hin x). by right. } { intros x Hx. apply Hna. by right. }
    exists e2, (evs1 ++ evs2). split; [done|]. split; [by rewrite Hlog2, Hlog1, <- app_assoc|]. split; [by rewrite execs_app, Hx1, Hx2|].
    split; [done|]. split; [by eapply only_side_trans|]. split; [done|]. split; [done|]. split; [done|]. rewrite Hm2, Hm1. by destruct (taken _ _).
Qed.
Lemma chain_lvls_ref sid price : forall L e o, eng_ok sid e -> 0 <= o_leaves o < TWO64 -> o_leaves o <= supply o (flat L) ->
  cview e (opp (o_side o)) L -> good_lists L ->
  exists e' evs L', exec_chain_lvls (opp (o_side o)) (map fst L) price (o_leaves o) e = Ok e' /\ e_log e' = e_log e ++ evs /\
    execs evs = map (fun y => (fst y, price, snd y)) (taken o (flat L)) /\ eng_ok sid e' /\ only_side sid (opp (o_side o)) e e' /\
    cview e' (opp (o_side o)) L' /\ flat L' = remaining o (flat L) /\ o_leaves (filled o (flat L)) = 0 /\
    quotes e' = (if taken o (flat L) then quotes e else (0, MAX64)).
Proof.
  induction L as [|[p os] L IH]; intros e o He Hlv Hsup Hv Hg; cbn [map fst exec_chain_lvls].
  { change (supply o (flat [])) with 0 in Hsup. exists e, [], []. rewrite app_nil_r. split_and!; try done. cbn. lia. }
  destruct (Z.eqb_spec (o_leaves o) 0) as [E0|E0].
  { destruct (ref_none o (flat ((p, os) :: L))) as (_ & -> & -> & ->); [lia|]. exists e, [], ((p, os) :: L). rewrite app_nil_r. by split_and!. }
  destruct (cview_find sid e _ p os L He Hv) as (l & -> & Hids). cbn [of_opt rbind]. rewrite Hids.
  assert (Hw : within_limit o p).
  { destruct (decide (within_limit o p)) as [|Hn]; [done|]. exfalso. rewrite supply_out in Hsup; [lia|]. eapply far_levels; [by eapply cv_sorted|done|done]. }
  assert (Hin : in_limit o os). { intros r Hr. destruct (Hg p os r) as (_ & _ & ->); [left|done|done]. }
  destruct (cv_q _ _ _ Hv p os) as (Hne & _ & _); [left|].
  assert (El : lev p os L = (p, os) :: L) by by destruct os.
  destruct (chain_ids_ref sid (opp (o_side o)) p L price os e o He ltac:(lia) Hin) as (e1 & evs1 & Heq & Hlog1 & Hx1 & He1 & Ho1 & Hv1 & Hb1 & Hz1 & Hm1).
  { by rewrite El. } { intros r Hr. by apply (Hg p os r); [left|]. }
  rewrite Heq. cbn [rbind]. change (flat ((p, os) :: L)) with (os ++ flat L) in *. rewrite supply_app, (supply_in o os Hin) in Hsup.
  destruct (ref_app os o (flat L) Hin) as (_ & E2 & E3 & E4). rewrite E2, E3, E4.
  assert (Hrest : o_leaves (filled o os) = Z.max 0 (o_leaves o - sumZ (map o_leaves os))).
  { assert (Hgo : forall r, r ∈ os -> 0 < o_leaves r) by (intros r Hr; apply (Hg p os r); [left|done]). clear -Hin Hgo Hlv. revert o Hin Hlv. induction os as [|r os IH]; intros o Hin Hlv; cbn [filled map sumZ foldr]; [lia|].
    change (foldr Z.add 0 (map o_leaves os)) with (sumZ (map o_leaves os)). assert (Hs : 0 <= sumZ (map o_leaves os)).
    { apply sumZ_nonneg. intros x Hx. apply Hgo. by right. }
    pose proof (Hgo r ltac:(left)). destruct (decide (takes o r)) as [Ht|Ht].
    - rewrite IH; [cbn; lia| | |].
      + intros x Hx. apply Hgo. by right. + intros x Hx. apply (Hin x). by right. + cbn. lia.
    - assert (o_leaves o <= 0); [|lia]. destruct (Z.le_gt_cases (o_leaves o) 0); [done|]. exfalso. apply Ht. split; [lia|]. apply Hin. left. }
  destruct (filled_kind os o) as (_ & _ & _ & Hsd & Hpr & _). set (o1 := filled o os) in *.
  assert (Hsup1 : supply o1 (flat L) = supply o (flat L)). { unfold supply. f_equal. f_equal. apply list_filter_iff. intros x. unfold within_limit. by rewrite Hsd, Hpr. }
  destruct (decide (o_leaves o1 = 0)) as [Ez|Ez].
  - destruct (ref_none o1 (flat L)) as (_ & -> & -> & ->); [lia|]. rewrite app_nil_r. exists e1, evs1, (lev p (remaining o os) L).
    split. { rewrite Ez. by destruct (map fst L). } split_and!; try done. apply flat_lev.
  - rewrite (Hz1 ltac:(lia)) in Hv1 |- *. cbn [lev] in Hv1. rewrite <- Hsd in Hv1 |- *.
    destruct (IH e1 o1 He1 Hb1 ltac:(lia) Hv1 ltac:(by eapply good_tail)) as (e2 & evs2 & L2 & Heq2 & Hlog2 & Hx2 & He2 & Ho2 & Hv2 & Hfl2 & Hz2 & Hm2).
    rewrite Heq2. exists e2, (evs1 ++ evs2), L2. split; [done|]. split; [by rewrite Hlog2, Hlog1, <- app_assoc|]. split; [by rewrite execs_app, Hx1, Hx2, map_app|].
    split; [done|]. split; [eapply only_side_trans; [|done]; by rewrite Hsd|]. split; [done|]. split; [done|]. split; [done|].
    rewrite Hm2, Hm1. by destruct (taken o os), (taken o1 (flat L)).
Qed.
Lemma match_fok_ref sid e o L : eng_ok sid e -> 0 < o_leaves o < TWO64 -> is_fok o = true ->
  cview e (opp (o_side o)) L -> plain_lists L ->
  exists o' e' evs L', match_order o e = Ok (o', e') /\ same_kind o o' /\ quotes e' = noted (o_side o) (execs evs) (quotes e) /\ e_log e' = e_log e ++ evs /\ eng_ok sid e' /\
    only_side sid (opp (o_side o)) e e' /\ cview e' (opp (o_side o)) L' /\
    if decide (o_leaves o <= supply o (flat L))
    then execs evs = map (fun y => (fst y, o_price o, snd y)) (taken o (flat L)) ++ [(o, o_price o, o_leaves o)] /\ flat L' = remaining o (flat L) /\ o' = after_fill (o_leaves o) o
    else evs = [] /\ L' = L /\ o' = o.
Proof.
  intros He Hlv Hfok Hv Hna. pose proof (good_intro sid e _ L He Hv Hna) as Hg. unfold match_order. cbn [match_order_loop].
  destruct L as [|[p os] L].
  { rewrite (cview_nil sid e _ He Hv). change (supply o (flat [])) with 0. destruct (decide _) as [Hd|_]; [lia|].
    exists o, e, [], []. rewrite app_nil_r. by split_and!. }
  destruct (cv_q _ _ _ Hv p os) as (Hne & _ & _); [left|]. destruct os as [|r os]; [done|]. clear Hne.
  pose proof (cview_front _ _ _ _ _ _ _ He Hv) as Hf. set (k := opp (o_side o)) in *.
  destruct (cview_find sid e k p (r :: os) L He Hv) as (l & Hfind & Hids).
  rewrite (proj1 Hf), Hfind. cbn [of_opt rbind].
  destruct (arb k p (o_price o)) eqn:Harb; cbn [negb].
  2: { rewrite supply_out. 2: { eapply far_levels; [by eapply cv_sorted|done|]. intros Hw. apply arb_within in Hw. fold k in Hw. congruence. }
       destruct (decide _) as [Hd|_]; [lia|]. exists o, e, [], ((p, r :: os) :: L). rewrite app_nil_r. by split_and!. }
  rewrite Hfok. cbn [orb]. destruct (best_lvls _ _ _ _ He (proj1 Hf)) as [Hfrom Hne].
  destruct (cview_intro sid e k He) as (L0 & HL & Hfst & Hview). assert (L0 = (p, r :: os) :: L) as -> by by eapply cview_unique.
  unfold chain_levels. rewrite Hfrom, HL. cbn [of_opt rbind].
  pose proof (chain1_ref o (o_leaves o) ((p, r :: os) :: L) 0 ltac:(lia) ltac:(lia) Hg ltac:(by eapply cv_sorted)) as Hch. fold k in Hch. rewrite Hch. rewrite Z.add_0_l.
  destruct (Z.leb_spec (o_leaves o) (supply o (flat ((p, r :: os) :: L)))) as [Hle|Hgt].
  - destruct (decide _) as [_|Hd]; [|lia]. rewrite (proj2 (Z.eqb_neq (o_leaves o) 0)) by lia.
    unfold exec_chain. rewrite Hfrom. destruct (lvls k e) as [|l0 ls] eqn:El; [done|]. rewrite <- Hfst.
    destruct (chain_lvls_ref sid (o_price o) ((p, r :: os) :: L) e o He ltac:(lia) Hle Hv Hg) as (e1 & evs1 & L1 & Heq & Hlog1 & Hx1 & He1 & Ho1 & Hv1 & Hf1 & _ & Hm1).
    fold k in Heq, Ho1, Hv1. rewrite Heq. cbn [rbind]. eexists _, _, (evs1 ++ [EExecute o (o_price o) (o_leaves o)]), L1. split; [reflexivity|].
    assert (Hxs : execs (evs1 ++ [EExecute o (o_price o) (o_leaves o)]) = map (fun y => (fst y, o_price o, snd y)) (taken o (flat ((p, r :: os) :: L))) ++ [(o, o_price o, o_leaves o)])
      by by rewrite execs_app, Hx1.
    split; [done|]. split. { rewrite Hxs, noted_app. change (noted (o_side o) [(o, o_price o, o_leaves o)] ?m) with (match o_side o with BUY => (o_price o, MAX64) | SELL => (0, o_price o) end).
      apply quotes_note. rewrite Hm1. cbn [flat map concat snd app taken]. rewrite decide_True; [done|]. split; [lia|]. apply arb_within. fold k. destruct (Hg p (r :: os) r) as (_ & _ & ->); [left|left|done]. }
    split. { cbn. by rewrite Hlog1, <- app_assoc. }
    split. { apply set_bk_ok; [|by apply emit_ok]. eapply same_sides_trans; [apply same_sides_last|apply same_sides_matching]. }
    split. { eapply only_side_trans; [done|]. apply note_only. } split; [by apply note_view|]. split; [done|]. split; [done|]. unfold after_fill, exec_incr. by rewrite Z.sub_diag.
  - destruct (decide _) as [Hd|_]; [lia|]. cbn [Z.eqb]. exists o, e, [], ((p, r :: os) :: L). rewrite app_nil_r. by split_and!.
Qed.

(** ** An order joins its side *)
Fixpoint insl (k : kind) (c : Z) (o : order) (M : list (Z * list order)) : list (Z * list order) :=
  match M with
  | [] => [(c, [o])]
  | (p, os) :: M =>
      if decide (p = c) then (p, os ++ [o]) :: M
      else if better k (c) p then (c, [o]) :: (p, os) :: M
      else (p, os) :: insl k c o M
  end.
Lemma goes_better o r : goes_before o r <-> better (side_kind (o_side o)) (o_price o) (o_price r) = true.
Proof. unfold goes_before, better, side_kind. destruct (o_side o); cbn; lia. Qed.
Lemma place_app o os rs : (forall r, r ∈ os -> ~ goes_before o r) -> place o (os ++ rs) = os ++ place o rs.
Proof.
  induction os as [|r os IH]; intros H; [done|]. cbn [app place]. rewrite decide_False by (apply H; left). f_equal. apply IH. intros x Hx. apply H. by right.
Qed.
Lemma place_front o rs : (forall r, r ∈ rs -> goes_before o r) -> place o rs = o :: rs.
Proof. intros H. destruct rs as [|r rs]; [done|]. cbn. by rewrite decide_True by (apply H; left). Qed.
Lemma flat_insl o : forall M, (forall p os r, (p, os) ∈ M -> r ∈ os -> o_price r = p) -> (forall p os, (p, os) ∈ M -> os <> []) ->
  StronglySorted (fun a b : Z * list order => better (side_kind (o_side o)) (fst a) (fst b) = true) M ->
  flat (insl (side_kind (o_side o)) (o_price o) o M) = place o (flat M).
Proof.
  induction M as [|[p os] M IH]; intros Hp Hne Hs; [done|]. cbn [insl]. pose proof Hs as Hs0. apply StronglySorted_inv in Hs as [Hs Hb]. rewrite Forall_forall in Hb.
  change (flat ((p, os) :: M)) with (os ++ flat M).
  destruct (decide (p = o_price o)) as [->|Hn].
  - change (flat ((o_price o, os ++ [o]) :: M)) with ((os ++ [o]) ++ flat M). rewrite place_app.
    + rewrite place_front; [by rewrite <- app_assoc|]. intros r Hr. apply goes_better. apply elem_flat in Hr as (p' & os' & Hin & Hr).
      rewrite (Hp p' os' r); [|by right|done]. by apply (Hb _ Hin).
    + intros r Hr Hg. apply goes_better in Hg. rewrite (Hp (o_price o) os r), better_irrefl in Hg; [done|left|done].
  - destruct (better _ (o_price o) p) eqn:Eb.
    + rewrite place_front; [done|]. intros r Hr. apply goes_better. change (os ++ flat M) with (flat ((p, os) :: M)) in Hr. apply elem_flat in Hr as (p' & os' & Hin & Hr).
      rewrite (Hp p' os' r Hin Hr). apply elem_of_cons in Hin as [[= -> ->]|Hin]; [done|]. eapply better_trans; [done|]. by apply (Hb _ Hin).
    + change (flat ((p, os) :: insl (side_kind (o_side o)) (o_price o) o M)) with (os ++ flat (insl (side_kind (o_side o)) (o_price o) o M)).
      rewrite IH; [|intros p' os' r Hin; eapply Hp; by right|intros p' os' Hin; eapply Hne; by right|done].
      rewrite place_app; [done|]. intros r Hr Hg. apply goes_better in Hg. rewrite (Hp p os r) in Hg; [congruence|left|done].
Qed.
Lemma elem_insl k c o M p os : StronglySorted (fun a b : Z * list order => better k (fst a) (fst b) = true) M -> (p, os) ∈ insl k c o M ->
  (p <> c /\ (p, os) ∈ M) \/ (p = c /\ exists os0, os = os0 ++ [o] /\ ((p, os0) ∈ M \/ (os0 = [] /\ p ∉ map fst M))).
Proof.
  induction M as [|[p0 os0] M IH]; intros Hs; cbn [insl].
  { rewrite elem_of_list_singleton. intros [= -> ->]. right. split; [done|]. exists []. split; [done|]. right. split; [done|]. intros H. by apply elem_of_nil in H. }
  apply StronglySorted_inv in Hs as [Hs Hb]. rewrite Forall_forall in Hb. destruct (decide (p0 = c)) as [->|Hn].
  - intros H. apply elem_of_cons in H as [[= -> ->]|H].
    + right. split; [done|]. exists os0. split; [done|]. left. left.
    + left. split; [|by right]. pose proof (Hb _ H) as H1. cbn in H1. apply better_neq in H1. congruence.
  - destruct (better k (c) p0) eqn:Eb.
    + intros H. apply elem_of_cons in H as [[= -> ->]|H].
      * right. split; [done|]. exists []. split; [done|]. right. split; [done|]. cbn. intros Hi. apply elem_of_cons in Hi as [Hi|Hi]; [congruence|].
        apply elem_of_list_fmap in Hi as ([p1 os1] & E & Hi). cbn in E. pose proof (better_trans _ _ _ _ Eb (Hb _ Hi)) as H1. cbn in H1. by rewrite <- E, better_irrefl in H1.
      * left. split; [|done]. apply elem_of_cons in H as [[= -> ->]|H]; [done|]. intros ->. pose proof (better_trans _ _ _ _ Eb (Hb _ H)) as H1. cbn in H1. by rewrite better_irrefl in H1.
    + intros H. apply elem_of_cons in H as [[= -> ->]|H]; [left; split; [done|left]|]. destruct (IH Hs H) as [[H1 H2]|(H1 & os1 & -> & H2)].
      * left. split; [done|by right].
      * right. split; [done|]. exists os1. split; [done|]. destruct H2 as [H2|[-> H2]]; [left; by right|right]. split; [done|]. cbn. intros Hi. apply elem_of_cons in Hi as [Hi|Hi]; congruence.
Qed.
Lemma insl_fst k c o M q : q ∈ map fst (insl k c o M) <-> q = c \/ q ∈ map fst M.
Proof.
  induction M as [|[p0 os0] M IH]; cbn [insl map fst].
  { rewrite elem_of_list_singleton. split; [by left|]. intros [?|H]; [done|by apply elem_of_nil in H]. }
  destruct (decide (p0 = c)) as [->|Hn].
  - cbn [map fst]. rewrite elem_of_cons. split; [tauto|]. intros [?|?]; [by left|done].
  - destruct (better k (c) p0); cbn [map fst].
    + by rewrite elem_of_cons.
    + rewrite !elem_of_cons, IH. tauto.
Qed.
Lemma insl_sorted k c o M : StronglySorted (fun a b : Z * list order => better k (fst a) (fst b) = true) M ->
  StronglySorted (fun a b : Z * list order => better k (fst a) (fst b) = true) (insl k c o M).
Proof.
  induction 1 as [|[p os] M Hs IH Hb]; cbn [insl]. { repeat constructor. }
  destruct (decide (p = c)) as [->|Hn]; [by constructor|]. destruct (better k (c) p) eqn:Eb.
  - constructor; [by constructor|]. constructor; [done|]. eapply Forall_impl; [done|]. intros [p' os'] H. cbn in *. by eapply better_trans.
  - constructor; [done|]. rewrite Forall_forall in *. intros [p' os'] Hin. cbn. assert (Hp : p' ∈ map fst (insl k c o M)). { apply elem_of_list_fmap. by exists (p', os'). }
    apply insl_fst in Hp as [->|Hp]; [by apply better_total|]. apply elem_of_list_fmap in Hp as ([p1 os1] & E & Hi). cbn in E. subst p1. by apply (Hb _ Hi).
Qed.
Lemma limit_kind o : o_type o = LIMIT -> okind o = side_kind (o_side o) /\ okey o = o_price o.
Proof. unfold okind, okey, kind_of, side_kind. intros ->. by destruct (o_side o). Qed.
Lemma side_kind_type r sd : o_type r <> MARKET -> okind r = side_kind sd -> o_type r = LIMIT /\ okey r = o_price r.
Proof. unfold okind, okey, side_kind. intros Ht. destruct (o_type r), (o_side r), sd; cbn; try done; congruence. Qed.
Lemma add_view sid e o M : eng_ok sid e -> e_ords e !! o_id o = None -> live_ok (o_id o) o -> total (e_ords e) + o_leaves o < TWO64 -> o_sym o = sid ->
  cview e (okind o) M ->
  exists e' evs, eng_add o (put o e) = e' /\ eng_ok sid e' /\ e_log e' = e_log e ++ evs /\ execs evs = [] /\
    b_sym (e_bk e') = b_sym (e_bk e) /\ (forall k, k <> okind o -> get_side k (e_bk e') = get_side k (e_bk e)) /\
    e_ords e' = <[o_id o := o]> (e_ords e) /\ bprices (e_bk e') = bprices (e_bk e) /\
    cview e' (okind o) (insl (okind o) (okey o) o M) /\
    (forall k L, k <> okind o -> cview e k L -> cview e' k L).
Proof.
  intros He Hf Hl Ht Hs Hv. destruct (eng_add_ok sid e o He Hf Hl Ht Hs) as (u & e' & Heq & He' & Hords & Hlog & Hbp & Hpr).
  set (k := okind o) in *. set (c := okey o) in *.
  assert (Hj : forall j, j <> o_id o -> e_ords e' !! j = e_ords e !! j). { intros j Hj. by rewrite Hords, lookup_insert_ne. }
  assert (Hold : forall x, e_ords e !! o_id x = Some x -> e_ords e' !! o_id x = Some x). { intros x Hx. rewrite Hj; [done|]. intros E. rewrite E in Hx. congruence. }
  assert (Hq : forall p', queue (e_bk e') k p' = if p' =? c then queue (e_bk e) k c ++ [o_id o] else queue (e_bk e) k p') by apply (pr_queue _ _ _ _ _ _ _ Hpr).
  exists e', (lim_evs o sid u). split; [done|]. split; [done|]. split; [done|]. split; [apply execs_lim|].
  split; [by eapply pr_sym|]. split; [by eapply pr_sides|]. split; [done|]. split; [done|]. split.
  - constructor.
    + apply insl_sorted. by eapply cv_sorted.
    + intros p os Hin. destruct (elem_insl k c o M p os (cv_sorted _ _ _ Hv) Hin) as [[Hne H]|(-> & os0 & -> & H)].
      * destruct (cv_q _ _ _ Hv p os H) as (A & B & C). split; [done|]. split; [|auto]. rewrite Hq. by rewrite (proj2 (Z.eqb_neq p c)).
      * split; [by destruct os0|]. rewrite Hq, Z.eqb_refl, map_app. destruct H as [H|[-> H]].
        -- destruct (cv_q _ _ _ Hv _ os0 H) as (A & B & C). split; [by rewrite B|]. intros x Hx. apply elem_of_app in Hx as [Hx|Hx]; [auto|].
           apply elem_of_list_singleton in Hx as ->. by rewrite Hords, lookup_insert.
        -- split. { destruct (queue (e_bk e) k c) eqn:E; [done|]. exfalso. apply H, (cv_all _ _ _ Hv). by rewrite E. }
           intros x Hx. apply elem_of_list_singleton in Hx as ->. by rewrite Hords, lookup_insert.
    + intros q0 Hqn. apply insl_fst. rewrite Hq in Hqn. destruct (Z.eqb_spec q0 c) as [E|Hne]; [by left|]. right. by apply (cv_all _ _ _ Hv).
  - intros k' L Hk' HvL. eapply (cview_ext e); [|intros p os x _ _ Hx; by apply Hold|exact HvL]. intros p. unfold queue. by rewrite (pr_sides _ _ _ _ _ _ _ Hpr k').
Qed.
Lemma add_ref sid e o M : eng_ok sid e -> e_ords e !! o_id o = None -> live_ok (o_id o) o -> total (e_ords e) + o_leaves o < TWO64 -> o_sym o = sid ->
  o_type o = LIMIT -> cview e (side_kind (o_side o)) M ->
  exists e' evs M', eng_add o (put o e) = e' /\ eng_ok sid e' /\ e_log e' = e_log e ++ evs /\ execs evs = [] /\
    b_sym (e_bk e') = b_sym (e_bk e) /\ (forall k, k <> side_kind (o_side o) -> get_side k (e_bk e') = get_side k (e_bk e)) /\
    e_ords e' = <[o_id o := o]> (e_ords e) /\
    cview e' (side_kind (o_side o)) M' /\ flat M' = place o (flat M) /\
    (forall k L, k <> side_kind (o_side o) -> cview e k L -> cview e' k L).
Proof.
  intros He Hf Hl Ht Hs Hty Hv. destruct (limit_kind o Hty) as [Hk Hp]. rewrite <- Hk in Hv.
  destruct (add_view sid e o M He Hf Hl Ht Hs Hv) as (e' & evs & A1 & A2 & A3 & A4 & A5 & A6 & A7 & _ & A9 & A10). rewrite Hk, Hp in *.
  exists e', evs, (insl (side_kind (o_side o)) (o_price o) o M). split_and!; try done.
  apply flat_insl; [|intros p os Hin; by apply (cv_q _ _ _ Hv p os Hin)|by eapply cv_sorted].
  intros p os r Hin Hr. destruct (cview_order sid e _ M p os r He Hv Hin Hr) as (_ & _ & Hkr & Hpr' & Hlr). destruct (side_kind_type r (o_side o) (lo_type _ _ Hlr) Hkr). congruence.
Qed.

(** ** Prices of the two lists *)
Lemma flat_sorted k L : (forall p os r, (p, os) ∈ L -> r ∈ os -> o_price r = p) ->
  StronglySorted (fun a b : Z * list order => better k (fst a) (fst b) = true) L ->
  StronglySorted (fun a b => better k (o_price b) (o_price a) = false) (flat L).
Proof.
  intros Hp Hs. induction Hs as [|[p os] L Hs IH Hb]; [constructor|]. change (flat ((p, os) :: L)) with (os ++ flat L).
  assert (Hpo : forall r, r ∈ os -> o_price r = p) by (intros r Hr; eapply Hp; [left|done]).
  assert (IH' : StronglySorted (fun a b => better k (o_price b) (o_price a) = false) (flat L)) by (apply IH; intros p' os' r Hin; eapply Hp; by right).
  rewrite Forall_forall in Hb.
  assert (Hrest : forall r, r ∈ flat L -> better k p (o_price r) = true).
  { intros r Hr. apply elem_flat in Hr as (p' & os' & Hin & Hr). rewrite (Hp p' os' r); [|by right|done]. by apply (Hb _ Hin). }
  clear -Hpo IH' Hrest. induction os as [|r os IH]; [done|]. cbn [app]. constructor; [apply IH; intros x Hx; apply Hpo; by right|].
  rewrite Forall_forall. intros x Hx. rewrite (Hpo r) by left. apply elem_of_app in Hx as [Hx|Hx]; [rewrite (Hpo x) by (by right); apply better_irrefl|].
  apply better_asym. auto.
Qed.
Lemma cview_prices sid e sd L : eng_ok sid e -> cview e (side_kind sd) L -> forall p os r, (p, os) ∈ L -> r ∈ os -> o_price r = p.
Proof.
  intros He Hv p os r Hin Hr. destruct (cview_order sid e _ L p os r He Hv Hin Hr) as (_ & _ & Hk & Hp & Hl).
  destruct (side_kind_type r sd (lo_type _ _ Hl) Hk). congruence.
Qed.
Lemma opp_side sd : opp sd = side_kind (opposite sd).
Proof. by destruct sd. Qed.
(** What an order leaves behind is out of its limit, if some of it is left. *)
Lemma remaining_far : forall rs o, StronglySorted (fun a b => better (opp (o_side o)) (o_price b) (o_price a) = false) rs ->
  (forall r, r ∈ rs -> 0 < o_leaves r) -> 0 < o_leaves (filled o rs) -> forall r, r ∈ remaining o rs -> ~ within_limit o (o_price r).
Proof.
  induction rs as [|r rs IH]; intros o Hs Hpos Hlv x Hx; cbn [remaining filled] in *; [by apply elem_of_nil in Hx|].
  apply StronglySorted_inv in Hs as [Hs Hb]. destruct (decide (takes o r)) as [Ht|Ht].
  - set (q := Z.min (o_leaves r) (o_leaves o)) in *. assert (q = o_leaves r).
    { destruct (Z.le_gt_cases (o_leaves o) (o_leaves r)) as [Hle|Hgt]; [|unfold q; lia]. exfalso.
      destruct (ref_none (after_fill q o) rs) as (_ & E & _); [cbn; unfold q; lia|]. rewrite E in Hlv. cbn in Hlv. unfold q in Hlv. lia. }
    rewrite decide_True in Hx by done. cbn [app] in Hx. intros Hw. eapply (IH (after_fill q o)); try done. intros y Hy. apply Hpos. by right.
  - assert (Hn : ~ within_limit o (o_price r)). { intros Hw. apply Ht. done. }
    apply elem_of_cons in Hx as [->|Hx]; [done|]. rewrite Forall_forall in Hb. specialize (Hb _ Hx). intros Hw. apply Hn.
    unfold within_limit, better, opp in *. destruct (o_side o); cbn in *; lia.
Qed.
Lemma remaining_prices : forall rs o x, x ∈ remaining o rs -> exists r, r ∈ rs /\ o_price r = o_price x.
Proof.
  induction rs as [|r rs IH]; intros o x Hx; cbn [remaining] in Hx; [by apply elem_of_nil in Hx|].
  destruct (decide (takes o r)); [|by exists x].
  apply elem_of_app in Hx as [Hx|Hx].
  - destruct (decide _); [by apply elem_of_nil in Hx|]. apply elem_of_list_singleton in Hx as ->. exists r. split; [left|done].
  - destruct (IH _ _ Hx) as (r' & ? & ?). exists r'. split; [by right|done].
Qed.
Lemma elem_place o rs x : x ∈ place o rs <-> x = o \/ x ∈ rs.
Proof.
  induction rs as [|r rs IH]; cbn [place]; [rewrite elem_of_list_singleton; split; [by left|intros [?|H]; [done|by apply elem_of_nil in H]]|].
  destruct (decide (goes_before o r)); rewrite !elem_of_cons; [tauto|]. rewrite IH. tauto.
Qed.
(** Uncrossed, in terms of the lists. *)
Lemma crossed_lists sid e A B : eng_ok sid e -> cview e KBid A -> cview e KAsk B ->
  crossed e = None <-> forall a b, a ∈ flat A -> b ∈ flat B -> o_price a < o_price b.
Proof.
  intros He HA HB. split.
  - intros Hc a b Ha Hb. apply elem_flat in Ha as (pa & osa & Hina & Ha). apply elem_flat in Hb as (pb & osb & Hinb & Hb).
    rewrite (cview_prices sid e BUY A He HA _ _ _ Hina Ha), (cview_prices sid e SELL B He HB _ _ _ Hinb Hb).
    assert (Hqa : queue (e_bk e) KBid pa <> []). { destruct (cv_q _ _ _ HA _ _ Hina) as (Hne & -> & _). by destruct osa. }
    assert (Hqb : queue (e_bk e) KAsk pb <> []). { destruct (cv_q _ _ _ HB _ _ Hinb) as (Hne & -> & _). by destruct osb. }
    destruct (best_exists _ _ _ _ _ (proj2 He) Hqa) as (p1 & E1 & H1). destruct (best_exists _ _ _ _ _ (proj2 He) Hqb) as (p2 & E2 & H2).
    unfold crossed, best in Hc. rewrite E1, E2 in Hc. destruct (Z.leb_spec p2 p1); [done|]. unfold better in *. cbn in *. lia.
  - intros H. unfold crossed. destruct (best KBid e) as [p1|] eqn:E1; [|done]. destruct (best KAsk e) as [p2|] eqn:E2; [|done].
    destruct (Z.leb_spec p2 p1); [|done]. exfalso.
    destruct (best_some _ _ _ _ _ (proj2 He) E1) as [H1 _]. destruct (best_some _ _ _ _ _ (proj2 He) E2) as [H2 _].
    apply (cv_all _ _ _ HA) in H1. apply (cv_all _ _ _ HB) in H2.
    apply elem_of_list_fmap in H1 as ([p os] & E & Hin). cbn in E. subst p. apply elem_of_list_fmap in H2 as ([p os2] & E & Hin2). cbn in E. subst p.
    destruct (cv_q _ _ _ HA _ _ Hin) as (Hne & _). destruct (cv_q _ _ _ HB _ _ Hin2) as (Hne2 & _). destruct os as [|a os]; [done|]. destruct os2 as [|b os2]; [done|].
    specialize (H a b ltac:(apply elem_flat; exists p1, (a :: os); split; [done|left]) ltac:(apply elem_flat; exists p2, (b :: os2); split; [done|left])).
    rewrite (cview_prices sid e BUY A He HA _ _ a Hin ltac:(left)), (cview_prices sid e SELL B He HB _ _ b Hin2 ltac:(left)) in H. lia.
Qed.
