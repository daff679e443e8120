(** * Trail.v -- trailing stop orders keep up with the market: what the engine functions leave alone,
    and what recalculation settles. *)
From Coq Require Import ZifyBool.
From stdpp Require Import fin_maps relations.
From Verif Require Import Types Book Engine LevelFacts BookInv EngInv EngPrim Steps StepsOk Refine1 Refine2 Refine3 Refine4.

(** ** Frame: recorded trailing prices, and the trailing orders only become fewer *)
Definition tkey (o : order) : Z * otype * oside * Z * Z * Z := (o_sym o, o_type o, o_side o, o_stop o, o_tdist o, o_tstep o).
Definition tprices (b : book) : Z * Z := (b_trail_bid b, b_trail_ask b).
Definition has_key (e : eng) (x : order) : Prop := exists j y, e_ords e !! j = Some y /\ tkey x = tkey y.
Record tkeep (e e' : eng) : Prop := {
  tk_prices : tprices (e_bk e') = tprices (e_bk e);
  tk_ords : forall i x, e_ords e' !! i = Some x -> is_trailing x = true -> has_key e x;
}.
Lemma tkeep_refl e : tkeep e e.
Proof. constructor; [done|]. intros i x Hi _. by exists i, x. Qed.
Lemma tkey_trailing x y : tkey x = tkey y -> is_trailing x = is_trailing y.
Proof. unfold tkey, is_trailing, is_trailing_stop, is_trailing_stop_limit. intros [= _ -> _ _ _ _]. done. Qed.
Lemma tkeep_trans a b c : tkeep a b -> tkeep b c -> tkeep a c.
Proof.
  intros [A1 A2] [B1 B2]. constructor; [congruence|]. intros i x Hi Ht.
  destruct (B2 i x Hi Ht) as (j & y & Hj & Hk). destruct (A2 j y Hj) as (j' & z & Hz & Hk').
  - by rewrite <- (tkey_trailing _ _ Hk).
  - exists j', z. split; [done|]. congruence.
Qed.
Lemma tkeep_ords e e' : tprices (e_bk e') = tprices (e_bk e) -> e_ords e' = e_ords e -> tkeep e e'.
Proof. intros H1 H2. constructor; [done|]. intros i x Hi _. exists i, x. by rewrite H2 in Hi. Qed.
Lemma tkeep_drop i e : tkeep e (drop_id i e).
Proof. constructor; [done|]. intros j x Hj _. cbn in Hj. apply lookup_delete_Some in Hj as [_ Hj]. by exists j, x. Qed.
Lemma tkeep_put o e : is_trailing o = false \/ has_key e o -> tkeep e (put o e).
Proof.
  intros H. constructor; [done|]. intros j x Hj Ht. cbn in Hj. apply lookup_insert_Some in Hj as [[_ <-]|[_ Hj]]; [|by exists j, x].
  destruct H; [congruence|done].
Qed.
Lemma set_side_tprices k s b : tprices (set_side k s b) = tprices b.
Proof. by destruct k. Qed.
Lemma emit_lim_eq o u e : e_bk (emit_lim o u e) = e_bk e /\ e_ords (emit_lim o u e) = e_ords e.
Proof. unfold emit_lim. by destruct (is_limit o). Qed.
Lemma eng_add_tkeep o e : tkeep e (eng_add o e).
Proof.
  unfold eng_add, book_add. destruct (side_add _ _ _) as [s u]. destruct (emit_lim_eq o u (set_bk (set_side (okind o) s (e_bk e)) e)) as [H1 H2].
  apply tkeep_ords; [rewrite H1; apply set_side_tprices|by rewrite H2].
Qed.
Lemma eng_sub_reduce_tkeep o q h v e e' : eng_sub_reduce o q h v e = Ok e' -> tkeep e e' /\ e_ords e' = e_ords e.
Proof.
  unfold eng_sub_reduce, book_reduce. destruct (side_sub _ _ _ _ _ _) as [[s u]| |]; cbn [rbind]; intros [= <-].
  destruct (emit_lim_eq o u (set_bk (set_side (okind o) s (e_bk e)) e)) as [H1 H2]. rewrite H2. split; [|done].
  apply tkeep_ords; [rewrite H1; apply set_side_tprices|by rewrite H2].
Qed.
Lemma eng_sub_delete_tkeep o e e' : eng_sub_delete o e = Ok e' -> tkeep e e' /\ e_ords e' = e_ords e.
Proof.
  unfold eng_sub_delete, book_delete. destruct (side_sub _ _ _ _ _ _) as [[s u]| |]; cbn [rbind]; intros [= <-].
  destruct (emit_lim_eq o u (set_bk (set_side (okind o) s (e_bk e)) e)) as [H1 H2]. rewrite H2. split; [|done].
  apply tkeep_ords; [rewrite H1; apply set_side_tprices|by rewrite H2].
Qed.
Lemma reset_tkeep e : tkeep e (reset_m e).
Proof. by apply tkeep_ords. Qed.
Lemma emit_tkeep ev e : tkeep e (emit ev e).
Proof. by apply tkeep_ords. Qed.
Lemma note_tkeep o p q e : tkeep e (exec_note o p q e).
Proof. apply tkeep_ords; [|done]. cbn. by destruct (o_side o). Qed.
Lemma reduce_order_tkeep o q e e' : (exists i, e_ords e !! i = Some o) -> reduce_order o q e = Ok e' -> tkeep e e'.
Proof.
  intros [i Hi]. unfold reduce_order. set (o' := set_leaves _ o).
  assert (Hp : forall ev, tkeep e (emit ev (put o' e))).
  { intros ev. eapply tkeep_trans; [|apply emit_tkeep]. apply tkeep_put. right. exists i, o. done. }
  destruct (0 <? o_leaves o').
  - intros [H _]%eng_sub_reduce_tkeep. eapply tkeep_trans; [apply Hp|exact H].
  - destruct (eng_sub_reduce _ _ _ _ _) as [e1| |] eqn:E; cbn [rbind]; intros [= <-]. apply eng_sub_reduce_tkeep in E as [E _].
    eapply tkeep_trans; [apply Hp|]. eapply tkeep_trans; [exact E|apply tkeep_drop].
Qed.
Lemma delete_order_tkeep o e e' : delete_order o e = Ok e' -> tkeep e e'.
Proof.
  unfold delete_order. destruct (eng_sub_delete o e) as [e1| |] eqn:E; cbn [rbind]; intros [= <-]. apply eng_sub_delete_tkeep in E as [E _].
  eapply tkeep_trans; [exact E|]. eapply tkeep_trans; [apply emit_tkeep|apply tkeep_drop].
Qed.
Lemma incr_tkeep r p q e : (exists i, e_ords e !! i = Some r) -> tkeep e (put (exec_incr q r) (exec_note r p q e)).
Proof.
  intros [i Hi]. eapply tkeep_trans; [apply note_tkeep|]. apply tkeep_put. right. by exists i, r.
Qed.
Lemma exec_reduce_tkeep r p q e e' : (exists i, e_ords e !! i = Some r) -> exec_reduce r p q e = Ok e' -> tkeep e e'.
Proof.
  intros Hr. unfold exec_reduce, reduce_core. pose proof (incr_tkeep r p q e Hr) as Hk.
  set (e1 := put _ _) in *. destruct (_ || _); [by intros [= <-]|].
  destruct (e_ords e1 !! o_id r) as [x|] eqn:Ex; [|by intros [= <-]]. destruct (negb _); [done|].
  destruct (reduce_order x q e1) as [e2| |] eqn:E; cbn [rbind]; intros [= <-]. apply reduce_order_tkeep in E; [|by eexists].
  eapply tkeep_trans; [exact Hk|]. eapply tkeep_trans; [exact E|apply reset_tkeep].
Qed.
Lemma exec_delete_tkeep r p q e e' : (exists i, e_ords e !! i = Some r) -> exec_delete r p q e = Ok e' -> tkeep e e'.
Proof.
  intros Hr. unfold exec_delete, delete_core. pose proof (incr_tkeep r p q e Hr) as Hk.
  set (e1 := put _ _) in *. destruct (_ =? 0); [by intros [= <-]|].
  destruct (e_ords e1 !! o_id r) as [x|] eqn:Ex; [|by intros [= <-]]. destruct (negb _); [done|].
  destruct (delete_order x e1) as [e2| |] eqn:E; cbn [rbind]; intros [= <-]. apply delete_order_tkeep in E.
  eapply tkeep_trans; [exact Hk|]. eapply tkeep_trans; [exact E|apply reset_tkeep].
Qed.
Lemma exec_chain_ids_tkeep ids price : forall v e v' e', exec_chain_ids ids price v e = Ok (v', e') -> tkeep e e'.
Proof.
  induction ids as [|i ids IH]; intros v e v' e'; cbn [exec_chain_ids]; [intros [= <- <-]; apply tkeep_refl|].
  destruct (v =? 0); [intros [= <- <-]; apply tkeep_refl|].
  destruct (e_ords e !! i) as [r|] eqn:Hr; cbn [of_opt rbind]; [|done]. destruct (is_aon r).
  - destruct (exec_delete _ _ _ _) as [e1| |] eqn:E; cbn [rbind]; [|done..]. intros H%IH. eapply tkeep_trans; [|exact H].
    eapply exec_delete_tkeep; [by eexists|done].
  - destruct (exec_reduce _ _ _ _) as [e1| |] eqn:E; cbn [rbind]; [|done..]. intros H%IH. eapply tkeep_trans; [|exact H].
    eapply exec_reduce_tkeep; [by eexists|done].
Qed.
Lemma exec_chain_lvls_tkeep k ps price : forall v e e', exec_chain_lvls k ps price v e = Ok e' -> tkeep e e'.
Proof.
  induction ps as [|p ps IH]; intros v e e'; cbn [exec_chain_lvls]; [intros [= <-]; apply tkeep_refl|].
  destruct (v =? 0); [intros [= <-]; apply tkeep_refl|].
  destruct (find_level p (lvls k e)) as [l|]; cbn [of_opt rbind]; [|done].
  destruct (exec_chain_ids _ _ _ _) as [[v1 e1]| |] eqn:E; cbn [rbind]; [|done..]. intros H%IH.
  eapply tkeep_trans; [by eapply exec_chain_ids_tkeep|done].
Qed.
Lemma exec_chain_tkeep k p0 price v e e' : exec_chain k p0 price v e = Ok e' -> tkeep e e'.
Proof. unfold exec_chain. destruct (from_level _ _); [done|]. apply exec_chain_lvls_tkeep. Qed.
(** The order in flight keeps its type. *)
Lemma match_ids_tkeep ids : forall o e s o' e', match_ids ids o e = Ok (s, o', e') -> tkeep e e' /\ tkey o' = tkey o.
Proof.
  induction ids as [|i ids IH]; intros o e s o' e'; cbn [match_ids]; [intros [= <- <- <-]; split; [apply tkeep_refl|done]|].
  destruct (e_ords e !! i) as [r|] eqn:Hr; cbn [of_opt rbind]; [|done]. destruct (is_aon r && _); [intros [= <- <- <-]; split; [apply tkeep_refl|done]|].
  destruct (exec_reduce _ _ _ _) as [e1| |] eqn:E; cbn [rbind]; [|done..].
  apply exec_reduce_tkeep in E; [|by eexists].
  set (e2 := exec_note _ _ _ e1). set (o2 := set_leaves _ _).
  assert (Hk : tkeep e e2) by (eapply tkeep_trans; [exact E|apply note_tkeep]).
  destruct (_ =? 0); [intros [= <- <- <-]; split; [exact Hk|done]|].
  intros [H1 H2]%IH. split; [by eapply tkeep_trans|]. by rewrite H2.
Qed.
Lemma match_order_loop_tkeep f : forall o e o' e', match_order_loop f o e = Ok (o', e') -> tkeep e e' /\ tkey o' = tkey o.
Proof.
  induction f as [|f IH]; intros o e o' e'; cbn [match_order_loop]; [done|].
  destruct (best _ e) as [p|]; [|intros [= <- <-]; split; [apply tkeep_refl|done]].
  destruct (find_level p _) as [l|]; cbn [of_opt rbind]; [|done].
  destruct (negb _); [intros [= <- <-]; split; [apply tkeep_refl|done]|].
  destruct (is_fok o || is_aon o).
  - destruct (chain_levels _ p e) as [ls| |]; cbn [rbind]; [|done..].
    destruct (chain1 _ _ _ _ _ =? 0); [intros [= <- <-]; split; [apply tkeep_refl|done]|].
    destruct (exec_chain _ _ _ _ _) as [e1| |] eqn:E; cbn [rbind]; [|done..]. apply exec_chain_tkeep in E. intros [= <- <-].
    split; [|done]. eapply tkeep_trans; [exact E|apply note_tkeep].
  - destruct (match_ids _ _ _) as [[[s o1] e1]| |] eqn:E; cbn [rbind]; [|done..]. apply match_ids_tkeep in E as [E1 E2].
    destruct s; [intros [= <- <-]; done|]. intros [H1 H2]%IH. split; [by eapply tkeep_trans|congruence].
Qed.
Lemma match_order_tkeep o e o' e' : match_order o e = Ok (o', e') -> tkeep e e' /\ tkey o' = tkey o.
Proof. apply match_order_loop_tkeep. Qed.
Lemma match_market_tkeep o e o' e' : match_market o e = Ok (o', e') -> tkeep e e' /\ tkey o' = tkey o.
Proof.
  unfold match_market. destruct (best _ e); [|intros [= <- <-]; split; [apply tkeep_refl|done]].
  intros [H1 H2]%match_order_tkeep. done.
Qed.
Lemma activate_stop_tkeep o e e' : activate_stop o e = Ok e' -> tkeep e e'.
Proof.
  unfold activate_stop. destruct (eng_sub_delete o e) as [e1| |] eqn:E; cbn [rbind]; [|done..]. apply eng_sub_delete_tkeep in E as [E _].
  destruct (match_market _ _) as [[o2 e2]| |] eqn:E2; cbn [rbind]; [|done..]. apply match_market_tkeep in E2 as [E2 _]. intros [= <-].
  eapply tkeep_trans; [exact E|]. eapply tkeep_trans; [apply (tkeep_drop (o_id o))|].
  eapply tkeep_trans; [|apply emit_tkeep]. eapply tkeep_trans; [apply emit_tkeep|exact E2].
Qed.
Lemma activate_stop_limit_tkeep o e e' : activate_stop_limit o e = Ok e' -> tkeep e e'.
Proof.
  unfold activate_stop_limit. destruct (eng_sub_delete o e) as [e1| |] eqn:E; cbn [rbind]; [|done..]. apply eng_sub_delete_tkeep in E as [E _].
  destruct (match_order _ _) as [[o2 e2]| |] eqn:E2; cbn [rbind]; [|done..]. apply match_order_tkeep in E2 as [E2 Hk].
  assert (H : tkeep e e2).
  { eapply tkeep_trans; [exact E|]. eapply tkeep_trans; [apply (tkeep_drop (o_id o))|]. eapply tkeep_trans; [apply emit_tkeep|exact E2]. }
  destruct (_ && _); intros [= <-].
  - eapply tkeep_trans; [exact H|]. eapply tkeep_trans; [apply tkeep_put; left|apply eng_add_tkeep].
    rewrite (tkey_trailing _ _ Hk). done.
  - eapply tkeep_trans; [exact H|apply emit_tkeep].
Qed.
Lemma activate_ids_tkeep ids : forall r0 e r e', activate_ids ids r0 e = Ok (r, e') -> tkeep e e'.
Proof.
  induction ids as [|i ids IH]; intros r0 e r e'; cbn [activate_ids]; [intros [= <- <-]; apply tkeep_refl|].
  destruct (e_ords e !! i) as [o|]; cbn [of_opt rbind]; [|done].
  destruct (o_type o); try apply IH.
  1,3: destruct (activate_stop o e) as [e1| |] eqn:E; cbn [rbind]; [|done..]; apply activate_stop_tkeep in E; intros H%IH; by eapply tkeep_trans.
  1,2: destruct (activate_stop_limit o e) as [e1| |] eqn:E; cbn [rbind]; [|done..]; apply activate_stop_limit_tkeep in E; intros H%IH; by eapply tkeep_trans.
Qed.
Lemma activate_level_tkeep k m e r e' : activate_level k m e = Ok (r, e') -> tkeep e e'.
Proof.
  unfold activate_level. destruct (best k e); [|intros [= <- <-]; apply tkeep_refl].
  destruct (find_level _ _); cbn [of_opt rbind]; [|done]. destruct (negb _); [intros [= <- <-]; apply tkeep_refl|]. apply activate_ids_tkeep.
Qed.

(** ** Recalculation settles all trailing orders of its side *)
Lemma next_gap k p r ls : sorted k ls -> find_level p ls <> None -> find_level r ls <> None -> better k p r = true ->
  exists q, next_level p ls = Some q /\ (r = q \/ better k q r = true).
Proof.
  unfold next_level. induction ls as [|a ls IH]; cbn; [done|]. intros Hs Hp Hr Hb. apply sorted_cons_inv in Hs as [Hs Hbef].
  destruct (Z.eqb_spec (l_price a) p) as [E|E].
  - destruct (Z.eqb_spec (l_price a) r) as [E'|E']; [exfalso; apply better_neq in Hb; congruence|].
    destruct (find_level r ls) as [l|] eqn:El; [|done]. destruct ls as [|c ls]; [done|].
    exists (l_price c). split; [done|]. eapply (headp_best k (c :: ls)); [done|done|exact El].
  - destruct (Z.eqb_spec (l_price a) r) as [E'|E'].
    + exfalso. destruct (find_level p ls) as [l|] eqn:El; [|done]. pose proof (find_level_price _ _ _ El) as Ep.
      pose proof (Hbef l (find_level_elem _ _ _ El)) as Hx. unfold before in Hx. rewrite Ep, E' in Hx. unfold better in *. destruct (desc k); lia.
    + by apply IH.
Qed.
Lemma recalc_ids_new sid k s : trail_kind k = Some s -> forall ids rc e r e', recalc_ids ids rc e = Ok (r, e') -> eng_ok sid e -> NoDup ids ->
  (forall i, i ∈ ids -> exists o, e_ords e !! i = Some o /\ o_sym o = sid /\ okind o = k) ->
  forall j x, e_ords e' !! j = Some x -> e_ords e !! j = Some x \/ ~ unst (e_bk e') k x.
Proof.
  intros Hk. induction ids as [|i ids IH]; intros rc e r e' Heq He Hnd Hin j x Hj; cbn [recalc_ids] in Heq.
  { injection Heq as <- <-. by left. }
  pose proof Hnd as Hnd0. apply NoDup_cons in Hnd as [Hni Hnd].
  destruct (Hin i) as (o & Ho & Hs & Hok); [left|].
  pose proof (lo_id _ _ (mo_live _ (proj1 He) _ _ Ho)) as Hid.
  rewrite Ho in Heq. cbn [of_opt rbind] in Heq.
  destruct (Z.eqb_spec (calc_trailing o (e_bk e)) (o_stop o)) as [Eq|Nq].
  { eapply IH; try done. intros i' Hi'. apply Hin. by right. }
  assert (Ho' : e_ords e !! o_id o = Some o) by by rewrite Hid.
  destruct (trail_move (F := False) (W := False) sid e o k s He Ho' Hs Hk Hok Nq) as (e1 & Hdel & Hm & He1 & Hrk1 & Hords1 & Hk1 & Hs1 & Hi1 & Hc1 & Hq1).
  rewrite Hdel in Heq. cbn [rbind] in Heq.
  set (o' := retrail (calc_trailing o (e_bk e)) o) in *.
  set (e2 := eng_add o' (put o' (emit (EUpdateOrder o') e1))) in *.
  assert (Hin2 : forall j, j ∈ ids -> exists o, e_ords e2 !! j = Some o /\ o_sym o = sid /\ okind o = k).
  { intros j' Hj'. destruct (Hin j') as (y & Hy & ? & ?); [by right|]. exists y. split; [|done].
    rewrite Hords1, lookup_insert_ne; [done|]. rewrite Hid. intros ->. done. }
  destruct (recalc_ids_ok (F := False) (W := False) sid k s Hk ids true e2 He1 Hnd Hin2) as (r1 & e3 & Heq1 & _ & _ & Hrk & _). 
  rewrite Heq in Heq1. injection Heq1 as <- <-.
  destruct (IH true e2 r e' Heq He1 Hnd Hin2 j x Hj) as [H|H]; [|by right].
  rewrite Hords1 in H. apply lookup_insert_Some in H as [[_ <-]|[_ H]]; [|by left]. right.
  destruct (rkeeps_tm k s e2 e' Hk Hrk) as (Htm & _). unfold unst. rewrite (calc_tm _ _ _ Htm). by intros [_ ?].
Qed.

(** Where the walk has been. *)
Definition upto (k : kind) (prev : option Z) (p : Z) : Prop := exists q, prev = Some q /\ (p = q \/ better k p q = true).
Lemma recalc_walk_settles sid k s : trail_kind k = Some s -> forall fuel prev cur e e', recalc_walk fuel k prev cur e = Ok e' -> eng_ok sid e ->
  (forall p, cur = Some p -> queue (e_bk e) k p <> []) ->
  (forall q, prev = Some q -> queue (e_bk e) k q <> []) ->
  (forall j x, e_ords e !! j = Some x -> o_sym x = sid -> okind x = k -> upto k prev (okey x) -> ~ unst (e_bk e) k x) ->
  (forall j x, e_ords e !! j = Some x -> o_sym x = sid -> okind x = k ->
     match cur with Some p => better k (okey x) p = true | None => True end -> upto k prev (okey x)) ->
  rkeeps k e e' /\ forall j x, e_ords e' !! j = Some x -> o_sym x = sid -> okind x = k -> calc_trailing x (e_bk e') = o_stop x.
Proof.
  intros Hk. induction fuel as [|fuel IH]; intros prev cur e e' Heq He Hcur Hprev Hdone Hgap; cbn [recalc_walk] in Heq; [done|].
  destruct cur as [p|].
  2: { injection Heq as <-. split; [apply rkeeps_refl|]. intros j x Hj Hs Hx. 
       destruct (decide (calc_trailing x (e_bk e) = o_stop x)) as [|Hn]; [done|]. exfalso. eapply Hdone; try done. by eapply Hgap. }
  specialize (Hcur p eq_refl). pose proof (proj2 (find_queue sid e k p He) Hcur) as Hfind.
  revert Heq. unfold lvls at 1. rewrite (book_view _ _ _ k p (proj2 He)), lvl_at_ne by done. cbn [of_opt rbind l_ids].
  assert (Hnd : NoDup (queue (e_bk e) k p)) by (eapply queue_nodup, He).
  assert (Hin : forall i, i ∈ queue (e_bk e) k p -> exists o, e_ords e !! i = Some o /\ o_sym o = sid /\ okind o = k).
  { intros i Hi. destruct (queue_facts sid e k p i He Hi) as (o & Ho & _ & ? & ? & _). eauto. }
  destruct (recalc_ids_ok (F := False) (W := False) sid k s Hk (queue (e_bk e) k p) false e He Hnd Hin) as (r & e1 & Heq1 & Hrtc & He1 & Hrk & Hle & Ht & Hf & Hst & Htq).
  rewrite Heq1. cbn [rbind].
  pose proof (recalc_ids_new sid k s Hk _ _ _ _ _ Heq1 He Hnd Hin) as Hnew.
  destruct (rkeeps_tm k s e e1 Hk Hrk) as (Htm & _).
  pose proof (sd_sorted _ _ _ _ (bk_side _ _ _ (proj2 He) k)) as Hsort. fold (lvls k e) in Hsort.
  destruct r.
  - intros Heq.
    assert (Hprev1 : forall q, prev = Some q -> queue (e_bk e1) k q <> []).
    { intros q Hq. pose proof (Hprev q Hq) as Hne. destruct (queue (e_bk e) k q) as [|i ids] eqn:Eq; [done|].
      destruct (queue_facts sid e k q i He) as (o & Ho & _ & Hs & Hko & Hkey & _); [rewrite Eq; left|].
      assert (Hnu : ~ unst (e_bk e) k o). { eapply Hdone; try done. exists q. split; [done|]. by left. }
      pose proof (Hst _ _ Ho Hnu) as Ho1. intros E. assert (i ∈ queue (e_bk e1) k q) as Hi; [|rewrite E in Hi; by apply elem_of_nil in Hi].
      apply (queue_in _ _ _ _ _ _ (proj2 He1)). eauto. }
    eapply IH in Heq; try done.
    + destruct Heq as [Hrk2 Hall]. split; [by eapply rkeeps_trans|done].
    + intros p1 Hp1. destruct prev as [q|]; [injection Hp1 as <-; by apply Hprev1|]. eapply best_some; [apply He1|done].
    + intros j x Hj Hs Hx Hu. destruct (Hnew j x Hj) as [Hold|]; [|done].
      unfold unst. rewrite (calc_tm _ _ _ Htm). by eapply Hdone.
    + intros j x Hj Hs Hx. destruct prev as [q|]; [intros Hb; exists q; auto|].
      pose proof (bk_full _ _ _ (proj2 He1) _ _ Hj Hs) as Hjq. rewrite Hx in Hjq.
      assert (Hne : queue (e_bk e1) k (okey x) <> []) by (intros E; rewrite E in Hjq; by apply elem_of_nil in Hjq).
      destruct (best_exists _ _ _ k (okey x) (proj2 He1) Hne) as (b & Hb & Hc). unfold best. rewrite Hb.
      intros Hbb. exfalso. destruct Hc as [E|Hc]; [rewrite E in Hbb; apply better_neq in Hbb; congruence|].
      unfold better in *. destruct (desc k); lia.
  - destruct (Hf eq_refl) as (_ & -> & Hall). intros Heq.
    destruct (rem_next k p e Hsort Hfind) as [Hrem Hnext].
    eapply IH in Heq; try done.
    + intros q Hq. apply (find_queue sid e k q He). by apply Hnext.
    + by intros q [= <-].
    + intros j x Hj Hs Hx (q & [= <-] & Hu). pose proof (bk_full _ _ _ (proj2 He) _ _ Hj Hs) as Hjq. rewrite Hx in Hjq.
      destruct Hu as [E|Hu]; [rewrite E in Hjq; by eapply Hall|]. eapply Hdone; try done. eapply Hgap; done.
    + intros j x Hj Hs Hx Hc. exists p. split; [done|].
      pose proof (bk_full _ _ _ (proj2 He) _ _ Hj Hs) as Hjq. rewrite Hx in Hjq.
      assert (Hne : queue (e_bk e) k (okey x) <> []) by (intros E; rewrite E in Hjq; by apply elem_of_nil in Hjq).
      apply (find_queue sid e k _ He) in Hne.
      destruct (decide (okey x = p)) as [|Hnp]; [by left|]. right.
      destruct (better k (okey x) p) eqn:Eb; [done|]. exfalso.
      assert (Hpb : better k p (okey x) = true) by (unfold better in *; destruct (desc k); lia).
      destruct (next_gap k p (okey x) (lvls k e) Hsort Hfind Hne Hpb) as (q & Hq & Hqx). rewrite Hq in Hc.
      destruct Hqx as [E|Hqx]; [rewrite E in Hc; apply better_neq in Hc; congruence|]. unfold better in *. destruct (desc k); lia.
Qed.
