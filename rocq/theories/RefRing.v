(** * RefRing.v -- the engine against the reference exchange for all order types of Spec14.v: trading,
    joining, leaving and changing. *)
From Coq Require Import ZifyBool.
From stdpp Require Import fin_maps gmap relations sorting.
From Verif Require Import Types Book Engine Manager Factory Validate LevelFacts BookInv EngInv EngPrim Steps StepsOk Refine1 Refine2 Refine3 Refine4 Trail Trail2 Api StateInv Trades PropsTrades PropsOrders PropsFill PropsTrail RefMatch PropsRef RefExchange RefStops RefHall Spec Spec2 Spec3 Spec5 Spec6 Spec7 Spec8 Spec13 Spec14.

(** ** A ring by its lists and prices *)
Definition now_of (sd : oside) (b : book) : Z := match sd with BUY => b_match_bid b | SELL => b_match_ask b end.
Definition seen_of (sd : oside) (b : book) : Z := match sd with BUY => b_trail_bid b | SELL => b_trail_ask b end.
Definition half_in (sd : oside) (e : eng) : half :=
  Half (orders_of (side_kind sd) e) (orders_of (stop_side sd) e) (orders_of (trail_side sd) e) (now_of sd (e_bk e)) (last_of sd (e_bk e)) (seen_of sd (e_bk e)).
Definition ring_of (e : eng) : ring := Ring (half_in BUY e) (half_in SELL e).
Definition glist (k : kind) (g : ring) : list order :=
  match k with
  | KBid => q_rest (g_buy g) | KAsk => q_rest (g_sell g) | KBuyStop => q_stops (g_buy g) | KSellStop => q_stops (g_sell g)
  | KTrailBuy => q_trails (g_buy g) | KTrailSell => q_trails (g_sell g) end.
Definition gnow (sd : oside) (g : ring) : Z := q_now (half_of sd g).
Definition glast (sd : oside) (g : ring) : Z := q_last (half_of sd g).
Definition gseen (sd : oside) (g : ring) : Z := q_seen (half_of sd g).
Lemma ring_eq g g' : (forall k, glist k g = glist k g') -> (forall sd, gnow sd g = gnow sd g') -> (forall sd, glast sd g = glast sd g') -> (forall sd, gseen sd g = gseen sd g') -> g = g'.
Proof.
  intros H1 H2 H3 H4. pose proof (H1 KBid). pose proof (H1 KAsk). pose proof (H1 KBuyStop). pose proof (H1 KSellStop). pose proof (H1 KTrailBuy). pose proof (H1 KTrailSell).
  pose proof (H2 BUY). pose proof (H2 SELL). pose proof (H3 BUY). pose proof (H3 SELL). pose proof (H4 BUY). pose proof (H4 SELL).
  destruct g as [[] []], g' as [[] []]. unfold gnow, glast, gseen in *. cbn in *. congruence.
Qed.
Lemma ring_list k e : glist k (ring_of e) = orders_of k e.
Proof. by destruct k. Qed.
Lemma ring_now sd e : gnow sd (ring_of e) = now_of sd (e_bk e).
Proof. by destruct sd. Qed.
Lemma ring_last sd e : glast sd (ring_of e) = last_of sd (e_bk e).
Proof. by destruct sd. Qed.
Lemma ring_seen sd e : gseen sd (ring_of e) = seen_of sd (e_bk e).
Proof. by destruct sd. Qed.
Lemma rest_list sd g : q_rest (half_of sd g) = glist (side_kind sd) g.
Proof. by destruct sd. Qed.
Lemma stops_list sd g : q_stops (half_of sd g) = glist (stop_side sd) g.
Proof. by destruct sd. Qed.
Lemma trails_list sd g : q_trails (half_of sd g) = glist (trail_side sd) g.
Proof. by destruct sd. Qed.
Lemma prices_of sd b b' : bprices b' = bprices b -> now_of sd b' = now_of sd b /\ last_of sd b' = last_of sd b /\ seen_of sd b' = seen_of sd b.
Proof. unfold bprices. intros [=]. destruct sd; cbn; repeat split; congruence. Qed.
Lemma ring_same e e' : e_ords e' = e_ords e -> (forall k, get_side k (e_bk e') = get_side k (e_bk e)) -> bprices (e_bk e') = bprices (e_bk e) -> ring_of e' = ring_of e.
Proof.
  intros H1 H2 H3. apply ring_eq; intros; rewrite ?ring_list, ?ring_now, ?ring_last, ?ring_seen; [by apply orders_same|by apply prices_of..].
Qed.
(** Reading after a change. *)
Definition same_prices (g g' : ring) : Prop := forall sd, gnow sd g' = gnow sd g /\ glast sd g' = glast sd g /\ gseen sd g' = gseen sd g.
Lemma rest_glist k sd rs g : glist k (on_half sd (with_rest rs) g) = (if decide (k = side_kind sd) then rs else glist k g) /\ same_prices g (on_half sd (with_rest rs) g).
Proof. split; [by destruct k, sd|intros []; by destruct sd]. Qed.
Lemma all_glist k f g : glist k (on_all f g) = f (glist k g) /\ same_prices g (on_all f g).
Proof. split; [by destruct k|by intros []]. Qed.
Lemma settles_glist o k g : o_type o <> MARKET ->
  glist k (settles_in o g) = (if decide (k = okind o) then (if decide (o_type o = LIMIT) then place o (glist k g) else line_up o (glist k g)) else glist k g) /\ same_prices g (settles_in o g).
Proof.
  intros Hm. unfold settles_in, okind, kind_of. destruct (o_type o) eqn:E; try done; destruct (o_side o); (split; [by destruct k|by intros []]).
Qed.
Definition next_last (sd : oside) (p : Z) (z : order * Z * Z) : Z := if decide (o_side (fst (fst z)) = sd) then snd (fst z) else p.
Lemma note_glist xs : forall g, (forall k, glist k (note_last xs g) = glist k g) /\
  (forall sd, gnow sd (note_last xs g) = gnow sd g /\ gseen sd (note_last xs g) = gseen sd g /\ glast sd (note_last xs g) = fold_left (next_last sd) xs (glast sd g)).
Proof.
  induction xs as [|[[o p] q] xs IH]; intros g; [done|]. cbn [note_last fold_left fst snd]. fold (note_last xs (on_half (o_side o) (with_last p) g)).
  destruct (IH (on_half (o_side o) (with_last p) g)) as [H1 H2]. split.
  - intros k. rewrite H1. by destruct k, (o_side o).
  - intros sd. destruct (H2 sd) as (-> & -> & ->). unfold next_last at 3. cbn. by destruct sd, (o_side o).
Qed.
Lemma forget_glist g : (forall k, glist k (forget g) = glist k g) /\ (forall sd, gnow sd (forget g) = no_trade sd /\ gseen sd (forget g) = gseen sd g /\ glast sd (forget g) = glast sd g).
Proof. split; [by intros []|by intros []]. Qed.
Lemma now_glist s p g : (forall k, glist k (on_half s (with_now p) g) = glist k g) /\
  (forall sd, gnow sd (on_half s (with_now p) g) = (if decide (sd = s) then p else gnow sd g) /\ gseen sd (on_half s (with_now p) g) = gseen sd g /\ glast sd (on_half s (with_now p) g) = glast sd g).
Proof. split; [intros []; by destruct s|intros []; by destruct s]. Qed.
Lemma marked_glist s xs g : (forall k, glist k (marked s xs g) = glist k g) /\
  (forall sd, gnow sd (marked s xs g) = (match last xs with None => gnow sd g | Some (_, p, _) => if decide (sd = s) then p else no_trade sd end) /\
     gseen sd (marked s xs g) = gseen sd g /\ glast sd (marked s xs g) = fold_left (next_last sd) xs (glast sd g)).
Proof.
  unfold marked. destruct (last xs) as [[[o p] q]|] eqn:El; [|apply last_None in El as ->; done].
  destruct (note_glist xs (on_half s (with_now p) (forget g))) as [A1 A2]. destruct (now_glist s p (forget g)) as [B1 B2]. destruct (forget_glist g) as [C1 C2]. split.
  - intros k. by rewrite A1, B1, C1.
  - intros sd. destruct (A2 sd) as (-> & -> & ->). destruct (B2 sd) as (-> & -> & ->). destruct (C2 sd) as (-> & -> & ->). done.
Qed.

(** ** Books without All-Or-None orders *)
Record fine (sid : Z) (e : eng) : Prop := {
  f_ok : eng_ok sid e;
  f_aon : forall k r, r ∈ orders_of k e -> o_tif r <> AON }.
Record moves (sid : Z) (e : eng) (xs : list (order * Z * Z)) (e' : eng) : Prop := {
  m_fine : fine sid e';
  m_frame : frame sid (e_ords e) (e_ords e');
  m_log : exists evs, e_log e' = e_log e ++ evs /\ execs evs = xs }.
Lemma moves_trans sid a b c xs xs' : moves sid a xs b -> moves sid b xs' c -> moves sid a (xs ++ xs') c.
Proof.
  intros [A1 A2 (ev1 & A3 & A4)] [B1 B2 (ev2 & B3 & B4)]. constructor; [done|by eapply frame_trans|]. exists (ev1 ++ ev2).
  split; [by rewrite B3, A3, app_assoc|]. by rewrite execs_app, A4, B4.
Qed.
Lemma moves_refl sid e : fine sid e -> moves sid e [] e.
Proof. intros H. constructor; [done|apply frame_refl|]. exists []. by rewrite app_nil_r. Qed.
Lemma fine_same sid e e' : e_ords e' = e_ords e -> same_sides (e_bk e) (e_bk e') -> fine sid e -> fine sid e'.
Proof.
  intros Ho Hs [A D]. pose proof (orders_same e e' Ho (proj2 Hs)) as E. constructor.
  - split; rewrite Ho; [apply A|]. eapply same_sides_ok; [done|apply A].
  - intros k r. rewrite E. apply D.
Qed.
Lemma fine_emit sid ev e : fine sid e -> fine sid (emit ev e).
Proof. by apply fine_same. Qed.
Lemma moves_emit sid ev e xs e' : silent ev -> moves sid e xs e' -> moves sid e xs (emit ev e').
Proof.
  intros Hs [A B (evs & C & D)]. constructor; [by apply fine_emit|done|]. exists (evs ++ [ev]). split; [cbn; by rewrite C, app_assoc|].
  by rewrite execs_app, Hs, D, app_nil_r.
Qed.
Lemma emit_moves sid ev e xs e' : silent ev -> moves sid (emit ev e) xs e' -> moves sid e xs e'.
Proof. intros Hs [A B (evs & C & D)]. constructor; [done|done|]. exists (ev :: evs). split; [rewrite C; cbn; by rewrite <- app_assoc|]. change (ev :: evs) with ([ev] ++ evs). by rewrite execs_app, Hs, D. Qed.
Lemma moves_same sid e xs e1 e2 : moves sid e xs e1 -> e_ords e2 = e_ords e1 -> same_sides (e_bk e1) (e_bk e2) -> e_log e2 = e_log e1 -> moves sid e xs e2.
Proof. intros [A B (evs & C & D)] H1 H2 H3. constructor; [by eapply fine_same|by rewrite H1|]. exists evs. by rewrite H3. Qed.
Lemma ring_emit ev e : ring_of (emit ev e) = ring_of e.
Proof. done. Qed.

(** ** The last prices *)
Definition lkeep (e e' : eng) : Prop :=
  exists evs, e_log e' = e_log e ++ evs /\ forall sd, last_of sd (e_bk e') = fold_left (next_last sd) (execs evs) (last_of sd (e_bk e)).
Lemma lkeep_refl e : lkeep e e.
Proof. exists []. by rewrite app_nil_r. Qed.
Lemma lkeep_trans a b c : lkeep a b -> lkeep b c -> lkeep a c.
Proof.
  intros (ev1 & A1 & A2) (ev2 & B1 & B2). exists (ev1 ++ ev2). split; [by rewrite B1, A1, app_assoc|]. intros sd. by rewrite B2, A2, execs_app, fold_left_app.
Qed.
Lemma lkeep_same e e' : e_log e' = e_log e -> bprices (e_bk e') = bprices (e_bk e) -> lkeep e e'.
Proof. intros H1 H2. exists []. rewrite H1, app_nil_r. split; [done|]. intros sd. cbn. by apply last_prices. Qed.
Lemma lkeep_emit ev e : silent ev -> lkeep e (emit ev e).
Proof. intros H. exists [ev]. split; [done|]. intros sd. by rewrite H. Qed.
Lemma lkeep_lim o u e : lkeep e (emit_lim o u e).
Proof.
  unfold emit_lim, emit_lupd. destruct (is_limit o); [|apply lkeep_refl]. eapply lkeep_trans; apply lkeep_emit; [|done]. by destruct (u_type u).
Qed.
Lemma lkeep_side k s e : lkeep e (set_bk (set_side k s (e_bk e)) e).
Proof. apply lkeep_same; [done|apply set_side_prices]. Qed.
Lemma eng_sub_reduce_lkeep o q h v e e' : eng_sub_reduce o q h v e = Ok e' -> lkeep e e'.
Proof.
  unfold eng_sub_reduce, book_reduce. destruct (side_sub _ _ _ _ _ _) as [[s u]| |]; cbn [rbind]; intros [= <-].
  eapply lkeep_trans; [apply lkeep_side|apply lkeep_lim].
Qed.
Lemma eng_sub_delete_lkeep o e e' : eng_sub_delete o e = Ok e' -> lkeep e e'.
Proof.
  unfold eng_sub_delete, book_delete. destruct (side_sub _ _ _ _ _ _) as [[s u]| |]; cbn [rbind]; intros [= <-].
  eapply lkeep_trans; [apply lkeep_side|apply lkeep_lim].
Qed.
Lemma reset_lkeep e : lkeep e (reset_m e).
Proof. exists []. split; [by rewrite app_nil_r|]. by intros []. Qed.
Lemma note_lkeep o p q e : lkeep e (exec_note o p q e).
Proof. exists [EExecute o p q]. split; [done|]. intros sd. unfold next_last. cbn. by destruct sd, (o_side o). Qed.
Lemma put_lkeep o e : lkeep e (put o e).
Proof. by apply lkeep_same. Qed.
Lemma drop_lkeep i e : lkeep e (drop_id i e).
Proof. by apply lkeep_same. Qed.
Lemma reduce_order_lkeep o q e e' : reduce_order o q e = Ok e' -> lkeep e e'.
Proof.
  unfold reduce_order. set (o' := set_leaves _ o). destruct (0 <? o_leaves o').
  - intros H%eng_sub_reduce_lkeep. eapply lkeep_trans; [|exact H]. eapply lkeep_trans; [apply (put_lkeep o')|by apply lkeep_emit].
  - destruct (eng_sub_reduce _ _ _ _ _) as [e1| |] eqn:E; cbn [rbind]; intros [= <-]. apply eng_sub_reduce_lkeep in E.
    eapply lkeep_trans; [|apply drop_lkeep]. eapply lkeep_trans; [|exact E]. eapply lkeep_trans; [apply (put_lkeep o')|by apply lkeep_emit].
Qed.
Lemma delete_order_lkeep o e e' : delete_order o e = Ok e' -> lkeep e e'.
Proof.
  unfold delete_order. destruct (eng_sub_delete o e) as [e1| |] eqn:E; cbn [rbind]; intros [= <-]. apply eng_sub_delete_lkeep in E.
  eapply lkeep_trans; [exact E|]. eapply lkeep_trans; [|apply drop_lkeep]. by apply lkeep_emit.
Qed.
Lemma exec_reduce_lkeep r p q e e' : exec_reduce r p q e = Ok e' -> lkeep e e'.
Proof.
  unfold exec_reduce, reduce_core. assert (Hk : lkeep e (put (exec_incr q r) (exec_note r p q e))) by (eapply lkeep_trans; [apply note_lkeep|apply put_lkeep]).
  set (e1 := put _ _) in *. destruct (_ || _); [by intros [= <-]|].
  destruct (e_ords e1 !! o_id r) as [x|] eqn:Ex; [|by intros [= <-]]. destruct (negb _); [done|].
  destruct (reduce_order x q e1) as [e2| |] eqn:E; cbn [rbind]; intros [= <-]. apply reduce_order_lkeep in E.
  eapply lkeep_trans; [exact Hk|]. eapply lkeep_trans; [exact E|apply reset_lkeep].
Qed.
Lemma exec_delete_lkeep r p q e e' : exec_delete r p q e = Ok e' -> lkeep e e'.
Proof.
  unfold exec_delete, delete_core. assert (Hk : lkeep e (put (exec_incr q r) (exec_note r p q e))) by (eapply lkeep_trans; [apply note_lkeep|apply put_lkeep]).
  set (e1 := put _ _) in *. destruct (_ =? 0); [by intros [= <-]|].
  destruct (e_ords e1 !! o_id r) as [x|] eqn:Ex; [|by intros [= <-]]. destruct (negb _); [done|].
  destruct (delete_order x e1) as [e2| |] eqn:E; cbn [rbind]; intros [= <-]. apply delete_order_lkeep in E.
  eapply lkeep_trans; [exact Hk|]. eapply lkeep_trans; [exact E|apply reset_lkeep].
Qed.
Lemma exec_chain_ids_lkeep ids price : forall v e v' e', exec_chain_ids ids price v e = Ok (v', e') -> lkeep e e'.
Proof.
  induction ids as [|i ids IH]; intros v e v' e'; cbn [exec_chain_ids]; [intros [= <- <-]; apply lkeep_refl|].
  destruct (v =? 0); [intros [= <- <-]; apply lkeep_refl|].
  destruct (e_ords e !! i) as [r|] eqn:Hr; cbn [of_opt rbind]; [|done]. destruct (is_aon r).
  - destruct (exec_delete _ _ _ _) as [e1| |] eqn:E; cbn [rbind]; [|done..]. intros H%IH. eapply lkeep_trans; [|exact H]. by eapply exec_delete_lkeep.
  - destruct (exec_reduce _ _ _ _) as [e1| |] eqn:E; cbn [rbind]; [|done..]. intros H%IH. eapply lkeep_trans; [|exact H]. by eapply exec_reduce_lkeep.
Qed.
Lemma exec_chain_lvls_lkeep k ps price : forall v e e', exec_chain_lvls k ps price v e = Ok e' -> lkeep e e'.
Proof.
  induction ps as [|p ps IH]; intros v e e'; cbn [exec_chain_lvls]; [intros [= <-]; apply lkeep_refl|].
  destruct (v =? 0); [intros [= <-]; apply lkeep_refl|].
  destruct (find_level p (lvls k e)) as [l|]; cbn [of_opt rbind]; [|done].
  destruct (exec_chain_ids _ _ _ _) as [[v1 e1]| |] eqn:E; cbn [rbind]; [|done..]. intros H%IH.
  eapply lkeep_trans; [by eapply exec_chain_ids_lkeep|done].
Qed.
Lemma match_ids_lkeep ids : forall o e s o' e', match_ids ids o e = Ok (s, o', e') -> lkeep e e'.
Proof.
  induction ids as [|i ids IH]; intros o e s o' e'; cbn [match_ids]; [intros [= <- <- <-]; apply lkeep_refl|].
  destruct (e_ords e !! i) as [r|] eqn:Hr; cbn [of_opt rbind]; [|done]. destruct (is_aon r && _); [intros [= <- <- <-]; apply lkeep_refl|].
  destruct (exec_reduce _ _ _ _) as [e1| |] eqn:E; cbn [rbind]; [|done..]. apply exec_reduce_lkeep in E.
  set (e2 := exec_note _ _ _ e1). set (o2 := set_leaves _ _).
  assert (Hk : lkeep e e2) by (eapply lkeep_trans; [exact E|apply note_lkeep]).
  destruct (_ =? 0); [by intros [= <- <- <-]|]. intros H%IH. by eapply lkeep_trans.
Qed.
Lemma match_order_lkeep o e o' e' : match_order o e = Ok (o', e') -> lkeep e e'.
Proof.
  unfold match_order. generalize (S (length (lvls (opp (o_side o)) e))) as f. intros f. revert o e o' e'.
  induction f as [|f IH]; intros o e o' e'; cbn [match_order_loop]; [done|].
  destruct (best _ e) as [p|]; [|intros [= <- <-]; apply lkeep_refl].
  destruct (find_level p _) as [l|]; cbn [of_opt rbind]; [|done].
  destruct (negb _); [intros [= <- <-]; apply lkeep_refl|].
  destruct (is_fok o || is_aon o).
  - destruct (chain_levels _ p e) as [ls| |]; cbn [rbind]; [|done..].
    destruct (chain1 _ _ _ _ _ =? 0); [intros [= <- <-]; apply lkeep_refl|]. unfold exec_chain. destruct (from_level _ _); [done|].
    destruct (exec_chain_lvls _ _ _ _ _) as [e1| |] eqn:E; cbn [rbind]; [|done..]. apply exec_chain_lvls_lkeep in E. intros [= <- <-].
    eapply lkeep_trans; [exact E|apply note_lkeep].
  - destruct (match_ids _ _ _) as [[[s o1] e1]| |] eqn:E; cbn [rbind]; [|done..]. apply match_ids_lkeep in E.
    destruct s; [by intros [= <- <-]|]. intros H%IH. by eapply lkeep_trans.
Qed.
Lemma meet_lkeep o e o' e' : meet o e = Ok (o', e') -> lkeep e e' /\ tprices (e_bk e') = tprices (e_bk e).
Proof.
  unfold meet. destruct (o_type o); try (intros H; split; [by eapply match_order_lkeep|by apply match_order_tkeep in H as [[? _] _]]).
  unfold match_market. destruct (best _ e); [|intros [= <- <-]; split; [apply lkeep_refl|done]].
  intros H; split; [by eapply match_order_lkeep|by apply match_order_tkeep in H as [[? _] _]].
Qed.

(** ** Trading *)
Lemma strike_kind o g xs g' z : strike o g = (xs, g', z) -> o_type z = o_type o /\ o_tif z = o_tif o /\ o_id z = o_id o /\ o_sym z = o_sym o /\ o_side z = o_side o.
Proof. unfold strike. destruct (dealt o _) as [[xs0 rs0] z0] eqn:E. intros [= _ _ <-]. by eapply dealt_kind. Qed.
Lemma strike_glist o g xs g' z k : strike o g = (xs, g', z) -> k <> side_kind (opposite (o_side o)) -> glist k g' = glist k g.
Proof.
  unfold strike. destruct (dealt o _) as [[xs0 rs0] z0] eqn:E. intros [= _ <- _] Hk. by rewrite (proj1 (marked_glist _ _ _)), (proj1 (rest_glist _ _ _ _)), decide_False.
Qed.
Lemma strike_ok sid e o xs g z : fine sid e -> fly_ok sid (e_ords e) o -> 0 < o_leaves o -> o_tif o <> AON -> strike o (ring_of e) = (xs, g, z) ->
  exists e1, meet o e = Ok (z, e1) /\ moves sid e xs e1 /\ ring_of e1 = g /\ fly_ok sid (e_ords e1) z /\ (forall j, e_ords e !! j = None -> e_ords e1 !! j = None).
Proof.
  intros Hg Hfl Hlv Hna Htr. pose proof (f_ok _ _ Hg) as He.
  destruct (view_of sid e (opp (o_side o)) He) as (L & Hv & HL).
  assert (Hpl : plain_lists L). { intros p os r Hin Hr. unfold is_aon. apply bool_decide_eq_false. apply (f_aon _ _ Hg (opp (o_side o))). rewrite <- HL. apply elem_flat. eauto. }
  pose proof (meet_ref sid e o L He Hfl Hlv Hna Hv Hpl) as H. cbv zeta in H. rewrite dealt_ref in H.
  unfold strike in Htr. rewrite rest_list, ring_list, <- opp_side, <- HL in Htr. destruct (dealt o (flat L)) as [[xs0 rs0] z0] eqn:Ed. cbn [fst snd] in H. injection Htr as <- <- <-.
  destruct H as (o' & e1 & evs & L' & Heq & Hk & Hlog & Hxs & Hfr & He1 & Hon & Hv1 & Hf1 & Hnf & Hfl1 & Hq & Hfok).
  set (x := arriving o (flat L)) in *. 
  assert (Hz : o' = z0 /\ (rs0 = remaining x (flat L) \/ rs0 = flat L)).
  { unfold dealt in Ed. fold x in Ed. destruct (decide (o_tif o = FOK)) as [Hf|Hf].
    - rewrite (Hfok Hf). destruct (decide _); injection Ed as _ <- <-; auto.
    - destruct (Hnf Hf) as [-> _]. injection Ed as _ <- <-. auto. }
  destruct Hz as [-> Hrs].
  assert (Ho1 : forall k, k <> opp (o_side o) -> orders_of k e1 = orders_of k e).
  { intros k Hk'. destruct (view_of sid e k He) as (M & HM & <-). apply (orders_view sid); [done|]. by apply (cview_other sid (opp (o_side o)) k e e1). }
  assert (Ho2 : orders_of (opp (o_side o)) e1 = rs0) by (rewrite <- Hf1; by apply (orders_view sid)).
  assert (Hgood : fine sid e1).
  { constructor; [done|]. intros k r Hr. destruct (decide (k = opp (o_side o))) as [->|Hk']; [|rewrite Ho1 in Hr by done; by eapply f_aon].
    rewrite Ho2 in Hr. destruct Hrs as [-> | ->].
    - destruct (remaining_tif _ _ _ Hr) as (r0 & Hr0 & _ & <-). rewrite HL in Hr0. by eapply f_aon.
    - rewrite HL in Hr. by eapply f_aon. }
  destruct (meet_lkeep _ _ _ _ Heq) as [(evs' & Hl1 & Hl2) Htp]. rewrite Hlog in Hl1. apply app_inv_head in Hl1. subst evs'. rewrite Hxs in Hl2.
  exists e1. split; [done|]. split; [constructor; [done|done|by exists evs]|]. split; [|split; [done|intros j; eapply os_none, Hon]].
  destruct (marked_glist (o_side o) xs0 (on_half (opposite (o_side o)) (with_rest rs0) (ring_of e))) as [M1 M2].
  apply ring_eq.
  - intros k. rewrite M1, (proj1 (rest_glist _ _ _ _)), !ring_list, <- opp_side. destruct (decide (k = opp (o_side o))) as [->|Hne]; [done|by apply Ho1].
  - intros sd. destruct (M2 sd) as (-> & _ & _). rewrite ring_now. destruct (proj2 (rest_glist KBid (opposite (o_side o)) rs0 (ring_of e)) sd) as (-> & _). rewrite ring_now.
    rewrite Hxs in Hq. unfold noted, quotes in Hq. destruct (last xs0) as [[[? p] ?]|]; destruct sd, (o_side o); by injection Hq.
  - intros sd. destruct (M2 sd) as (_ & _ & ->). rewrite ring_last. destruct (proj2 (rest_glist KBid (opposite (o_side o)) rs0 (ring_of e)) sd) as (_ & -> & _). rewrite ring_last. apply Hl2.
  - intros sd. destruct (M2 sd) as (_ & -> & _). rewrite ring_seen. destruct (proj2 (rest_glist KBid (opposite (o_side o)) rs0 (ring_of e)) sd) as (_ & _ & ->). rewrite ring_seen.
    unfold tprices in Htp. injection Htp as T1 T2. by destruct sd.
Qed.

(** ** Joining, leaving, changing *)
Lemma wait_kind o : o_type o <> MARKET -> o_type o <> LIMIT -> (okind o = stop_side (o_side o) \/ okind o = trail_side (o_side o)) /\ okey o = o_stop o.
Proof. unfold okind, okey, kind_of, stop_side, trail_side. destruct (o_type o); try done; destruct (o_side o); auto. Qed.
Lemma wait_type r sd : okind r = stop_side sd \/ okind r = trail_side sd -> o_side r = sd /\ okey r = o_stop r /\ o_type r <> MARKET /\ o_type r <> LIMIT.
Proof. unfold okind, okey, kind_of, stop_side, trail_side. destruct (o_type r), (o_side r), sd; cbn; intros [|]; done. Qed.
Lemma wait_better o r k : k = stop_side (o_side o) \/ k = trail_side (o_side o) -> triggers_before o r <-> better k (o_stop o) (o_stop r) = true.
Proof. unfold triggers_before, better, stop_side, trail_side. intros [-> | ->]; destruct (o_side o); cbn; lia. Qed.
Lemma flat_insl_wait o k : k = stop_side (o_side o) \/ k = trail_side (o_side o) -> forall M, (forall p os r, (p, os) ∈ M -> r ∈ os -> o_stop r = p) ->
  StronglySorted (fun a b : Z * list order => better k (fst a) (fst b) = true) M ->
  flat (insl k (o_stop o) o M) = line_up o (flat M).
Proof.
  intros Hk. induction M as [|[p os] M IH]; intros Hp Hs; [done|]. cbn [insl]. apply StronglySorted_inv in Hs as [Hs Hb]. rewrite Forall_forall in Hb.
  change (flat ((p, os) :: M)) with (os ++ flat M).
  destruct (decide (p = o_stop o)) as [->|Hn].
  - change (flat ((o_stop o, os ++ [o]) :: M)) with ((os ++ [o]) ++ flat M). rewrite line_app.
    + rewrite line_front; [by rewrite <- app_assoc|]. intros r Hr. apply (wait_better o r k Hk). apply elem_flat in Hr as (p' & os' & Hin & Hr).
      rewrite (Hp p' os' r); [|by right|done]. by apply (Hb _ Hin).
    + intros r Hr Hg. apply (wait_better o r k Hk) in Hg. rewrite (Hp (o_stop o) os r), better_irrefl in Hg; [done|left|done].
  - destruct (better _ (o_stop o) p) eqn:Eb.
    + rewrite line_front; [done|]. intros r Hr. apply (wait_better o r k Hk). change (os ++ flat M) with (flat ((p, os) :: M)) in Hr. apply elem_flat in Hr as (p' & os' & Hin & Hr).
      rewrite (Hp p' os' r Hin Hr). apply elem_of_cons in Hin as [[= -> ->]|Hin]; [done|]. eapply better_trans; [done|]. by apply (Hb _ Hin).
    + change (flat ((p, os) :: insl k (o_stop o) o M)) with (os ++ flat (insl k (o_stop o) o M)).
      rewrite IH; [|intros p' os' r Hin; eapply Hp; by right|done].
      rewrite line_app; [done|]. intros r Hr Hg. apply (wait_better o r k Hk) in Hg. rewrite (Hp p os r) in Hg; [congruence|left|done].
Qed.
Lemma settle_ok sid e o : fine sid e -> e_ords e !! o_id o = None -> live_ok (o_id o) o -> total (e_ords e) + o_leaves o < TWO64 -> o_sym o = sid -> o_tif o <> AON ->
  let e' := eng_add o (put o e) in moves sid e [] e' /\ ring_of e' = settles_in o (ring_of e).
Proof.
  intros Hg Hn Hlive Hto Hsy Hna e'. pose proof (f_ok _ _ Hg) as He. pose proof (lo_type _ _ Hlive) as Hmk.
  destruct (view_of sid e (okind o) He) as (M & HvM & HM).
  destruct (add_view sid e o M He Hn Hlive Hto Hsy HvM) as (e2 & evs & E & He2 & Hlog & Hxs & _ & _ & Hords & Hbp & Hv2 & Hoth).
  fold e' in E. subst e2.
  assert (Ho1 : forall k, k <> okind o -> orders_of k e' = orders_of k e).
  { intros k Hk. destruct (view_of sid e k He) as (A & HA & <-). apply (orders_view sid); [done|]. by apply Hoth. }
  assert (Ho2 : orders_of (okind o) e' = flat (insl (okind o) (okey o) o M)) by by apply (orders_view sid).
  assert (Hkey : forall p os r, (p, os) ∈ M -> r ∈ os -> okey r = p /\ okind r = okind o /\ o_type r <> MARKET).
  { intros p os r Hin Hr. destruct (cview_order sid e _ M p os r He HvM Hin Hr) as (_ & _ & A & B & C). split; [done|]. split; [done|]. apply C. }
  assert (Hcase : orders_of (okind o) e' = if decide (o_type o = LIMIT) then place o (orders_of (okind o) e) else line_up o (orders_of (okind o) e)).
  { rewrite Ho2, <- HM. destruct (decide (o_type o = LIMIT)) as [Ht|Ht].
    - destruct (limit_kind o Ht) as [Hk Hp]. rewrite Hp, Hk.
      apply flat_insl; [|intros p os Hin; by apply (cv_q _ _ _ HvM p os Hin)|rewrite <- Hk; by eapply cv_sorted].
      intros p os r Hin Hr. destruct (Hkey p os r Hin Hr) as (A & B & C). rewrite Hk in B. destruct (side_kind_type r _ C B). congruence.
    - destruct (wait_kind o Hmk Ht) as [Hk Hp]. rewrite Hp.
      apply flat_insl_wait; [done| |by eapply cv_sorted].
      intros p os r Hin Hr. destruct (Hkey p os r Hin Hr) as (A & B & C). destruct (wait_type r (o_side o)) as (_ & D & _); [rewrite B; done|]. congruence. }
  split.
  - constructor.
    + constructor; [done|]. intros k r Hr. destruct (decide (k = okind o)) as [->|Hk]; [|rewrite Ho1 in Hr by done; by eapply f_aon].
      rewrite Hcase in Hr. destruct (decide (o_type o = LIMIT)); [apply elem_place in Hr|apply elem_line in Hr]; (destruct Hr as [->|Hr]; [done|by eapply f_aon]).
    + rewrite Hords. by apply frame_insert.
    + by exists evs.
  - apply ring_eq.
    + intros k. rewrite (proj1 (settles_glist _ _ _ Hmk)), !ring_list. destruct (decide (k = okind o)) as [->|Hk]; [done|]. by apply Ho1.
    + intros sd. destruct (proj2 (settles_glist o KBid (ring_of e) Hmk) sd) as (-> & _). rewrite !ring_now. by apply prices_of.
    + intros sd. destruct (proj2 (settles_glist o KBid (ring_of e) Hmk) sd) as (_ & -> & _). rewrite !ring_last. by apply prices_of.
    + intros sd. destruct (proj2 (settles_glist o KBid (ring_of e) Hmk) sd) as (_ & _ & ->). rewrite !ring_seen. by apply prices_of.
Qed.
Lemma every_ring f e e' : (forall k, orders_of k e' = f (orders_of k e)) -> bprices (e_bk e') = bprices (e_bk e) -> ring_of e' = on_all f (ring_of e).
Proof.
  intros H Hb. apply ring_eq; intros.
  - by rewrite (proj1 (all_glist _ _ _)), !ring_list.
  - destruct (proj2 (all_glist KBid f (ring_of e)) sd) as (-> & _). rewrite !ring_now. by apply prices_of.
  - destruct (proj2 (all_glist KBid f (ring_of e)) sd) as (_ & -> & _). rewrite !ring_last. by apply prices_of.
  - destruct (proj2 (all_glist KBid f (ring_of e)) sd) as (_ & _ & ->). rewrite !ring_seen. by apply prices_of.
Qed.
Lemma leaves_ok sid e e' o u m' evs : fine sid e -> e_ords e !! o_id o = Some o -> o_sym o = sid -> eng_ok sid e' -> e_ords e' = delete (o_id o) (e_ords e) ->
  prim m' (okind o) (okey o) (filter (fun j => j <> o_id o) (queue (e_bk e) (okind o) (okey o))) (e_bk e) (e_bk e') u ->
  e_log e' = e_log e ++ evs -> moves sid e (execs evs) e' /\ forall k, orders_of k e' = without (o_id o) (orders_of k e).
Proof.
  intros Hg Ho Hs He' Hords Hpr Hlog. pose proof (f_ok _ _ Hg) as He.
  pose proof (drop_queues sid e (e_bk e') m' u o He Ho Hs Hpr) as Hq.
  assert (Hj : forall j, j <> o_id o -> e_ords e' !! j = e_ords e !! j) by (intros j Hj; by rewrite Hords, lookup_delete_ne).
  assert (Hk : forall k, orders_of k e' = without (o_id o) (orders_of k e)).
  { intros k. destruct (view_of sid e k He) as (L & HL & <-). rewrite <- flat_drop. apply (orders_view sid); [done|]. by apply (cview_drop e). }
  split; [|done]. constructor; [constructor; [done|]|rewrite Hords; by eapply frame_delete|by exists evs].
  intros k r. rewrite Hk, elem_without. intros [_ Hr]. by eapply f_aon.
Qed.
Lemma alters_ok sid e e' o o' u m' evs : fine sid e -> e_ords e !! o_id o = Some o -> o_sym o = sid -> eng_ok sid e' -> e_ords e' = <[o_id o := o']> (e_ords e) ->
  o_id o' = o_id o -> o_sym o' = o_sym o -> o_tif o' = o_tif o ->
  prim m' (okind o) (okey o) (queue (e_bk e) (okind o) (okey o)) (e_bk e) (e_bk e') u ->
  e_log e' = e_log e ++ evs -> moves sid e (execs evs) e' /\ forall k, orders_of k e' = changed o' (orders_of k e).
Proof.
  intros Hg Ho Hs He' Hords Eid Esym Etif Hpr Hlog. pose proof (f_ok _ _ Hg) as He.
  assert (Hq : forall k p, queue (e_bk e') k p = queue (e_bk e) k p). { intros k p. rewrite (prim_queue _ _ _ _ _ _ _ Hpr). by destruct (decide _) as [[-> ->]|]. }
  assert (Hj : forall j, j <> o_id o' -> e_ords e' !! j = e_ords e !! j) by (intros j Hj; rewrite Hords, lookup_insert_ne; congruence).
  assert (Ho' : e_ords e' !! o_id o' = Some o') by (rewrite Hords, Eid; apply lookup_insert).
  assert (Hk : forall k, orders_of k e' = changed o' (orders_of k e)).
  { intros k. destruct (view_of sid e k He) as (L & HL & <-). rewrite <- flat_change. apply (orders_view sid); [done|]. by apply (cview_change e). }
  split; [|done]. constructor; [constructor; [done|]|rewrite Hords; eapply frame_update; [done|done|congruence]|by exists evs].
  intros k r. rewrite Hk. intros H. apply elem_of_list_fmap in H as (r0 & -> & H). destruct (decide (o_id r0 = o_id o')) as [E|]; [|by eapply f_aon].
  rewrite Etif. eapply (f_aon _ _ Hg). by eapply (elem_orders sid).
Qed.
Lemma drop_ok sid e o : fine sid e -> e_ords e !! o_id o = Some o -> o_sym o = sid ->
  exists e1, eng_sub_delete o e = Ok e1 /\ moves sid e [] (drop_id (o_id o) e1) /\ ring_of (drop_id (o_id o) e1) = gone o (ring_of e) /\
    e_ords (drop_id (o_id o) e1) = delete (o_id o) (e_ords e) /\ e_ords e1 = e_ords e.
Proof.
  intros Hg Ho Hs. pose proof (f_ok _ _ Hg) as He. destruct (eng_del_ok sid e o He Ho Hs) as (u & e1 & Heq & Hords & Hok & Hlog & Hbp & Hpr).
  exists e1. split; [done|]. assert (Hd : e_ords (drop_id (o_id o) e1) = delete (o_id o) (e_ords e)) by (cbn; by rewrite Hords).
  assert (He2 : eng_ok sid (drop_id (o_id o) e1)). { split; rewrite Hd; [apply map_ok_delete, He|done]. }
  destruct (leaves_ok sid e (drop_id (o_id o) e1) o u _ _ Hg Ho Hs He2 Hd Hpr Hlog) as [A B]. rewrite lim_execs in A. split; [done|]. split; [|done].
  by apply every_ring.
Qed.
Lemma out_ok sid e o m : fine sid e -> e_ords e !! o_id o = Some o -> o_sym o = sid -> m = delete (o_id o) (e_ords e) -> fly_ok sid m o /\ 0 < o_leaves o /\ o_tif o <> AON.
Proof.
  intros Hg Ho Hs ->. pose proof (f_ok _ _ Hg) as He. pose proof (mo_live _ (proj1 He) _ _ Ho) as Hl. split; [|split; [apply Hl|]].
  - apply live_fly; [done|done|]. pose proof (mo_total _ (proj1 He)) as Hto. rewrite (total_delete _ _ _ Ho) in Hto. lia.
  - eapply f_aon; [done|]. by eapply (elem_orders sid).
Qed.
