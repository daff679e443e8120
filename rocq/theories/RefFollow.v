(** * RefFollow.v -- trailing stop orders follow the market as in the reference exchange of Spec14.v. *)
From Coq Require Import ZifyBool.
From stdpp Require Import fin_maps gmap relations sorting.
From Verif Require Import Types Book Engine Manager Factory Validate LevelFacts BookInv EngInv EngPrim Steps StepsOk Refine1 Refine2 Refine3 Refine4 Trail Trail2 Api StateInv Trades PropsTrades PropsOrders PropsFill PropsTrail RefMatch PropsRef RefExchange RefStops RefHall RefRing Spec Spec2 Spec3 Spec5 Spec6 Spec7 Spec8 Spec13 Spec14.

(** ** The price that is followed, and where it takes an order *)
Lemma top_best sid e sd : eng_ok sid e -> top sd (ring_of e) = match best (side_kind sd) e with Some p => p | None => no_trade sd end.
Proof. intros He. unfold top. rewrite rest_list, ring_list. apply (best_first sid); [done|]. destruct sd; auto. Qed.
Lemma followed_ok sid e sd : eng_ok sid e -> followed sd (ring_of e) = tmarket sd (e_bk e).
Proof.
  intros He. unfold followed, tmarket, trailing_market_ask, trailing_market_bid, best_ask_price, best_bid_price.
  destruct sd; rewrite (top_best sid) by done; done.
Qed.
Lemma market_ok sid e sd : eng_ok sid e -> market sd (ring_of e) = market_of sd e.
Proof.
  intros He. unfold market, market_of, market_ask, market_bid, best_ask_price, best_bid_price.
  destruct sd; rewrite (top_best sid) by done; done.
Qed.
Lemma drawn_at m o : is_trailing o = true -> trailing_ok o -> u64_range (o_stop o) -> rec_ok (o_side o) m -> calc_at o m = drawn m o.
Proof.
  intros Ht Hok Hst Hm.
  assert (Hty : o_type o = TRAILING_STOP \/ o_type o = TRAILING_STOP_LIMIT).
  { unfold is_trailing, is_trailing_stop, is_trailing_stop_limit in Ht. destruct (o_type o); cbn in Ht; try done; auto. }
  specialize (Hok Hty). unfold calc_at, drawn.
  assert (Hu : forall d, in_units true d m = trailing_abs d m) by done.
  set (neg := bool_decide (o_tdist o < 0)).
  assert (Hn : (o_tdist o <? 0) = neg). { unfold neg. destruct (bool_decide_reflect (o_tdist o < 0)); lia. }
  rewrite Hn. set (d := in_units neg (o_tdist o) m). set (st := in_units neg (o_tstep o) m).
  assert (E : (if neg then (trailing_abs (o_tdist o) m, trailing_abs (o_tstep o) m) else (o_tdist o, o_tstep o)) = (d, st)) by (unfold d, st; by destruct neg).
  rewrite E. clear E.
  assert (HM : MAX64 = 18446744073709551615) by reflexivity. assert (HT : TWO63 = 9223372036854775808) by reflexivity.
  assert (Hab : forall x, 0 <= trailing_abs x m <= 1844674407370956).
  { intros x. unfold trailing_abs, u64, TWO64. pose proof (Z.mod_pos_bound (- x * m) 18446744073709551616 ltac:(lia)) as Hb. split; [apply Z.div_pos; lia|]. apply Z.div_le_upper_bound; lia. }
  assert (Hd : 0 <= d <= MAX64 /\ 0 <= st <= MAX64).
  { unfold d, st. destruct neg eqn:En; [rewrite !Hu; split; (split; [apply Hab|]); (eapply Z.le_trans; [apply Hab|rewrite HM; lia])|].
    unfold neg in En. apply bool_decide_eq_false in En. cbn. lia. }
  clearbody d st. destruct Hd as [Hd Hs]. unfold rec_ok, u64_range in *. rewrite (u64_small st) by lia. destruct (o_side o).
  - rewrite (u64_small (MAX64 - d)) by lia.
    assert (E : (if m <? MAX64 - d then u64 (m + d) else MAX64) = Z.min MAX64 (m + d)).
    { destruct (Z.ltb_spec m (MAX64 - d)); [rewrite u64_small by lia|]; lia. }
    rewrite E. destruct (decide _); destruct (_ && _) eqn:Ec; lia.
  - rewrite (u64_small d) by lia.
    assert (E : (if d <? m then u64 (m - d) else 0) = Z.max 0 (m - d)).
    { destruct (Z.ltb_spec d m); [rewrite u64_small by lia|]; lia. }
    rewrite E. destruct (decide _); destruct (_ && _) eqn:Ec; lia.
Qed.
Lemma drawn_calc sid e o : eng_ok sid e -> is_trailing o = true -> trailing_ok o -> u64_range (o_stop o) -> calc_trailing o (e_bk e) = drawn (followed (o_side o) (ring_of e)) o.
Proof. intros He Ht Hok Hst. rewrite calc_at_eq, (followed_ok sid) by done. apply drawn_at; try done. by apply (tmarket_ok sid). Qed.
Lemma drawn_retrail p o : retrail p o = drawn_to p o.
Proof. unfold retrail, drawn_to. by destruct (o_type o). Qed.

(** ** The list of trailing orders *)
Definition off (m : Z) (o : order) : Prop := drawn m o <> o_stop o.
Global Instance off_dec m o : Decision (off m o).
Proof. unfold off. apply _. Defined.
Definition shift (m : Z) (q : list order) (o : order) : list order := line_up (drawn_to (drawn m o) o) (without (o_id o) q).
Lemma redraw_eq m rs : redraw m rs = fold_left (shift m) (filter (off m) rs) rs.
Proof. done. Qed.
Lemma filter_line (P : order -> Prop) `{forall x, Decision (P x)} o q : ~ P o -> filter P (line_up o q) = filter P q.
Proof.
  intros Hn. induction q as [|r q IH]; cbn [line_up]; [by rewrite filter_cons, decide_False|]. destruct (decide (triggers_before o r)); rewrite filter_cons; [by rewrite decide_False|].
  rewrite filter_cons. by rewrite IH.
Qed.
Lemma filter_without (P : order -> Prop) `{forall x, Decision (P x)} i q : filter P (without i q) = without i (filter P q).
Proof. unfold without. rewrite !list_filter_filter. apply list_filter_iff. tauto. Qed.
Lemma drawn_again m o : is_trailing o = true -> ~ off m (drawn_to (drawn m o) o).
Proof.
  intros Ht H. apply H. assert (E : o_side (drawn_to (drawn m o) o) = o_side o /\ o_tdist (drawn_to (drawn m o) o) = o_tdist o /\ o_tstep (drawn_to (drawn m o) o) = o_tstep o /\ o_stop (drawn_to (drawn m o) o) = drawn m o).
  { unfold drawn_to, is_trailing, is_trailing_stop, is_trailing_stop_limit in *. by destruct (o_type o). }
  destruct E as (E1 & E2 & E3 & E4). rewrite E4. unfold drawn at 1. rewrite E1, E2, E3, E4. clear. unfold drawn. destruct (o_side o); repeat destruct (decide _); lia.
Qed.
Lemma off_shift m q o : is_trailing o = true -> filter (off m) (shift m q o) = without (o_id o) (filter (off m) q).
Proof. intros Ht. unfold shift. rewrite filter_line by by apply drawn_again. apply filter_without. Qed.
Lemma off_shifts m : forall os q, Forall (fun o => is_trailing o = true) os -> filter (off m) (fold_left (shift m) os q) = filter (fun x => o_id x ∉ map o_id os) (filter (off m) q).
Proof.
  induction os as [|o os IH]; intros q Hf; cbn [fold_left].
  - symmetry. apply filter_whole. intros x _. apply not_elem_of_nil.
  - apply Forall_cons in Hf as [Ho Hf]. rewrite IH by done. rewrite off_shift by done. unfold without. rewrite !list_filter_filter. apply list_filter_iff. intros x. cbn. rewrite not_elem_of_cons. tauto.
Qed.

(** ** One order moves *)
Definition trail_ring (sd : oside) (f : list order -> list order) (g : ring) : ring := on_half sd (fun h => with_trails (f (q_trails h)) h) g.
Lemma trails_glist k sd f g : glist k (trail_ring sd f g) = (if decide (k = trail_side sd) then f (glist k g) else glist k g) /\ same_prices g (trail_ring sd f g).
Proof. split; [by destruct k, sd|intros []; by destruct sd]. Qed.
Lemma followed_trails sd s f g : followed s (trail_ring sd f g) = followed s g.
Proof. by destruct sd, s. Qed.
Lemma trail_elem sid e sd o : fine sid e -> o ∈ orders_of (trail_side sd) e -> e_ords e !! o_id o = Some o /\ o_sym o = sid /\ is_trailing o = true /\ o_side o = sd /\ okind o = trail_side sd /\ live_ok (o_id o) o.
Proof.
  intros Hg Ho. destruct (orders_elem sid e _ o (f_ok _ _ Hg) Ho) as (A & B & C & D).
  assert (trail_kind (trail_side sd) = Some sd) as Hk by by destruct sd. destruct (okind_trail o _ sd Hk C) as (E & F & _). done.
Qed.
Lemma shift_ok sid e sd o : fine sid e -> o ∈ orders_of (trail_side sd) e -> off (followed sd (ring_of e)) o ->
  exists e1, eng_sub_delete o e = Ok e1 /\
    let o' := retrail (calc_trailing o (e_bk e)) o in let e' := eng_add o' (put o' (emit (EUpdateOrder o') e1)) in
    moves sid e [] e' /\ ring_of e' = trail_ring sd (fun q => shift (followed sd (ring_of e)) q o) (ring_of e).
Proof.
  intros Hg Ho Hof. destruct (trail_elem sid e sd o Hg Ho) as (Hm & Hs & Ht & Hsd & Hk & Hl). pose proof (f_ok _ _ Hg) as He.
  destruct (drop_ok sid e o Hg Hm Hs) as (e1 & Hdel & Hmv & Hring & Hd & Hd0). exists e1. split; [done|]. intros o' e'.
  assert (Eo : o' = drawn_to (drawn (followed sd (ring_of e)) o) o).
  { unfold o'. rewrite drawn_retrail, (drawn_calc sid); try done; [by rewrite Hsd|apply Hl|apply Hl]. }
  destruct (retrail_place (calc_trailing o (e_bk e)) o Ht) as (Ei & Es & Et & Esd & Est & El). fold o' in Ei, Es, Et, Esd, Est, El.
  set (e2 := emit (EUpdateOrder o') (drop_id (o_id o) e1)).
  assert (Hput : put o' (emit (EUpdateOrder o') e1) = put o' e2).
  { unfold e2, put, drop_id, set_ords, emit; cbn. f_equal. rewrite Ei. by rewrite insert_delete_insert. }
  destruct (out_ok sid e o _ Hg Hm Hs eq_refl) as (Hfl & Hlv & Hna).
  assert (Hmv2 : moves sid e [] e2) by by apply moves_emit.
  destruct (settle_ok sid e2 o') as [A B].
  - apply Hmv2.
  - rewrite Ei. unfold e2. cbn [e_ords emit]. rewrite Hd. apply lookup_delete.
  - rewrite Ei. apply retrail_live; [done| |done]. apply calc_trailing_range, Hl.
  - rewrite El. unfold e2. cbn [e_ords emit]. rewrite Hd. apply Hfl.
  - congruence.
  - unfold o', retrail. by destruct (o_type o).
  - unfold e'. rewrite Hput. split; [apply (moves_trans sid e e2 _ [] []); done|]. rewrite B. unfold e2. rewrite ring_emit, Hring.
    assert (Hnm : o_type o' <> MARKET /\ o_type o' <> LIMIT). { rewrite Et. unfold is_trailing, is_trailing_stop, is_trailing_stop_limit in Ht. by destruct (o_type o). }
    assert (Hk' : okind o' = trail_side sd) by (unfold okind in *; by rewrite Et, Esd).
    assert (Hsp : same_prices (ring_of e) (settles_in o' (gone o (ring_of e)))).
    { intros s. destruct (proj2 (settles_glist o' KBid (gone o (ring_of e)) (proj1 Hnm)) s) as (-> & -> & ->). unfold gone. apply (proj2 (all_glist KBid _ (ring_of e))). }
    apply ring_eq.
    + intros k. rewrite (proj1 (settles_glist _ _ _ (proj1 Hnm))), (proj1 (trails_glist _ _ _ _)), Hk'. rewrite (decide_False (P := o_type o' = LIMIT)) by apply Hnm. unfold gone. rewrite (proj1 (all_glist _ _ _)), ring_list.
      destruct (decide (k = trail_side sd)) as [->|Hne]; [by rewrite Eo|]. apply filter_whole. intros x Hx E. apply Hne.
      destruct (orders_elem sid e k x He Hx) as (X1 & _ & X3 & _). rewrite E, Hm in X1. injection X1 as <-. congruence.
    + intros s. destruct (Hsp s) as (-> & _). by destruct (proj2 (trails_glist KBid sd (fun q => shift (followed sd (ring_of e)) q o) (ring_of e)) s) as (-> & _).
    + intros s. destruct (Hsp s) as (_ & -> & _). by destruct (proj2 (trails_glist KBid sd (fun q => shift (followed sd (ring_of e)) q o) (ring_of e)) s) as (_ & -> & _).
    + intros s. destruct (Hsp s) as (_ & _ & ->). by destruct (proj2 (trails_glist KBid sd (fun q => shift (followed sd (ring_of e)) q o) (ring_of e)) s) as (_ & _ & ->).
Qed.

(** ** The orders of a level, and all levels *)
Lemma trail_ring_id sd g : trail_ring sd (fun q => q) g = g.
Proof. by destruct sd, g as [[] []]. Qed.
Lemma trail_ring_twice sd f f' g : trail_ring sd f' (trail_ring sd f g) = trail_ring sd (fun q => f' (f q)) g.
Proof. by destruct sd. Qed.
Lemma trail_ring_same sd f f' g : f (glist (trail_side sd) g) = f' (glist (trail_side sd) g) -> trail_ring sd f g = trail_ring sd f' g.
Proof. intros H. destruct sd; cbn in *; by rewrite H. Qed.
Lemma shift_ids sid sd m : forall os rc e r e', fine sid e -> m = followed sd (ring_of e) -> (forall o, o ∈ os -> o ∈ orders_of (trail_side sd) e) -> NoDup (map o_id os) ->
  recalc_ids (map o_id os) rc e = Ok (r, e') ->
  moves sid e [] e' /\ ring_of e' = trail_ring sd (fun q => fold_left (shift m) (filter (off m) os) q) (ring_of e) /\ r = rc || bool_decide (filter (off m) os <> []) /\ (r = rc -> r = false -> e' = e).
Proof.
  induction os as [|o os IH]; intros rc e r e' Hg -> Hin Hnd H; cbn [map recalc_ids] in H.
  { injection H as <- <-. split; [by apply moves_refl|]. split; [symmetry; apply trail_ring_id|]. split; [by rewrite orb_false_r|done]. }
  destruct (trail_elem sid e sd o Hg (Hin o ltac:(left))) as (Hm & Hs & Ht & Hsd & Hk & Hl). rewrite Hm in H. cbn [of_opt rbind] in H. apply NoDup_cons in Hnd as [Hno Hnd].
  assert (Ec : calc_trailing o (e_bk e) = drawn (followed sd (ring_of e)) o) by (rewrite (drawn_calc sid); [by rewrite Hsd|apply Hg|done|apply Hl|apply Hl]).
  destruct (Z.eqb_spec (calc_trailing o (e_bk e)) (o_stop o)) as [E|E].
  - rewrite filter_cons, decide_False by (unfold off; congruence). apply IH; try done. intros x Hx. apply Hin. by right.
  - assert (Hof : off (followed sd (ring_of e)) o) by (unfold off; congruence). rewrite filter_cons, decide_True by done. cbn [fold_left].
    destruct (shift_ok sid e sd o Hg (Hin o ltac:(left)) Hof) as (e1 & Hdel & Hmv & Hring). rewrite Hdel in H. cbn [rbind] in H.
    set (o' := retrail (calc_trailing o (e_bk e)) o) in *. set (e2 := eng_add o' (put o' (emit (EUpdateOrder o') e1))) in *.
    assert (Hfo : followed sd (ring_of e) = followed sd (ring_of e2)) by (rewrite Hring; by rewrite followed_trails).
    destruct (IH true e2 r e' (m_fine _ _ _ _ Hmv) Hfo) as (A & B & -> & _); [|done|done|].
    { intros x Hx. rewrite <- ring_list, Hring, (proj1 (trails_glist _ _ _ _)), decide_True, ring_list by done. apply elem_line. right. apply elem_without. split; [|apply Hin; by right].
      intros E1. apply Hno. rewrite <- E1. by apply elem_of_list_fmap_1. }
    split; [apply (moves_trans sid e e2 _ [] []); done|]. split; [|split; [by rewrite orb_true_r|intros <-; by rewrite orb_true_l]].
    rewrite B, Hring, trail_ring_twice. done.
Qed.
Lemma walk_list sid sd m : forall fuel prev cur e e', fine sid e -> m = followed sd (ring_of e) -> recalc_walk fuel (trail_side sd) prev cur e = Ok e' ->
  (forall x, x ∈ orders_of (trail_side sd) e -> off m x -> match cur with Some p => better (trail_side sd) (o_stop x) p = false | None => False end) ->
  (forall x p, x ∈ orders_of (trail_side sd) e -> off m x -> prev = Some p -> better (trail_side sd) (o_stop x) p = false) ->
  moves sid e [] e' /\ ring_of e' = trail_ring sd (redraw m) (ring_of e).
Proof.
  induction fuel as [|fuel IH]; intros prev cur e e' Hg Em H Hcur Hprev; cbn [recalc_walk] in H; [done|]. pose proof (f_ok _ _ Hg) as He. set (k := trail_side sd) in *.
  destruct cur as [p|].
  2: { injection H as <-. split; [by apply moves_refl|]. rewrite (trail_ring_same sd (redraw m) (fun q => q)); [by rewrite trail_ring_id|]. rewrite redraw_eq, filter_nil; [done|]. intros x Hx. rewrite ring_list in Hx. exact (Hcur x Hx). }
  unfold lvls at 1 in H. rewrite (book_view _ _ _ k p (proj2 He)) in H. destruct (decide (queue (e_bk e) k p = [])) as [Eq|Eq]; [rewrite Eq in H; done|]. rewrite lvl_at_ne in H by done. cbn [of_opt rbind l_ids] in H.
  destruct (view_of sid e k He) as (L & HL & HF). pose proof (cv_all _ _ _ HL p Eq) as Hp. apply elem_of_list_fmap in Hp as ([p0 os] & Ep & Hin). cbn in Ep. subst p0.
  destruct (cv_q _ _ _ HL p os Hin) as (Hne & Hq & _). rewrite Hq in H.
  apply elem_of_list_split in Hin as (L1 & L2 & EL).
  assert (Hflat : orders_of k e = flat L1 ++ os ++ flat L2) by (rewrite <- HF, EL; unfold flat; rewrite map_app, concat_app; done).
  assert (Hstop : forall q rs x, (q, rs) ∈ L -> x ∈ rs -> o_stop x = q).
  { intros q rs x H1 H2. destruct (cview_order sid e k L q rs x He HL H1 H2) as (A & _ & B & C & _). assert (o_stop x = okey x) as ->; [|done]. symmetry. by apply (okind_trail x k sd); [by destruct sd|]. }
  pose proof (cv_sorted _ _ _ HL) as Hsorted.
  assert (Hbef : forall x, x ∈ flat L1 -> better k (o_stop x) p = true).
  { intros x Hx. apply elem_flat in Hx as (q & rs & H1 & H2). rewrite (Hstop q rs x); [|rewrite EL; apply elem_of_app; by left|done].
    rewrite EL in Hsorted. clear -Hsorted H1. induction L1 as [|a L1 IHL]; [by apply elem_of_nil in H1|]. cbn in Hsorted. apply StronglySorted_inv in Hsorted as [H3 H4].
    apply elem_of_cons in H1 as [<-|H1]; [|by apply IHL]. rewrite Forall_forall in H4. apply (H4 (p, os)). apply elem_of_app. right. left. }
  assert (Hof1 : filter (off m) (flat L1) = []).
  { apply filter_nil. intros x Hx Hof. assert (better k (o_stop x) p = false) as E; [|rewrite (Hbef x Hx) in E; done]. apply Hcur; [|done]. rewrite Hflat. apply elem_of_app. by left. }
  assert (Hosin : forall x, x ∈ os -> x ∈ orders_of k e) by (intros x Hx; rewrite Hflat; apply elem_of_app; right; apply elem_of_app; by left).
  pose proof (orders_ids sid e k He) as Hnd. rewrite Hflat, !map_app in Hnd. apply NoDup_app in Hnd as (_ & _ & Hnd). apply NoDup_app in Hnd as (Hnd1 & Hnd2 & _).
  destruct (recalc_ids (map o_id os) false e) as [[rc e1]| |] eqn:Er; cbn [rbind] in H; try done.
  destruct (shift_ids sid sd m os false e rc e1 Hg Em Hosin Hnd1 Er) as (Hmv & Hring & Hrc & Hsame).
  set (us := filter (off m) os) in *.
  assert (HU : filter (off m) (orders_of k e) = us ++ filter (off m) (flat L2)) by (rewrite Hflat, !filter_app, Hof1; done).
  destruct rc.
  - assert (Em1 : m = followed sd (ring_of e1)) by (rewrite Hring, followed_trails; done).
    assert (Hl1 : orders_of k e1 = fold_left (shift m) us (orders_of k e)).
    { rewrite <- ring_list, Hring, (proj1 (trails_glist _ _ _ _)), decide_True, ring_list by done. done. }
    assert (Hus : Forall (fun o => is_trailing o = true) us).
    { apply Forall_forall. intros o Ho. apply elem_of_list_filter in Ho as [_ Ho]. by destruct (trail_elem sid e sd o Hg (Hosin o Ho)) as (_ & _ & ? & _). }
    assert (HU1 : filter (off m) (orders_of k e1) = filter (off m) (flat L2)).
    { rewrite Hl1, off_shifts by done. rewrite HU, filter_app, filter_nil; [|intros x Hx Hn; by apply Hn, elem_of_list_fmap_1]. apply filter_whole.
      intros x Hx H1. apply elem_of_list_filter in Hx as [_ Hx]. apply (Hnd2 (o_id x)); [|by apply elem_of_list_fmap_1]. apply elem_of_list_fmap in H1 as (y & -> & Hy). apply elem_of_list_fmap_1. by apply elem_of_list_filter in Hy as [_ Hy]. }
    assert (Hsub : forall x, x ∈ orders_of k e1 -> off m x -> x ∈ orders_of k e).
    { intros x Hx Hof. assert (Hx2 : x ∈ filter (off m) (orders_of k e1)) by by apply elem_of_list_filter. rewrite HU1 in Hx2. apply elem_of_list_filter in Hx2 as [_ Hx2].
      rewrite Hflat. apply elem_of_app. right. apply elem_of_app. by right. }
    destruct (IH prev (match prev with Some q => Some q | None => best k e1 end) e1 e' (m_fine _ _ _ _ Hmv) Em1 H) as [A B].
    + intros x Hx Hof. destruct prev as [q|]; [by apply (Hprev x q (Hsub x Hx Hof) Hof)|].
      destruct (trail_elem sid e1 sd x (m_fine _ _ _ _ Hmv) Hx) as (X1 & X2 & _ & _ & X3 & _). destruct (best k e1) as [q|] eqn:Eb.
      * destruct (better k (o_stop x) q) eqn:Ebb; [exfalso|done]. eapply (no_better sid e1 k (o_id x) x); [apply Hmv|done|done|done|]. rewrite Eb. assert (okey x = o_stop x) as -> by (by apply (okind_trail x k sd); [by destruct sd|]). done.
      * eapply (no_better sid e1 k (o_id x) x); [apply Hmv|done|done|done|]. by rewrite Eb.
    + intros x q Hx Hof. apply Hprev; auto.
    + split; [apply (moves_trans sid e e1 _ [] []); done|]. rewrite B, Hring, trail_ring_twice. apply trail_ring_same. rewrite ring_list. fold k. rewrite !redraw_eq, HU, fold_left_app. rewrite <- Hl1, HU1. done.
  - assert (Hn : us = []). { cbn in Hrc. symmetry in Hrc. apply bool_decide_eq_false in Hrc. destruct (decide (us = [])); [done|]. by destruct Hrc. }
    rewrite (Hsame eq_refl eq_refl) in *. 
    assert (Hworse : forall x, x ∈ orders_of k e -> off m x -> x ∈ flat L2).
    { intros x Hx Hof. assert (Hx2 : x ∈ filter (off m) (orders_of k e)) by by apply elem_of_list_filter. rewrite HU, Hn in Hx2. by apply elem_of_list_filter in Hx2 as [_ Hx2]. }
    assert (Hafter : forall x, x ∈ flat L2 -> better k p (o_stop x) = true).
    { intros x Hx. apply elem_flat in Hx as (q & rs & H1 & H2). rewrite (Hstop q rs x); [|rewrite EL; apply elem_of_app; right; by right|done].
      rewrite EL in Hsorted. clear -Hsorted H1. induction L1 as [|a L1 IHL]; cbn in Hsorted; apply StronglySorted_inv in Hsorted as [H3 H4]; [rewrite Forall_forall in H4; exact (H4 _ H1)|by apply IHL]. }
    eapply (IH (Some p) (next_level p (lvls k e)) e e' Hg Em H).
    + intros x Hx Hof. pose proof (Hafter x (Hworse x Hx Hof)) as Hb.
      destruct (trail_elem sid e sd x Hg Hx) as (X1 & X2 & _ & _ & X3 & _).
      assert (okey x = o_stop x) as Ek by (by apply (okind_trail x k sd); [by destruct sd|]).
      pose proof (bk_full _ _ _ (proj2 He) _ _ X1 X2) as Hjq. fold k in X3. rewrite X3, Ek in Hjq.
      assert (Hxne : queue (e_bk e) k (o_stop x) <> []) by (intros E; rewrite E in Hjq; by apply elem_of_nil in Hjq).
      pose proof (sd_sorted _ _ _ _ (bk_side _ _ _ (proj2 He) k)) as Hsort. fold (lvls k e) in Hsort.
      destruct (next_gap k p (o_stop x) (lvls k e) Hsort) as (q & Hqn & Hqx); [by apply (find_queue sid e k p He)|by apply (find_queue sid e k _ He)|done|]. rewrite Hqn.
      destruct Hqx as [->|Hqx]; [apply better_irrefl|]. unfold better in *. destruct (desc k); lia.
    + intros x q Hx Hof [= <-]. pose proof (Hafter x (Hworse x Hx Hof)) as Hb. unfold better in *. destruct (desc k); lia.
Qed.
Lemma rest_nil sid e sd : eng_ok sid e -> q_rest (half_of sd (ring_of e)) = [] <-> best (side_kind sd) e = None.
Proof.
  intros He. rewrite rest_list, ring_list. destruct (view_of sid e (side_kind sd) He) as (L & HL & <-). destruct L as [|[p os] L]; [split; [intros _; by apply (cview_nil sid e _ He HL)|done]|].
  destruct (cv_q _ _ _ HL p os ltac:(left)) as (Hne & _ & _). destruct os as [|r os]; [done|]. destruct (cview_front sid e _ p r os L He HL) as (-> & _ & _). done.
Qed.
Lemma follow_ok sid sd e e' : fine sid e -> recalc sd e = Ok e' -> moves sid e [] e' /\ ring_of e' = follow sd (ring_of e).
Proof.
  intros Hg H. pose proof (f_ok _ _ Hg) as He. rewrite recalc_eq in H. unfold follow. pose proof (rest_nil sid e (opposite sd) He) as Hn. rewrite opp_side in H.
  destruct (best (side_kind (opposite sd)) e) as [bp|] eqn:Eb.
  2: { injection H as <-. rewrite (proj2 Hn eq_refl). split; [by apply moves_refl|done]. }
  destruct (q_rest (half_of (opposite sd) (ring_of e))) as [|r0 rs0] eqn:Er; [by destruct Hn as [Hn _]; specialize (Hn eq_refl)|]. clear Hn. cbv zeta in H |- *.
  rewrite (followed_ok sid) by done. set (m := tmarket sd (e_bk e)) in *. set (e0 := set_bk (set_rec sd m (e_bk e)) e) in *.
  destruct (set_rec_facts sd m (e_bk e)) as (R1 & R2 & R3 & R4).
  assert (Hmv0 : moves sid e [] e0) by (eapply (moves_same sid e [] e); [by apply moves_refl|done|done|done]).
  assert (Hr0 : ring_of e0 = on_half (opposite sd) (with_seen m) (ring_of e)).
  { apply ring_eq.
    - intros k. rewrite ring_list, (orders_same e e0) by (try done; apply R4). by destruct k, sd.
    - intros s. by destruct s, sd. - intros s. by destruct s, sd. - intros s. by destruct s, sd. }
  assert (Hold : q_seen (half_of (opposite sd) (ring_of e)) = recorded sd (e_bk e)) by by destruct sd. rewrite Hold.
  rewrite <- Hr0. destruct (no_tighterb sd (recorded sd (e_bk e)) m) eqn:Et.
  - injection H as <-. rewrite decide_False; [done|]. unfold closer, no_tighterb in *. destruct sd; lia.
  - rewrite decide_True by (unfold closer, no_tighterb in *; destruct sd; lia).
    assert (Em : m = followed sd (ring_of e0)) by (rewrite (followed_ok sid) by apply Hmv0; by rewrite R3).
    change (trail_of sd) with (trail_side sd) in H.
    destruct (walk_list sid sd m _ None _ e0 e' (m_fine _ _ _ _ Hmv0) Em H) as [A B].
    + intros x Hx _. destruct (trail_elem sid e0 sd x (m_fine _ _ _ _ Hmv0) Hx) as (X1 & X2 & _ & _ & X3 & _).
      assert (okey x = o_stop x) as Ek by (by apply (okind_trail x (trail_side sd) sd); [by destruct sd|]).
      destruct (best (trail_side sd) e0) as [q|] eqn:Ebb.
      * destruct (better (trail_side sd) (o_stop x) q) eqn:Ebq; [exfalso|done]. eapply (no_better sid e0 _ (o_id x) x); [apply Hmv0|done|done|done|]. by rewrite Ebb, Ek.
      * eapply (no_better sid e0 _ (o_id x) x); [apply Hmv0|done|done|done|]. by rewrite Ebb.
    + done.
    + split; [apply (moves_trans sid e e0 _ [] []); done|]. exact B.
Qed.
