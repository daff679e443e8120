(** * Trail2.v -- trailing stop orders keep up with the market: matching a book leaves every trailing
    stop order with an absolute distance settled. *)
From Coq Require Import ZifyBool.
From stdpp Require Import fin_maps relations.
From Verif Require Import Types Book Engine LevelFacts BookInv EngInv EngPrim Steps StepsOk Refine1 Refine2 Refine3 Refine4 Trail.

Definition calc_at (o : order) (market : Z) : Z :=
  let '(dist, step) :=
    if o_tdist o <? 0 then (trailing_abs (o_tdist o) market, trailing_abs (o_tstep o) market)
    else (o_tdist o, o_tstep o) in
  let old := o_stop o in
  match o_side o with
  | BUY =>
      let new := if market <? u64 (MAX64 - dist) then u64 (market + dist) else MAX64 in
      if (new <? old) && (u64 step <=? old - new) then new else old
  | SELL =>
      let new := if u64 dist <? market then u64 (market - dist) else 0 in
      if (old <? new) && (u64 step <=? new - old) then new else old
  end.
Definition tmarket (s : oside) (b : book) : Z := match s with BUY => trailing_market_ask b | SELL => trailing_market_bid b end.
Definition recorded (s : oside) (b : book) : Z := match s with BUY => b_trail_ask b | SELL => b_trail_bid b end.
Lemma calc_at_eq o b : calc_trailing o b = calc_at o (tmarket (o_side o) b).
Proof. reflexivity. Qed.
Lemma calc_at_key o o' m : tkey o = tkey o' -> calc_at o m = o_stop o -> calc_at o' m = o_stop o'.
Proof. unfold tkey, calc_at. by intros [= _ _ -> -> -> ->]. Qed.

(** In range: not beyond the worst price of the side. *)
Definition rec_ok (s : oside) (m : Z) : Prop := match s with BUY => 0 <= m | SELL => m <= MAX64 end.
Definition no_tighter (s : oside) (m m' : Z) : Prop := match s with BUY => m <= m' | SELL => m' <= m end.
Lemma u64_small z : 0 <= z <= MAX64 -> u64 z = z.
Proof. unfold u64, MAX64, TWO64. intros. apply Z.mod_small. lia. Qed.
Lemma settled_mono o m m' : is_trailing o = true -> trailing_ok o -> 0 < o_tdist o -> u64_range (o_stop o) -> rec_ok (o_side o) m -> no_tighter (o_side o) m m' ->
  calc_at o m = o_stop o -> calc_at o m' = o_stop o.
Proof.
  intros Ht Hok Hd Hst. assert (Hb : 0 < o_tdist o < TWO63 /\ 0 <= o_tstep o < o_tdist o).
  { assert (Hty : o_type o = TRAILING_STOP \/ o_type o = TRAILING_STOP_LIMIT).
    { unfold is_trailing, is_trailing_stop, is_trailing_stop_limit in Ht. destruct (o_type o); cbn in Ht; try done; auto. }
    destruct (Hok Hty) as [|[? _]]; lia. }
  unfold calc_at. rewrite (proj2 (Z.ltb_ge (o_tdist o) 0)) by lia.
  assert (HM : MAX64 = 18446744073709551615) by reflexivity. assert (HT : TWO63 = 9223372036854775808) by reflexivity.
  unfold rec_ok, no_tighter. unfold u64_range in *. rewrite (u64_small (o_tstep o)) by lia.
  destruct (o_side o); intros Hm Hmm.
  - rewrite (u64_small (MAX64 - o_tdist o)) by lia.
    set (new := if m <? _ then _ else _). set (new' := if m' <? _ then _ else _).
    assert (E : new = Z.min MAX64 (m + o_tdist o)).
    { unfold new. destruct (Z.ltb_spec m (MAX64 - o_tdist o)); [rewrite u64_small by lia|]; lia. }
    assert (E' : new' = Z.min MAX64 (m' + o_tdist o)).
    { unfold new'. destruct (Z.ltb_spec m' (MAX64 - o_tdist o)); [rewrite u64_small by lia|]; lia. }
    destruct ((new <? o_stop o) && (o_tstep o <=? o_stop o - new)) eqn:Ec; destruct ((new' <? o_stop o) && (o_tstep o <=? o_stop o - new')) eqn:Ec'; lia.
  - rewrite (u64_small (o_tdist o)) by lia.
    set (new := if _ <? m then _ else _). set (new' := if _ <? m' then _ else _).
    assert (E : new = Z.max 0 (m - o_tdist o)).
    { unfold new. destruct (Z.ltb_spec (o_tdist o) m); [rewrite u64_small by lia|]; lia. }
    assert (E' : new' = Z.max 0 (m' - o_tdist o)).
    { unfold new'. destruct (Z.ltb_spec (o_tdist o) m'); [rewrite u64_small by lia|]; lia. }
    destruct ((o_stop o <? new) && (o_tstep o <=? new - o_stop o)) eqn:Ec; destruct ((o_stop o <? new') && (o_tstep o <=? new' - o_stop o)) eqn:Ec'; lia.
Qed.
Lemma tmarket_ok sid e s : eng_ok sid e -> rec_ok s (tmarket s (e_bk e)).
Proof.
  intros He. destruct (best_price_range sid e He) as [[H1 H2] [H3 H4]]. unfold tmarket, trailing_market_ask, trailing_market_bid. destruct s; cbn; unfold MAX64 in *; lia.
Qed.

(** Every trailing order is settled at the recorded trailing price of its side. *)
Record tset (sid : Z) (e : eng) : Prop := {
  ts_rec : forall s, rec_ok s (recorded s (e_bk e));
  ts_ord : forall i x, e_ords e !! i = Some x -> o_sym x = sid -> is_trailing x = true -> 0 < o_tdist x ->
             calc_at x (recorded (o_side x) (e_bk e)) = o_stop x;
}.
(** And the recorded price is the current one where there is a market. *)
Definition tcur (e : eng) : Prop := forall s, best (opp s) e <> None -> recorded s (e_bk e) = tmarket s (e_bk e).

Lemma recorded_prices b b' : tprices b' = tprices b -> forall s, recorded s b' = recorded s b.
Proof. unfold tprices. intros [=] []; cbn; congruence. Qed.
Lemma tset_keep sid e e' : tkeep e e' -> tset sid e -> tset sid e'.
Proof.
  intros [Hp Ho] [H1 H2]. pose proof (recorded_prices _ _ Hp) as Hr. constructor; [intros s; by rewrite Hr|].
  intros i x Hi Hs Ht Hd. destruct (Ho i x Hi Ht) as (j & y & Hy & Hk). rewrite Hr.
  pose proof Hk as Hk0. unfold tkey in Hk0. injection Hk0 as E1 E2 E3 E4 E5 E6. rewrite E3. eapply calc_at_key; [symmetry; exact Hk|].
  rewrite <- E3. rewrite E3. apply (H2 j y); [done|congruence|by rewrite <- (tkey_trailing _ _ Hk)|lia].
Qed.

Lemma trail_side x s : is_trailing x = true -> o_side x = s -> okind x = trail_of s.
Proof. unfold is_trailing, is_trailing_stop, is_trailing_stop_limit, okind, trail_of. intros H <-. destruct (o_type x), (o_side x); cbn in *; try done. Qed.
Lemma best_at sid e k : eng_ok sid e -> forall p, best k e = Some p -> queue (e_bk e) k p <> [].
Proof. intros He p Hp. by apply (best_some _ _ _ _ _ (proj2 He) Hp). Qed.
Lemma no_better sid e k j x : eng_ok sid e -> e_ords e !! j = Some x -> o_sym x = sid -> okind x = k ->
  match best k e with Some p => better k (okey x) p = true | None => True end -> False.
Proof.
  intros He Hj Hs Hx. pose proof (bk_full _ _ _ (proj2 He) _ _ Hj Hs) as Hjq. rewrite Hx in Hjq.
  assert (Hne : queue (e_bk e) k (okey x) <> []) by (intros E; rewrite E in Hjq; by apply elem_of_nil in Hjq).
  destruct (best_exists _ _ _ k (okey x) (proj2 He) Hne) as (b & Hb & Hc). unfold best. rewrite Hb.
  intros Hbb. destruct Hc as [E|Hc]; [rewrite E in Hbb; apply better_neq in Hbb; congruence|].
  unfold better in *. destruct (desc k); lia.
Qed.
Definition set_rec (s : oside) (m : Z) (b : book) : book := match s with BUY => set_trail_ask m b | SELL => set_trail_bid m b end.
Lemma set_rec_facts s m b : recorded s (set_rec s m b) = m /\ (forall s', s' <> s -> recorded s' (set_rec s m b) = recorded s' b) /\
  (forall s', tmarket s' (set_rec s m b) = tmarket s' b) /\ same_sides b (set_rec s m b).
Proof. destruct s; cbn; (split; [done|]); (split; [intros []; done|]); (split; [intros []; done|]); split; done. Qed.
Definition no_tighterb (s : oside) (m m' : Z) : bool := match s with BUY => m <=? m' | SELL => m' <=? m end.
Lemma recalc_eq s e : recalc s e = match best (opp s) e with None => Ok e | Some _ =>
    let e0 := set_bk (set_rec s (tmarket s (e_bk e)) (e_bk e)) e in
    if no_tighterb s (recorded s (e_bk e)) (tmarket s (e_bk e)) then Ok e0
    else recalc_walk (walk_fuel e0) (trail_of s) None (best (trail_of s) e0) e0 end.
Proof. by destruct s. Qed.
Lemma recalc_settles sid s e e' : eng_ok sid e -> tset sid e -> recalc s e = Ok e' ->
  eng_ok sid e' /\ tset sid e' /\ (best (opp s) e <> None -> recorded s (e_bk e') = tmarket s (e_bk e')) /\
  (forall s', s' <> s -> recorded s' (e_bk e') = recorded s' (e_bk e)) /\
  (forall s', tmarket s' (e_bk e') = tmarket s' (e_bk e)) /\ (forall s', best (opp s') e' = best (opp s') e).
Proof.
  intros He Hj Heq. destruct (recalc_ok (F := False) (W := False) sid s e He) as (e1 & Heq1 & _ & He' & Hsk & _).
  rewrite Heq in Heq1. injection Heq1 as <-. split; [done|].
  assert (Hbest : forall s', best (opp s') e' = best (opp s') e).
  { intros s'. unfold best. rewrite (sk_sides _ _ _ Hsk (opp s')); [done|]. by destruct s, s'. }
  assert (Htm : forall s', tmarket s' (e_bk e') = tmarket s' (e_bk e)).
  { destruct (sk_prices _ _ _ Hsk) as (P1 & P2 & _). pose proof (sk_sides _ _ _ Hsk KBid) as S1. pose proof (sk_sides _ _ _ Hsk KAsk) as S2. cbn in S1, S2.
    assert (KBid <> trail_of s /\ KAsk <> trail_of s) as [N1 N2] by by destruct s. specialize (S1 N1). specialize (S2 N2).
    intros []; unfold tmarket, trailing_market_bid, trailing_market_ask, best_bid_price, best_ask_price; by rewrite ?P1, ?P2, ?S1, ?S2. }
  rewrite recalc_eq in Heq. destruct (best (opp s) e) as [bp|] eqn:Eb.
  2: { injection Heq as <-. repeat (split; [done|]). done. }
  cbv zeta in Heq.
  destruct (set_rec_facts s (tmarket s (e_bk e)) (e_bk e)) as (R1 & R2 & R3 & R4).
  set (e0 := set_bk (set_rec s (tmarket s (e_bk e)) (e_bk e)) e) in *.
  assert (He0 : eng_ok sid e0) by (by apply set_bk_ok).
  destruct (no_tighterb s (recorded s (e_bk e)) (tmarket s (e_bk e))) eqn:Et.
  - injection Heq as <-. split.
    + constructor.
      * intros s'. cbn. destruct (decide (s' = s)) as [->|Hn]; [rewrite R1; by apply (tmarket_ok sid)|rewrite R2 by done; apply Hj].
      * intros i x Hi Hs Ht Hd. cbn in Hi |- *. pose proof (ts_ord _ _ Hj i x Hi Hs Ht Hd) as Hx.
        destruct (decide (o_side x = s)) as [<-|Hn]; [rewrite R1|rewrite R2 by done; done].
        pose proof (mo_live _ (proj1 He) _ _ Hi) as Hl.
        eapply (settled_mono x (recorded (o_side x) (e_bk e))); [done|apply Hl|done|apply Hl|apply Hj| |done].
        unfold no_tighterb in Et. unfold no_tighter. destruct (o_side x); lia.
    + split; [intros _; cbn; by rewrite R1, R3|]. split; [done|]. split; done.
  - assert (Hk : trail_kind (trail_of s) = Some s) by by destruct s.
    eapply (recalc_walk_settles sid (trail_of s) s Hk) in Heq; [|done|apply (best_at sid e0 _ He0)|done|intros j x _ _ _ (? & ? & _); done|].
    2: { intros j x Hx Hs Hkx Hb. exfalso. by eapply no_better. }
    destruct Heq as [Hrk Hall]. pose proof (rk_prices _ _ _ Hrk) as Hp. apply bprices_inj in Hp as (_ & _ & _ & _ & P5 & P6).
    assert (Hrec : forall s', recorded s' (e_bk e') = recorded s' (e_bk e0)) by by intros [].
    split; [|split; [|split; [|done]]].
    + constructor.
      * intros s'. rewrite Hrec. cbn. destruct (decide (s' = s)) as [->|Hn]; [rewrite R1; by apply (tmarket_ok sid)|rewrite R2 by done; apply Hj].
      * intros i x Hi Hs Ht Hd. rewrite Hrec. cbn. destruct (decide (o_side x = s)) as [E|Hn].
        -- rewrite E, R1. specialize (Hall i x Hi Hs (trail_side x s Ht E)). rewrite calc_at_eq, E, Htm in Hall. done.
        -- rewrite R2 by done. apply (ts_ord _ _ Hj i x); [|done..].
           apply (rk_ords _ _ _ Hrk i x); [|done]. rewrite (trail_side x _ Ht eq_refl). by destruct s, (o_side x).
    + intros _. rewrite Hrec, Htm. cbn. by rewrite R1.
    + intros s' Hn. rewrite Hrec. cbn. by rewrite R2.
Qed.

(** ** Activation and matching *)
Lemma pair_tset sid k1 k2 s e r e' : eng_ok sid e -> stop_side k1 = Some s -> stop_side k2 = Some s -> tset sid e ->
  (do '(r1, e) <- activate_level k1 (act_market s (e_bk e)) e;
   (if (r1 : bool) then Ok (true, e) else activate_level k2 (act_market s (e_bk e)) e)) = Ok (r, e') ->
  eng_ok sid e' /\ tset sid e' /\ (r = false -> e' = e).
Proof.
  intros He H1 H2 Hj Heq. destruct (activate_pair_ok (F := False) (W := False) sid k1 k2 s e He H1 H2) as (r' & e'' & Heq' & Hr & Hf & _).
  pose proof Heq as Heq0. rewrite Heq' in Heq0. injection Heq0 as -> ->.
  pose proof (msteps_ok sid _ _ Hr (conj He I)) as [[He' _] _ _ _]. cbn in He'. split; [done|]. split; [|intros E; by apply Hf].
  destruct (activate_level k1 _ e) as [[r1 e1]| |] eqn:E1; cbn [rbind] in Heq; [|done|done].
  pose proof (activate_level_tkeep _ _ _ _ _ E1) as T1.
  destruct r1; [injection Heq as <- <-; by eapply tset_keep|].
  eapply tset_keep; [|exact Hj]. eapply tkeep_trans; [done|]. by eapply activate_level_tkeep.
Qed.
Lemma round_tset sid e r e' : eng_ok sid e -> tset sid e -> activate_round e = Ok (r, e') ->
  eng_ok sid e' /\ tset sid e' /\ (r = false -> tcur e').
Proof.
  intros He Hj. rewrite activate_round_eq.
  destruct (activate_pair_ok (F := False) (W := False) sid KBuyStop KTrailBuy BUY e He eq_refl eq_refl) as (r1 & e1 & E1 & _).
  rewrite E1. cbn [rbind].
  destruct (pair_tset sid KBuyStop KTrailBuy BUY e r1 e1 He eq_refl eq_refl Hj E1) as (He1 & Hj1 & _).
  destruct (recalc BUY e1) as [e2| |] eqn:E2; cbn [rbind]; [|done|done].
  destruct (recalc_settles sid BUY e1 e2 He1 Hj1 E2) as (He2 & Hj2 & C2 & N2 & T2 & B2).
  destruct (activate_pair_ok (F := False) (W := False) sid KSellStop KTrailSell SELL e2 He2 eq_refl eq_refl) as (r3 & e3 & E3 & _).
  rewrite E3. cbn [rbind].
  destruct (pair_tset sid KSellStop KTrailSell SELL e2 r3 e3 He2 eq_refl eq_refl Hj2 E3) as (He3 & Hj3 & F3).
  destruct (recalc SELL e3) as [e4| |] eqn:E4; cbn [rbind]; [|done|done].
  destruct (recalc_settles sid SELL e3 e4 He3 Hj3 E4) as (He4 & Hj4 & C4 & N4 & T4 & B4).
  intros [= <- <-]. split; [done|]. split; [done|]. intros Hr. apply orb_false_iff in Hr as [_ ->]. specialize (F3 eq_refl) as ->.
  intros []; rewrite B4; intros Hb.
  - rewrite N4, T4 by done. rewrite B2 in Hb. by apply C2.
  - by apply C4.
Qed.
Lemma loop_tset sid : forall fuel r0 e r e', eng_ok sid e -> tset sid e -> activate_loop fuel r0 e = Ok (r, e') ->
  eng_ok sid e' /\ tset sid e' /\ tcur e'.
Proof.
  induction fuel as [|fuel IH]; intros r0 e r e' He Hj; cbn [activate_loop]; [done|].
  destruct (activate_round e) as [[r1 e1]| |] eqn:E1; cbn [rbind]; [|done|done].
  destruct (round_tset sid e r1 e1 He Hj E1) as (He1 & Hj1 & C1). destruct r1; [by apply IH|].
  intros [= <- <-]. auto.
Qed.

(** Matching two resting orders: the index stays consistent. *)
Definition idok (e : eng) : Prop := forall i x, e_ords e !! i = Some x -> o_id x = i.
Lemma idok_put o e : idok e -> idok (put o e).
Proof. intros H i x Hi. cbn in Hi. apply lookup_insert_Some in Hi as [[<- <-]|[_ Hi]]; [done|by apply H]. Qed.
Lemma idok_drop i e : idok e -> idok (drop_id i e).
Proof. intros H j x Hj. cbn in Hj. apply lookup_delete_Some in Hj as [_ Hj]. by apply H. Qed.
Lemma idok_ords e e' : e_ords e' = e_ords e -> idok e -> idok e'.
Proof. unfold idok. by intros ->. Qed.
Lemma delete_order_map o e e' : delete_order o e = Ok e' -> e_ords e' = delete (o_id o) (e_ords e).
Proof.
  unfold delete_order. destruct (eng_sub_delete o e) as [e1| |] eqn:E; cbn [rbind]; intros [= <-].
  apply eng_sub_delete_tkeep in E as [_ E]. cbn. by rewrite E.
Qed.
Lemma reduce_order_idok o q e e' : reduce_order o q e = Ok e' -> idok e -> idok e'.
Proof.
  unfold reduce_order. set (o' := set_leaves _ o). intros H He. destruct (0 <? o_leaves o').
  - apply eng_sub_reduce_tkeep in H as [_ H]. eapply idok_ords; [exact H|]. by apply (idok_put o' e).
  - destruct (eng_sub_reduce _ _ _ _ _) as [e1| |] eqn:E; cbn [rbind] in H; revert H; intros [= <-]. apply eng_sub_reduce_tkeep in E as [_ E].
    apply idok_drop. eapply idok_ords; [exact E|]. by apply (idok_put o' e).
Qed.
Lemma exec_reduce_idok r p q e e' : exec_reduce r p q e = Ok e' -> idok e -> idok e'.
Proof.
  unfold exec_reduce, reduce_core. intros H He. set (e1 := put _ _) in *. assert (He1 : idok e1) by (by apply idok_put).
  destruct (_ || _); [by injection H as <-|].
  destruct (e_ords e1 !! o_id r) as [x|] eqn:Ex; [|by injection H as <-]. destruct (negb _); [done|].
  destruct (reduce_order x q e1) as [e2| |] eqn:E; cbn [rbind] in H; revert H; intros [= <-]. apply reduce_order_idok in E; [|done]. done.
Qed.
Lemma exec_delete_idok r p q e e' : exec_delete r p q e = Ok e' -> idok e -> idok e' /\ forall j, j <> o_id r -> e_ords e' !! j = e_ords e !! j.
Proof.
  unfold exec_delete, delete_core. intros H He. set (e1 := put _ _) in *. assert (He1 : idok e1) by (by apply idok_put).
  assert (Hn : forall j, j <> o_id r -> e_ords e1 !! j = e_ords e !! j). { intros j Hj. cbn. by rewrite lookup_insert_ne. }
  destruct (_ =? 0); [by injection H as <-|].
  destruct (e_ords e1 !! o_id r) as [x|] eqn:Ex; [|by injection H as <-]. destruct (negb _); [done|].
  destruct (delete_order x e1) as [e2| |] eqn:E; cbn [rbind] in H; revert H; intros [= <-]. apply delete_order_map in E.
  pose proof (He1 _ _ Ex) as Hx. split.
  - intros j y Hy. cbn in Hy. rewrite E in Hy. apply lookup_delete_Some in Hy as [_ Hy]. by apply He1.
  - intros j Hj. cbn. rewrite E, lookup_delete_ne by congruence. by apply Hn.
Qed.
Lemma match_pairs_tkeep bp ap : forall bids asks e fl e', match_pairs bp ap bids asks e = Ok (fl, e') -> idok e ->
  (forall i, i ∈ bids -> i ∈ asks -> False) -> tkeep e e'.
Proof.
  induction bids as [|bi bids IH]; intros asks e fl e'; cbn [match_pairs]; [intros [= <- <-] _ _; apply tkeep_refl|].
  destruct asks as [|ai asks]; [intros [= <- <-] _ _; apply tkeep_refl|].
  destruct (e_ords e !! bi) as [b|] eqn:Eb; cbn [of_opt rbind]; [|done]. destruct (e_ords e !! ai) as [a|] eqn:Ea; cbn [of_opt rbind]; [|done].
  intros H He Hd. destruct (is_aon b || is_aon a).
  - destruct (chain2 bp ap e) as [ch| |]; cbn [rbind] in H; [|done|done]. destruct (ch =? 0); [injection H as <- <-; apply tkeep_refl|].
    destruct (is_aon b).
    + destruct (exec_chain KBid bp (o_price b) ch e) as [e1| |] eqn:E1; cbn [rbind] in H; [|done|done].
      destruct (exec_chain KAsk ap (o_price b) ch e1) as [e2| |] eqn:E2; cbn [rbind] in H; [|done|done].
      injection H as <- <-. eapply tkeep_trans; by eapply exec_chain_tkeep.
    + destruct (exec_chain KAsk ap (o_price a) ch e) as [e1| |] eqn:E1; cbn [rbind] in H; [|done|done].
      destruct (exec_chain KBid bp (o_price a) ch e1) as [e2| |] eqn:E2; cbn [rbind] in H; [|done|done].
      injection H as <- <-. eapply tkeep_trans; by eapply exec_chain_tkeep.
  - destruct (if o_leaves a <? o_leaves b then (a, b) else (b, a)) as [x r] eqn:Exr.
    assert (Hne : bi <> ai) by (intros ->; eapply Hd; left).
    pose proof (He _ _ Eb) as Ib. pose proof (He _ _ Ea) as Ia.
    assert (exists i j, e_ords e !! i = Some x /\ e_ords e !! j = Some r /\ o_id x <> j) as (i & j & Hx & Hr & Hn).
    { destruct (o_leaves a <? o_leaves b); injection Exr as <- <-; eexists _, _; (split; [eassumption|]); (split; [eassumption|]); congruence. }
    destruct (exec_delete x (o_price x) (o_leaves x) e) as [e1| |] eqn:E1; cbn [rbind] in H; [|done|done].
    destruct (exec_reduce r (o_price x) (o_leaves x) e1) as [e2| |] eqn:E2; cbn [rbind] in H; [|done|done].
    destruct (exec_delete_idok _ _ _ _ _ E1 He) as [He1 Hsame]. pose proof (exec_reduce_idok _ _ _ _ _ E2 He1) as He2.
    eapply tkeep_trans; [eapply (exec_delete_tkeep x); [by exists i|exact E1]|].
    eapply tkeep_trans; [eapply exec_reduce_tkeep; [|exact E2]; exists j; by rewrite Hsame by done|].
    eapply IH; [exact H|done|]. intros k H1 H2. eapply Hd; right; done.
Qed.
Lemma while_tset sid : forall fuel e r e', eng_ok sid e -> tset sid e -> match_while fuel e = Ok (r, e') -> tset sid e'.
Proof.
  induction fuel as [|fuel IH]; intros e r e' He Hj; cbn [match_while]; [done|].
  destruct (crossed e) as [[bp ap]|] eqn:Ec; [|by intros [= <- <-]].
  destruct (crossed_some _ _ _ Ec) as (Hbb & Hba & Hcr).
  destruct (best_some _ _ _ _ _ (proj2 He) Hbb) as [Hqb _]. destruct (best_some _ _ _ _ _ (proj2 He) Hba) as [Hqa _].
  unfold lvls. rewrite (book_view _ _ _ KBid bp (proj2 He)), lvl_at_ne by done. cbn [of_opt rbind l_ids].
  rewrite (book_view _ _ _ KAsk ap (proj2 He)), lvl_at_ne by done. cbn [of_opt rbind l_ids].
  destruct (match_pairs_ok (F := False) (W := False) sid bp ap Hcr (queue (e_bk e) KBid bp) (queue (e_bk e) KAsk ap) e He) as (fl & e1 & Heq & Hrtc & He1 & Hret & Hbrk); try done.
  { eapply queue_nodup, He. } { eapply queue_nodup, He. }
  rewrite Heq. cbn [rbind].
  assert (Hj1 : tset sid e1).
  { eapply tset_keep; [|exact Hj]. eapply match_pairs_tkeep; [exact Heq|intros i x Hi; by eapply lo_id, (mo_live _ (proj1 He))|].
    intros i H1 H2. destruct (queue_facts sid e KBid bp i He H1) as (o & Ho & _ & _ & Hk & _).
    destruct (queue_facts sid e KAsk ap i He H2) as (o2 & Ho2 & _ & _ & Hk2 & _). congruence. }
  destruct fl; [by intros [= <- <-]|].
  destruct (activate_level_ok (F := False) (W := False) sid KBuyStop BUY (market_ask (e_bk e1)) e1 He1 eq_refl) as (r1 & e2 & E2 & Hr2 & _).
  { by eapply market_ask_reached. }
  rewrite E2. cbn [rbind]. pose proof (msteps_ok sid _ _ Hr2 (conj He1 I)) as [[He2 _] _ _ _]. cbn in He2.
  destruct (activate_level_ok (F := False) (W := False) sid KSellStop SELL (market_bid (e_bk e2)) e2 He2 eq_refl) as (r3 & e3 & E3 & Hr3 & _).
  { by eapply market_bid_reached. }
  rewrite E3. cbn [rbind]. pose proof (msteps_ok sid _ _ Hr3 (conj He2 I)) as [[He3 _] _ _ _]. cbn in He3.
  apply IH; [done|]. eapply tset_keep; [|exact Hj1]. eapply tkeep_trans; eapply activate_level_tkeep; done.
Qed.
Lemma match_loop_tset sid : forall fuel e e', eng_ok sid e -> tset sid e -> match_loop fuel e = Ok e' -> tset sid e' /\ (tcur e' \/ aon_cross sid e').
Proof.
  induction fuel as [|fuel IH]; intros e e' He Hj; cbn [match_loop]; [done|].
  destruct (match_while_ok (F := False) (W := False) sid (fuel_of e) e He ltac:(unfold fuel_of; lia)) as (r & e1 & Heq & Hrtc & He1 & Ht & Hf).
  rewrite Heq. cbn [rbind]. pose proof (while_tset sid _ _ _ _ He Hj Heq) as Hj1. destruct r; [intros [= <-]; auto|].
  destruct (activate_all e1) as [[r2 e2]| |] eqn:E2; cbn [rbind]; [|done|done].
  destruct (loop_tset sid _ _ _ _ _ He1 Hj1 E2) as (He2 & Hj2 & C2). destruct r2; [by apply IH|]. intros [= <-]. auto.
Qed.
Lemma match_book_tset sid e e' : eng_ok sid e -> tset sid e -> match_book e = Ok e' -> tset sid e' /\ (tcur e' \/ aon_cross sid e').
Proof. apply match_loop_tset. Qed.
