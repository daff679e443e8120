(** * Refine2.v -- stop activation and crossed pairs as elementary actions. *)
From Coq Require Import ZifyBool.
From stdpp Require Import fin_maps relations.
From Verif Require Import Types Book Engine LevelFacts BookInv EngInv EngPrim Steps StepsOk Refine1.

(** ** What executions on collection [k] leave alone *)
Record keeps (k : kind) (e e' : eng) : Prop := {
  kp_sides : forall k', k' <> k -> get_side k' (e_bk e') = get_side k' (e_bk e);
  kp_queue : forall p, queue (e_bk e') k p <> [] -> queue (e_bk e) k p <> [];
  kp_in : forall p i, i ∈ queue (e_bk e') k p -> i ∈ queue (e_bk e) k p;
  kp_ords : forall j x, okind x <> k -> (e_ords e !! j = Some x <-> e_ords e' !! j = Some x);
  kp_trail : b_trail_bid (e_bk e') = b_trail_bid (e_bk e) /\ b_trail_ask (e_bk e') = b_trail_ask (e_bk e);
}.
Lemma keeps_refl k e : keeps k e e.
Proof. constructor; done. Qed.
Lemma keeps_trans k a b c : keeps k a b -> keeps k b c -> keeps k a c.
Proof.
  intros [A1 A2 A3 A4 [A5 A6]] [B1 B2 B3 B4 [B5 B6]]. constructor; eauto.
  - intros k' Hk. by rewrite B1, A1.
  - intros j x Hx. by rewrite (A4 j x Hx), (B4 j x Hx).
  - split; congruence.
Qed.
Lemma after_exec_trail s p b : b_trail_bid (after_exec s p b) = b_trail_bid b /\ b_trail_ask (after_exec s p b) = b_trail_ask b.
Proof. by destruct s. Qed.
Lemma bprices_trail s p b b' : bprices b' = bprices (after_exec s p b) ->
  b_trail_bid b' = b_trail_bid b /\ b_trail_ask b' = b_trail_ask b.
Proof.
  intros H. destruct (after_exec_trail s p b) as [<- <-].
  pose proof (f_equal (fun t => snd (fst t)) H) as H1. pose proof (f_equal snd H) as H2. done.
Qed.
Lemma exec_reduce_keeps sid e r price q e1 : eng_ok sid e -> e_ords e !! o_id r = Some r -> o_sym r = sid ->
  0 < q <= o_leaves r -> exec_reduce r price q e = Ok e1 -> keeps (okind r) e e1.
Proof.
  intros He Hr Hs Hq Hex.
  destruct (exec_reduce_ok sid e r price q He Hr Hs Hq) as (u & e1' & Heq & Hok & Hords & _ & Hpb & Hpr).
  rewrite Hex in Heq. injection Heq as <-.
  assert (Hsub : forall p i, i ∈ queue (e_bk e1) (okind r) p -> i ∈ queue (e_bk e) (okind r) p).
  { intros p i. rewrite (pr_queue _ _ _ _ _ _ _ Hpr). destruct (Z.eqb_spec p (okey r)) as [->|]; [|done].
    destruct (q =? o_leaves r); [|done]. intros Hi. by apply elem_of_list_filter in Hi as [_ ?]. }
  constructor.
  - intros k' Hk. apply (pr_sides _ _ _ _ _ _ _ Hpr k' Hk).
  - intros p Hne Hnil. destruct (queue (e_bk e1) (okind r) p) as [|i l] eqn:E; [done|].
    specialize (Hsub p i). rewrite E, Hnil in Hsub. specialize (Hsub ltac:(left)). by apply elem_of_nil in Hsub.
  - done.
  - intros j x Hx. rewrite Hords. destruct (decide (j = o_id r)) as [->|Hne].
    + rewrite Hr. unfold reduced_map. cbn. destruct (_ =? 0).
      * rewrite lookup_delete. split; [|done]. intros [= ->]. done.
      * rewrite lookup_insert. split; intros [= <-]; done.
    + by rewrite reduced_ne.
  - by eapply bprices_trail.
Qed.
Lemma exec_delete_keeps sid e r price q e1 : eng_ok sid e -> e_ords e !! o_id r = Some r -> o_sym r = sid ->
  exec_delete r price q e = Ok e1 -> keeps (okind r) e e1.
Proof.
  intros He Hr Hs Hex.
  destruct (exec_delete_ok sid e r price q He Hr Hs) as (u & e1' & Heq & Hok & Hords & _ & Hpb & Hpr).
  rewrite Hex in Heq. injection Heq as <-.
  assert (Hsub : forall p i, i ∈ queue (e_bk e1) (okind r) p -> i ∈ queue (e_bk e) (okind r) p).
  { intros p i. rewrite (pr_queue _ _ _ _ _ _ _ Hpr). destruct (Z.eqb_spec p (okey r)) as [->|]; [|done].
    intros Hi. by apply elem_of_list_filter in Hi as [_ ?]. }
  constructor.
  - intros k' Hk. apply (pr_sides _ _ _ _ _ _ _ Hpr k' Hk).
  - intros p Hne Hnil. destruct (queue (e_bk e1) (okind r) p) as [|i l] eqn:E; [done|].
    specialize (Hsub p i). rewrite E, Hnil in Hsub. specialize (Hsub ltac:(left)). by apply elem_of_nil in Hsub.
  - done.
  - intros j x Hx. rewrite Hords. destruct (decide (j = o_id r)) as [->|Hne].
    + rewrite Hr, lookup_delete. split; [|done]. intros [= ->]. done.
    + by rewrite lookup_delete_ne.
  - by eapply bprices_trail.
Qed.
Lemma exec_note_keeps k o p q e : keeps k e (exec_note o p q e).
Proof.
  assert (Hs : same_sides (e_bk e) (e_bk (exec_note o p q e))).
  { cbn. eapply same_sides_trans; [apply same_sides_last|apply same_sides_matching]. }
  constructor; try done.
  - intros k' _. apply Hs.
  - intros p'. by rewrite (same_sides_queue _ _ _ _ Hs).
  - intros p' i. by rewrite (same_sides_queue _ _ _ _ Hs).
  - cbn. by destruct (o_side o).
Qed.
Lemma cxstep_keeps sid t k price v e v' e' : eng_ok sid e -> cxstep t k price (v, e) (v', e') -> keeps k e e'.
Proof.
  intros He Hst. inversion Hst as [? ? p r ? Hv0 Hf Ha Ht Hex|? ? p r ? Hv0 Hf Ha Ht Hex]; subst;
    destruct (front_facts sid e k p r He Hf) as (Hs & Hk & _ & Hl & Hr); pose proof (lo_leaves _ _ Hl);
    rewrite <- Hk.
  - by eapply exec_delete_keeps.
  - eapply (exec_reduce_keeps sid _ _ _ (Z.min (o_leaves r) v)); try done; lia.
Qed.
Lemma cxsteps_keeps sid t k price c c' : rtc (cxstep t k price) c c' -> eng_ok sid (snd c) -> fst c < TWO64 ->
  keeps k (snd c) (snd c').
Proof.
  induction 1 as [c|[v e] [v1 e1] c' Hst _ IH]; intros He Hv; [apply keeps_refl|]. cbn in *.
  destruct (cxstep_ok _ _ _ _ _ _ _ _ Hst He Hv) as (He1 & _ & Hv1).
  eapply keeps_trans; [by eapply cxstep_keeps|]. apply IH; [done|lia].
Qed.
Lemma fly_lt sid e o : eng_ok sid e -> fly_ok sid (e_ords e) o -> o_leaves o < TWO64.
Proof. intros He Hf. pose proof (total_ge0 _ _ He). destruct Hf. lia. Qed.
Lemma tstep_keeps sid e o e' o' : eng_ok sid e -> fly_ok sid (e_ords e) o -> tstep (e, o) (e', o') ->
  keeps (opp (o_side o)) e e'.
Proof.
  intros He Hfl Hst. inversion Hst as [? ? p r e1 q Hf Harb Hfok Haon Hlv Hra Hex|? ? e1 Hfa Hlv Hch]; subst.
  - destruct (front_facts sid e _ p r He Hf) as (Hs & Hk & _ & Hl & Hr). pose proof (lo_leaves _ _ Hl).
    eapply keeps_trans; [|apply exec_note_keeps]. rewrite <- Hk. eapply (exec_reduce_keeps sid _ _ _ q); try done. unfold q. lia.
  - eapply keeps_trans; [|apply exec_note_keeps].
    eapply (cxsteps_keeps sid _ _ _ (_, _) (_, _)); [exact Hch|done|]. cbn. by eapply fly_lt.
Qed.
Lemma tsteps_keeps sid c c' : rtc tstep c c' -> eng_ok sid (fst c) -> fly_ok sid (e_ords (fst c)) (snd c) ->
  keeps (opp (o_side (snd c))) (fst c) (fst c').
Proof.
  induction 1 as [c|[e o] [e1 o1] c' Hst _ IH]; intros He Hf; [apply keeps_refl|]. cbn in *.
  destruct (tstep_ok _ _ _ _ _ Hst He Hf) as (He1 & Hf1 & _).
  eapply keeps_trans; [by eapply tstep_keeps|].
  pose proof (tstep_kind _ _ _ _ Hst) as (_ & _ & _ & Hsd & _). rewrite <- Hsd. by apply IH.
Qed.

(** ** Activation of one stop order *)
Definition others_kept (i : Z) (e e' : eng) : Prop :=
  forall j x, j <> i -> stop_type x = true -> e_ords e !! j = Some x -> e_ords e' !! j = Some x.
Definition opp_shrinks (s : oside) (e e' : eng) : Prop :=
  forall p, queue (e_bk e') (opp s) p <> [] -> queue (e_bk e) (opp s) p <> [].
Lemma stop_okind x s : stop_type x = true -> okind x <> opp s.
Proof. unfold stop_type, is_limit, is_market, okind, opp. destruct (o_type x), (o_side x), s; cbn; done. Qed.
Lemma stop_kind_ne x s : stop_type x = true -> opp s <> okind x.
Proof. intros H E. symmetry in E. revert E. by apply stop_okind. Qed.

Section steps.
Context {F W : Prop}.
Local Notation mstep := (mstep F W).
Lemma take_facts sid e o e1 : eng_ok sid e -> e_ords e !! o_id o = Some o -> o_sym o = sid ->
  stop_type o = true -> stop_reached o (e_bk e) -> eng_sub_delete o e = Ok e1 ->
  let e2 := emit (EUpdateOrder (converted o)) (drop_id (o_id o) e1) in
  mstep (e, None) (e2, Some (converted o)) /\ eng_ok sid e2 /\ fly_ok sid (e_ords e2) (converted o) /\
  others_kept (o_id o) e e2 /\ opp_shrinks (o_side o) e e2 /\ (nstops (e_ords e2) < nstops (e_ords e))%nat /\
  e_ords e2 !! o_id o = None /\ (forall s, get_side (opp s) (e_bk e2) = get_side (opp s) (e_bk e)).
Proof.
  intros He Ho Hs Hty Hre Hdel e2.
  assert (Hm : mstep (e, None) (e2, Some (converted o))).
  { apply ms_take; try done. rewrite Hs. symmetry. eapply bk_id, He. }
  pose proof (mstep_ok sid _ _ Hm (conj He I)) as [[Hok Hfl] _ _ _]. cbn in Hok, Hfl.
  destruct (eng_del_ok sid e o He Ho Hs) as (u & e1' & Heq' & Hords & _ & _ & _ & Hpr).
  rewrite Hdel in Heq'. injection Heq' as <-.
  assert (Hsd : forall s, get_side (opp s) (e_bk e2) = get_side (opp s) (e_bk e)).
  { intros s. cbn. apply (pr_sides _ _ _ _ _ _ _ Hpr). by apply stop_kind_ne. }
  split; [done|]. split; [done|]. split; [done|]. split; [|split; [|split; [|split]]].
  - intros j x Hj _ Hx. cbn. rewrite Hords, lookup_delete_ne by done. done.
  - intros p. unfold queue. by rewrite Hsd.
  - cbn. rewrite Hords, (nstops_delete _ _ _ Ho). unfold stop_type in Hty. destruct (is_limit o); [done|]. lia.
  - cbn. rewrite Hords. apply lookup_delete.
  - done.
Qed.
Lemma others_kept_keeps i s e e' : keeps (opp s) e e' -> others_kept i e e'.
Proof. intros Hk j x _ Hx Hj. apply (kp_ords _ _ _ Hk); [by apply stop_okind|done]. Qed.
Lemma others_kept_trans i a b c : others_kept i a b -> others_kept i b c -> others_kept i a c.
Proof. intros H1 H2 j x Hj Hx Ha. eauto. Qed.
Lemma opp_shrinks_trans s a b c : opp_shrinks s a b -> opp_shrinks s b c -> opp_shrinks s a c.
Proof. unfold opp_shrinks. eauto. Qed.
Lemma converted_side o : o_side (converted o) = o_side o.
Proof. unfold converted. by destruct (o_type o). Qed.
Lemma converted_leaves o : o_leaves (converted o) = o_leaves o.
Proof. unfold converted. by destruct (o_type o). Qed.
Lemma converted_id o : o_id (converted o) = o_id o.
Proof. unfold converted. by destruct (o_type o). Qed.

(** market orders only trade *)
Lemma match_market_keeps sid e o : eng_ok sid e -> fly_ok sid (e_ords e) o -> 0 < o_leaves o -> o_type o = MARKET -> announced e o ->
  exists o' e', match_market o e = Ok (o', e') /\ rtc mstep (e, Some o) (e', Some o') /\ o_type o' = MARKET /\
    o_id o' = o_id o /\ keeps (opp (o_side o)) e e' /\ eng_ok sid e' /\ fly_ok sid (e_ords e') o' /\
    shrinks sid (e_ords e) (e_ords e').
Proof.
  intros He Hfl Hlv Ht Han. unfold match_market.
  destruct (best (opp (o_side o)) e) as [p|] eqn:Hb.
  2: { exists o, e. split; [done|]. split; [apply rtc_refl|]. split; [done|]. split; [done|]. split; [apply keeps_refl|].
       split; [done|]. split; [done|]. apply shrinks_refl. }
  assert (Hm : mstep (e, Some o) (e, Some (set_price (market_price o p) o))) by (by eapply ms_mprice).
  pose proof (mstep_ok sid _ _ Hm (conj He Hfl)) as [[_ Hfl'] _ _ _]. cbn in Hfl'.
  destruct (match_order_ok sid e (set_price (market_price o p) o) He Hfl' Hlv) as (o' & e' & Heq & Hrtc & _).
  exists o', e'. split; [done|]. pose proof (tsteps_kind _ _ Hrtc) as (Ei & _ & Et & _). cbn in Ei, Et.
  destruct (tsteps_ok sid _ _ Hrtc He Hfl') as (He' & Hf' & Hsh).
  pose proof (tsteps_keeps sid _ _ Hrtc He Hfl') as Hk. cbn in *.
  split; [|split; [congruence|split; [congruence|done]]].
  eapply rtc_l; [done|]. exact (tsteps_msteps _ _ Hrtc (tradable_market W e o p Ht Hb)).
Qed.

Definition activated (sid : Z) (o : order) (e e' : eng) : Prop :=
  rtc mstep (e, None) (e', None) /\ eng_ok sid e' /\ others_kept (o_id o) e e' /\
  opp_shrinks (o_side o) e e' /\ (nstops (e_ords e') < nstops (e_ords e))%nat /\
  (size (e_ords e') <= size (e_ords e))%nat.
Lemma activate_stop_ok sid e o : eng_ok sid e -> e_ords e !! o_id o = Some o -> o_sym o = sid ->
  o_type o = STOP \/ o_type o = TRAILING_STOP -> stop_reached o (e_bk e) ->
  exists e', activate_stop o e = Ok e' /\ activated sid o e e'.
Proof.
  intros He Ho Hs Hty Hre.
  assert (Hst : stop_type o = true). { unfold stop_type, is_limit, is_market. by destruct Hty as [-> | ->]. }
  assert (Hc : converted o = to_market o). { unfold converted. by destruct Hty as [-> | ->]. }
  destruct (eng_del_ok sid e o He Ho Hs) as (u & e1 & Hdel & _).
  destruct (take_facts sid e o e1 He Ho Hs Hst Hre Hdel) as (Hm & He2 & Hf2 & Hok2 & Hop2 & Hn2 & _ & _).
  unfold activate_stop. rewrite Hdel. cbn [rbind]. rewrite <- Hc.
  set (e2 := emit (EUpdateOrder (converted o)) (drop_id (o_id o) e1)) in *.
  pose proof (lo_leaves _ _ (mo_live _ (proj1 He) _ _ Ho)) as Hlv.
  destruct (match_market_keeps sid e2 (converted o) He2 Hf2) as (o' & e' & Heq & Hrtc & Ht' & Hi' & Hk & He' & Hf' & Hsh).
  { by rewrite converted_leaves. } { by rewrite Hc. } { eexists. by right. }
  rewrite Heq. cbn [rbind]. eexists. split; [done|].
  assert (Hall : rtc mstep (e, None) (emit (EDeleteOrder o') e', None)).
  { eapply rtc_l; [done|]. eapply rtc_r; [done|]. apply ms_done. right; by left. }
  pose proof (msteps_ok sid _ _ Hall (conj He I)) as [[Hok _] _ Hsz _].
  rewrite converted_side in Hk.
  split; [done|]. split; [done|]. split; [|split; [|split]].
  - eapply others_kept_trans; [exact Hok2|]. exact (others_kept_keeps (o_id o) (o_side o) e2 e' Hk).
  - eapply opp_shrinks_trans; [exact Hop2|]. intros p. apply (kp_queue _ _ _ Hk).
  - cbn. destruct Hsh. lia.
  - cbn in *. lia.
Qed.
Lemma opp_of_buy s : opp s = match s with BUY => KAsk | SELL => KBid end.
Proof. done. Qed.
Lemma okind_limit_ne o : o_type o = LIMIT -> okind o <> opp (o_side o).
Proof. unfold okind, opp. intros ->. by destruct (o_side o). Qed.
Lemma activate_stop_limit_ok sid e o : eng_ok sid e -> e_ords e !! o_id o = Some o -> o_sym o = sid ->
  o_type o = STOP_LIMIT \/ o_type o = TRAILING_STOP_LIMIT -> stop_reached o (e_bk e) ->
  exists e', activate_stop_limit o e = Ok e' /\ activated sid o e e'.
Proof.
  intros He Ho Hs Hty Hre.
  assert (Hst : stop_type o = true). { unfold stop_type, is_limit, is_market. by destruct Hty as [-> | ->]. }
  assert (Hc : converted o = to_limit o). { unfold converted. by destruct Hty as [-> | ->]. }
  destruct (eng_del_ok sid e o He Ho Hs) as (u & e1 & Hdel & _).
  destruct (take_facts sid e o e1 He Ho Hs Hst Hre Hdel) as (Hm & He2 & Hf2 & Hok2 & Hop2 & Hn2 & Hfr & _).
  unfold activate_stop_limit. rewrite Hdel. cbn [rbind]. rewrite <- Hc.
  set (e2 := emit (EUpdateOrder (converted o)) (drop_id (o_id o) e1)) in *.
  pose proof (lo_leaves _ _ (mo_live _ (proj1 He) _ _ Ho)) as Hlv.
  destruct (match_order_ok sid e2 (converted o) He2 Hf2) as (o' & e' & Heq & Hrtc & Hse & _).
  { by rewrite converted_leaves. }
  pose proof (tsteps_kind _ _ Hrtc) as (Ei & _ & Et & Esd & _ & _ & _ & Etif & _). cbn in Ei, Et, Esd, Etif.
  destruct (tsteps_ok sid _ _ Hrtc He2 Hf2) as (He' & Hf' & Hsh). cbn in He', Hf', Hsh.
  pose proof (tsteps_keeps sid _ _ Hrtc He2 Hf2) as Hk. cbn in Hk. rewrite converted_side in Hk.
  apply (tsteps_msteps (F := F) (W := W)) in Hrtc; [|apply tradable_limit; cbn; by rewrite Hc]. cbn in Hrtc.
  assert (Htl : o_type o' = LIMIT). { rewrite Et, Hc. done. }
  rewrite Heq. cbn [rbind].
  assert (Hfr' : e_ords e' !! o_id o' = None).
  { rewrite Ei, converted_id. apply (sh_dom _ _ _ Hsh). done. }
  destruct ((0 <? o_leaves o') && negb (immediate o')) eqn:Ec.
  - apply andb_true_iff in Ec as [El Ei']. apply negb_true_iff in Ei'.
    eexists. split; [done|].
    assert (Hrest : mstep (e', Some o') (eng_add o' (put o' e'), None)).
    { apply ms_rest; try done; [lia|congruence|]. intros _ Hna. right. apply Hse.
      - unfold immediate in Ei'. apply orb_false_iff in Ei' as [_ Hfk]. unfold is_fok in *. by rewrite <- Etif.
      - unfold is_aon in *. by rewrite <- Etif. }
    assert (Hall : rtc mstep (e, None) (eng_add o' (put o' e'), None)).
    { eapply rtc_l; [done|]. eapply rtc_r; [done|done]. }
    pose proof (msteps_ok sid _ _ Hall (conj He I)) as [[Hok _] _ Hsz _]. cbn in Hok, Hsz.
    destruct (eng_add_ok sid e' o' He' Hfr') as (u2 & e3 & Heq3 & Hok3 & Hords3 & _ & _ & Hpr3).
    { eapply fly_live; try done; [lia|congruence]. } { apply Hf'. } { apply Hf'. }
    rewrite Heq3 in *.
    split; [done|]. split; [done|]. split; [|split; [|split]].
    + eapply others_kept_trans; [done|]. eapply others_kept_trans; [by eapply (others_kept_keeps _ (o_side o))|].
      intros j x Hj _ Hx. rewrite Hords3, lookup_insert_ne; [done|]. rewrite Ei, converted_id. done.
    + eapply opp_shrinks_trans; [done|]. intros p Hq. apply (kp_queue _ _ _ Hk).
      unfold queue in *. rewrite <- (pr_sides _ _ _ _ _ _ _ Hpr3 (opp (o_side o))); [done|].
      intros E. apply (okind_limit_ne o' Htl). rewrite Esd, converted_side. done.
    + rewrite Hords3, nstops_insert by done. unfold is_limit. rewrite bool_decide_eq_true_2 by done.
      destruct Hsh. unfold e2 in Hn2. cbn in *. lia.
    + lia.
  - eexists. split; [done|].
    assert (Hdone : mstep (e', Some o') (emit (EDeleteOrder o') e', None)).
    { apply ms_done. apply andb_false_iff in Ec as [Ec|Ec].
      - left. destruct Hf'. lia.
      - right; right; left. split; [done|]. by apply negb_false_iff in Ec. }
    assert (Hall : rtc mstep (e, None) (emit (EDeleteOrder o') e', None)).
    { eapply rtc_l; [done|]. eapply rtc_r; [done|done]. }
    pose proof (msteps_ok sid _ _ Hall (conj He I)) as [[Hok _] _ Hsz _]. cbn in Hok, Hsz.
    split; [done|]. split; [done|]. split; [|split; [|split]].
    + eapply others_kept_trans; [exact Hok2|]. exact (others_kept_keeps (o_id o) (o_side o) e2 e' Hk).
    + eapply opp_shrinks_trans; [exact Hop2|]. intros p. apply (kp_queue _ _ _ Hk).
    + destruct Hsh. unfold e2 in Hn2. cbn in *. lia.
    + cbn. lia.
Qed.

(** ** Activation of a level *)
(** The side of the orders in a stop collection. *)
Definition stop_side (k : kind) : option oside :=
  match k with KBuyStop | KTrailBuy => Some BUY | KSellStop | KTrailSell => Some SELL | _ => None end.
Lemma okind_stop_side x k s : okind x = k -> stop_side k = Some s -> o_type x <> MARKET ->
  stop_type x = true /\ o_side x = s /\ okey x = o_stop x.
Proof.
  unfold okind, stop_type, is_limit, is_market, okey. intros <-.
  destruct (o_type x), (o_side x); cbn; intros [= <-]; done.
Qed.
(** The opposite quotes do not beat [p]. *)
Definition reached (s : oside) (p : Z) (b : book) : Prop :=
  match s with
  | BUY => forall q, queue b KAsk q <> [] -> p <= q
  | SELL => forall q, queue b KBid q <> [] -> q <= p
  end.
Lemma reached_shrinks s p e e' : opp_shrinks s e e' -> reached s p (e_bk e) -> reached s p (e_bk e').
Proof. unfold opp_shrinks, reached. destruct s; cbn; intros H1 H2 q Hq; apply H2, H1, Hq. Qed.

Lemma activate_ids_ok sid s p : forall ids r0 e, eng_ok sid e -> NoDup ids -> reached s p (e_bk e) ->
  (forall i, i ∈ ids -> exists o, e_ords e !! i = Some o /\ o_sym o = sid /\ stop_type o = true /\ o_side o = s /\ o_stop o = p) ->
  exists r e', activate_ids ids r0 e = Ok (r, e') /\ rtc mstep (e, None) (e', None) /\
    (ids = [] -> r = r0 /\ e' = e) /\ (ids <> [] -> r = true /\ (nstops (e_ords e') < nstops (e_ords e))%nat).
Proof.
  induction ids as [|i ids IH]; intros r0 e He Hnd Hre Hin.
  { exists r0, e. split; [done|]. split; [apply rtc_refl|]. done. }
  apply NoDup_cons in Hnd as [Hni Hnd].
  destruct (Hin i) as (o & Ho & Hs & Hst & Hsd & Hp); [left|].
  pose proof (lo_id _ _ (mo_live _ (proj1 He) _ _ Ho)) as Hid.
  assert (Ho' : e_ords e !! o_id o = Some o) by by rewrite Hid.
  assert (Hsr : stop_reached o (e_bk e)).
  { unfold stop_reached. rewrite Hsd, Hp. unfold reached in Hre. by destruct s. }
  cbn [activate_ids]. rewrite Ho. cbn [of_opt rbind].
  assert (Hact : exists e1, (match o_type o with
      | STOP | TRAILING_STOP => do e <- activate_stop o e; activate_ids ids true e
      | STOP_LIMIT | TRAILING_STOP_LIMIT => do e <- activate_stop_limit o e; activate_ids ids true e
      | MARKET | LIMIT => activate_ids ids r0 e end) = activate_ids ids true e1 /\ activated sid o e e1).
  { unfold stop_type, is_limit, is_market in Hst. destruct (o_type o) eqn:Et; cbn in Hst; try done.
    1,3: destruct (activate_stop_ok sid e o He Ho' Hs) as (e1 & Heq & Ha); [auto|done|]; exists e1; by rewrite Heq.
    1,2: destruct (activate_stop_limit_ok sid e o He Ho' Hs) as (e1 & Heq & Ha); [auto|done|]; exists e1; by rewrite Heq. }
  destruct Hact as (e1 & -> & Hrtc & He1 & Hoth & Hopp & Hn & Hsz).
  destruct (IH true e1 He1 Hnd) as (r & e' & Heq & Hrtc' & H0 & H1).
  { rewrite Hsd in Hopp. by eapply reached_shrinks. }
  { intros j Hj. destruct (Hin j) as (x & Hx & ? & Hxs & ? & ?); [by right|]. exists x.
    split; [|done]. apply (Hoth j x); [|done|done]. rewrite Hid. intros ->. done. }
  exists r, e'. split; [done|]. split; [by etrans|]. split; [done|]. intros _.
  destruct ids as [|j ids].
  - destruct (H0 eq_refl) as [-> ->]. split; [done|]. lia.
  - destruct (H1 ltac:(done)) as [-> Hn']. split; [done|]. lia.
Qed.

(** Not triggered with respect to a market price. *)
Definition quiet (k : kind) (market : Z) (e : eng) : Prop :=
  forall p, best k e = Some p -> arb k p market = false.
Lemma activate_level_ok sid k s market e : eng_ok sid e -> stop_side k = Some s -> reached s market (e_bk e) ->
  exists r e', activate_level k market e = Ok (r, e') /\ rtc mstep (e, None) (e', None) /\
    (r = false -> e' = e /\ quiet k market e) /\ (r = true -> (nstops (e_ords e') < nstops (e_ords e))%nat).
Proof.
  intros He Hk Hre. unfold activate_level.
  destruct (best k e) as [p|] eqn:Hb.
  2: { exists false, e. split; [done|]. split; [apply rtc_refl|]. split; [|done]. intros _. split; [done|].
       intros p Hp. congruence. }
  destruct (best_some _ _ _ _ _ (proj2 He) Hb) as [Hne _].
  unfold lvls. rewrite (book_view _ _ _ k p (proj2 He)), lvl_at_ne by done. cbn [of_opt rbind l_ids].
  destruct (arb k p market) eqn:Ha; cbn [negb].
  2: { exists false, e. split; [done|]. split; [apply rtc_refl|]. split; [|done]. intros _. split; [done|].
       intros p' Hp. congruence. }
  destruct (activate_ids_ok sid s p (queue (e_bk e) k p) false e He) as (r & e' & Heq & Hrtc & _ & H1).
  { eapply queue_nodup, He. }
  { unfold arb in Ha. unfold reached in *. destruct k; cbn in Hk, Ha; try done; injection Hk as <-;
      intros q Hq; specialize (Hre q Hq); lia. }
  { intros i Hi. destruct (queue_facts sid e k p i He Hi) as (o & Ho & _ & Hs & Hok & Hkey & Hl).
    destruct (okind_stop_side o k s Hok Hk (lo_type _ _ Hl)) as (? & ? & ?).
    exists o. repeat split; try done. congruence. }
  exists r, e'. split; [done|]. split; [done|]. destruct (H1 Hne) as [-> ?]. done.
Qed.

Lemma market_ask_reached sid e : eng_ok sid e -> reached BUY (market_ask (e_bk e)) (e_bk e).
Proof.
  intros He q Hq. unfold market_ask, best_ask_price.
  destruct (best_exists _ _ _ KAsk q (proj2 He) Hq) as (p & Hp & Hc). cbn in Hp. rewrite Hp.
  unfold better in Hc; cbn in Hc. lia.
Qed.
Lemma market_bid_reached sid e : eng_ok sid e -> reached SELL (market_bid (e_bk e)) (e_bk e).
Proof.
  intros He q Hq. unfold market_bid, best_bid_price.
  destruct (best_exists _ _ _ KBid q (proj2 He) Hq) as (p & Hp & Hc). cbn in Hp. rewrite Hp.
  unfold better in Hc; cbn in Hc. lia.
Qed.
End steps.
