(** * PropsFeed.v -- the market manager driven by an order-by-order feed: C54. *)
From Coq Require Import ZifyBool Sorting.Sorted.
From stdpp Require Import fin_maps relations.
From Verif Require Import Types Book Engine Manager Factory Validate LevelFacts BookInv EngInv EngPrim Steps StepsOk Api StateInv Micro Reach Calls Witness PropsState PropsSettle CallFacts PropsBasic PropsDirect PropsReject PropsFills Feed Fast PropsFast Spec Spec2 Spec3 Spec5 Spec10.

(** ** C26: ReplaceOrder(id, new id, price, quantity) with matching off *)
Theorem C26_replace_direct s i ni p q s' er evs o : reach s -> op_ok s (ReplaceOrder i ni p q) -> st_match s = false -> call s (ReplaceOrder i ni p q) s' er evs ->
  get_order i s = Some o -> o_type o = LIMIT -> q <> 0 -> ni <> 0 -> ni = i \/ get_order ni s = None ->
  er = OK /\ get_order ni s' = Some (replacement ni p q o) /\ (forall j, j <> i -> j <> ni -> get_order j s' = get_order j s) /\ (ni <> i -> get_order i s' = None) /\
  forall m, match get_book m s, get_book m s' with
  | Some b, Some b' => forall k' p', queue b' k' p' =
      filter (fun j => j <> i) (queue b k' p') ++ (if decide (m = o_sym o /\ k' = side_kind (o_side o) /\ p' = p) then [ni] else [])
  | None, None => True
  | _, _ => False
  end.
Proof.
  intros Hr Hop Hm Hc Ho Hty Hq Hn0 Hni. pose proof (reach_inv _ Hr) as Hinv0.
  destruct (off_call _ _ _ _ _ Hr Hop eq_refl Hc Hm) as (sid & b & hevs & c & evs2 & Hinv & Hinv' & Hb & Htg & Hh & Hcf & Hoff & ->).
  { cbn [refusal]. rewrite decide_False by (intros [-> | ->]; [by cbn in Ho|done]). rewrite decide_False by done. rewrite Ho. by rewrite decide_True. }
  rewrite get_order_inv in Ho by done. rewrite (get_order_inv s ni Hinv0) in Hni.
  assert (Hoth : forall j, j <> i -> j <> ni -> get_order j s' = get_order j s). { intros j Hj Hj2. rewrite !get_order_inv by done. eapply off_others; [done|done|cbn; congruence|cbn; congruence]. }
  inversion Hh as [| |mit i' p0 q0 o0 u e' o' evs' Q' Ho' Hid Hsym Hq' He' Hords Hlog Hpr Hp Ea|i' ni' p0 q0 o0 u e' o' Q' evs' Ho' Hid Hsym Hq' Hni' Hty' He' Hords Hlog Hpr Hp| |a2 i' price q0 o0 u e' q1 o' Q' evs' Ha]; subst;
    [by destruct mit| |by destruct Ha as [[? _]|?]].
  cbn in Ho'. assert (o0 = o) as -> by congruence.
  assert (Hso : o_type o' = LIMIT /\ o_id o' = ni /\ o_side o' = o_side o /\ o_price o' = p /\ o_tif o' = o_tif o /\ o_leaves o' = q) by (by repeat split). destruct Hso as (T1 & T2 & T3 & T4 & T5 & T6).
  pose proof (mo_live _ (iv_map _ Hinv) _ _ Ho) as Hl.
  assert (Hfree : e_ords e' !! ni = None). { rewrite Hords. cbn. destruct Hni as [->|Hni]; [apply lookup_delete|]. destruct (decide (o_id o = ni)) as [<-|]; [apply lookup_delete|by rewrite lookup_delete_ne]. }
  inversion Hoff as [e Hce|e o2 u2 e2 Hce Hf2 Hty2 Htif2 Hords2 Hlog2 Hpr2 Hp2|e o2 Hce Hv2|e o2 Hce Hex]; subst s' er evs2; try done; injection Hce as <- E2; rewrite <- E2 in *.
  - split; [done|]. destruct (limit_place o' T1) as [K1 K2]. rewrite T3 in K1. rewrite T4 in K2.
    split; [|split; [done|split]].
    + rewrite get_order_inv by done. cbn [put_eng st_ords]. assert (e_ords (reset_m e2) = e_ords e2) as -> by done. rewrite Hords2, T2, lookup_insert. by destruct o.
    + intros Hne. rewrite get_order_inv by done. cbn [put_eng st_ords]. assert (e_ords (reset_m e2) = e_ords e2) as -> by done. rewrite Hords2, T2, lookup_insert_ne, Hords by done. apply lookup_delete.
    + rewrite T2 in Hp2. rewrite <- K1, <- K2. refine (joined_put s (o_sym o) b (e_bk e') e2 ni o' _ _ (fun j => j <> o_id o) Hb _ _ Hp2).
      * intros k p1. eapply (taken_queue s (o_sym o) b); try done.
      * intros n bn k p1 Hne Hbn. apply filter_notin. by eapply (foreign_queue s n bn k p1 (o_id o) o).
  - exfalso. destruct Hv2 as [H|[H|[[_ H]|H]]]; [lia|congruence| |].
    + unfold immediate, is_ioc, is_fok in H. rewrite T5 in H. by destruct (lo_rest _ _ Hl Hty) as [E|E]; rewrite E in H.
    + apply H. by rewrite T2.
  - exfalso. apply Hex. by rewrite T2.
Qed.
Print Assumptions C26_replace_direct.

(** ** The orders of the manager are the live orders of the feed *)
Record FM (s : state) (B : list Z) (T : gmap Z live) : Prop := {
  fm_fresh : reach_if fresh_ids s;
  fm_off : st_match s = false;
  fm_books : forall sym, sym ∈ B -> get_book sym s <> None;
  fm_same : forall id, match get_order id s, T !! id with Some o, Some v => stands_for v o | None, None => True | _, _ => False end;
  fm_ids : forall id v, T !! id = Some v -> 0 < id < TWO64;
}.
Lemma fm_reach s B T : FM s B T -> reach s.
Proof. intros H. pose proof (fm_fresh _ _ _ H) as Hr. clear H. induction Hr as [|x a y er Hr IH Hop Hf Hs]; [constructor|by eapply (reach_step x a)]. Qed.
Lemma open_insert T i v : T !! i = None -> open_interest (<[i:=v]> T) = v_qty v + open_interest T.
Proof. intros H. unfold open_interest. rewrite map_fold_insert_L; [done| |done]. intros; lia. Qed.
Lemma open_delete T i v : T !! i = Some v -> open_interest T = v_qty v + open_interest (delete i T).
Proof. intros H. rewrite <- (open_insert (delete i T) i v) by apply lookup_delete. by rewrite insert_delete. Qed.
Lemma total_open (m : gmap Z order) : forall T : gmap Z live, (forall id, match m !! id, T !! id with Some o, Some v => o_leaves o = v_qty v | None, None => True | _, _ => False end) ->
  total m = open_interest T.
Proof.
  induction m as [|i o m Hi IH] using map_ind; intros T H.
  - assert (T = ∅) as ->; [|done]. apply map_eq. intros id. rewrite lookup_empty. specialize (H id). rewrite lookup_empty in H. by destruct (T !! id).
  - pose proof (H i) as H0. rewrite lookup_insert in H0. destruct (T !! i) as [v|] eqn:E; [|done]. rewrite total_insert by done. rewrite (open_delete T i v E), (IH (delete i T)); [lia|].
    intros id. destruct (decide (id = i)) as [->|Hne]; [by rewrite Hi, lookup_delete|]. specialize (H id). rewrite lookup_insert_ne in H by done. by rewrite lookup_delete_ne.
Qed.
Lemma fm_total s B T : FM s B T -> total (st_ords s) = open_interest T.
Proof.
  intros H. apply total_open. intros id. pose proof (fm_same _ _ _ H id) as E. rewrite get_order_inv in E by apply reach_inv, (fm_reach _ _ _ H).
  destruct (st_ords s !! id), (T !! id); try done. by destruct E as (_ & _ & _ & _ & _ & ?).
Qed.
Lemma fm_total_but s B T i : FM s B T -> total (delete i (st_ords s)) = open_interest (delete i T).
Proof.
  intros H. apply total_open. intros id. destruct (decide (id = i)) as [->|Hne]; [by rewrite !lookup_delete|]. rewrite !lookup_delete_ne by done.
  pose proof (fm_same _ _ _ H id) as E. rewrite get_order_inv in E by apply reach_inv, (fm_reach _ _ _ H).
  destruct (st_ords s !! id), (T !! id); try done. by destruct E as (_ & _ & _ & _ & _ & ?).
Qed.
Lemma fm_live s B T id v : FM s B T -> T !! id = Some v -> exists o, get_order id s = Some o /\ stands_for v o.
Proof. intros H Hv. pose proof (fm_same _ _ _ H id) as E. rewrite Hv in E. destruct (get_order id s) as [o|]; [|done]. by exists o. Qed.
Lemma fm_free s B T id : FM s B T -> T !! id = None -> get_order id s = None.
Proof. intros H Hv. pose proof (fm_same _ _ _ H id) as E. rewrite Hv in E. by destruct (get_order id s). Qed.

(** A call that is not about the registry keeps the books. *)
Lemma order_books s a s' er evs : reach s -> op_ok s a -> call s a s' er evs -> order_call a = true -> forall i, get_book i s <> None -> get_book i s' <> None.
Proof.
  intros Hr Hop Hc Ho i Hi Hn. pose proof (C30_registry s a s' er evs Hr Hop Hc) as H. apply Hi. destruct a; try done; by apply (proj1 (proj2 H) i).
Qed.
(** One call about the order [id]. *)
Lemma fm_call s B T a (T' : gmap Z live) : FM s B T -> op_ok s a -> fresh_ids s a -> order_call a = true ->
  (forall s' er evs, call s a s' er evs -> (forall id, match get_order id s', T' !! id with Some o, Some v => stands_for v o | None, None => True | _, _ => False end)) ->
  (forall id v, T' !! id = Some v -> 0 < id < TWO64) -> exists s', run s [a] = Ok s' /\ FM s' B T'.
Proof.
  intros H Hop Hfr Ho Hs Hids. pose proof (fm_reach _ _ _ H) as Hr. destruct (call_exists s a (reach_inv _ Hr) Hop) as (s' & er & evs & Hc).
  exists s'. split; [cbn; by rewrite (proj1 Hc)|]. constructor.
  - eapply ri_step; [apply (fm_fresh _ _ _ H)|done|done|apply Hc].
  - rewrite (C51_switch s a s' er evs Hr Hop Hc). pose proof (fm_off _ _ _ H). by destruct a.
  - intros sym Hsym. eapply order_books; try done. by eapply fm_books.
  - by eapply Hs.
  - done.
Qed.
Lemma same_at s B T s' id (T' : gmap Z live) : FM s B T -> (forall j, j <> id -> get_order j s' = get_order j s) -> (forall j, j <> id -> T' !! j = T !! j) ->
  match get_order id s', T' !! id with Some o, Some v => stands_for v o | None, None => True | _, _ => False end ->
  forall j, match get_order j s', T' !! j with Some o, Some v => stands_for v o | None, None => True | _, _ => False end.
Proof. intros H H1 H2 H3 j. destruct (decide (j = id)) as [->|Hne]; [done|]. rewrite H1, H2 by done. apply (fm_same _ _ _ H). Qed.
Lemma settle_other id v T j : j <> id -> settle id v T !! j = T !! j.
Proof. intros Hj. unfold settle. case_decide; [by rewrite lookup_insert_ne|by rewrite lookup_delete_ne]. Qed.
Lemma settle_self id v T : settle id v T !! id = if decide (0 < v_qty v) then Some v else None.
Proof. unfold settle. case_decide; [by rewrite lookup_insert|by rewrite lookup_delete]. Qed.
Lemma settle_ids id v T : 0 < id < TWO64 -> (forall i w, T !! i = Some w -> 0 < i < TWO64) -> forall i w, settle id v T !! i = Some w -> 0 < i < TWO64.
Proof. intros Hid H i w Hw. destruct (decide (i = id)) as [->|Hne]; [done|]. rewrite settle_other in Hw by done. by eapply H. Qed.
Lemma lower_zero id v T : T !! id = Some v -> 0 < v_qty v -> settle id (lower 0 v) T = T.
Proof. intros Hv Hq. unfold settle, lower. cbn. rewrite Z.sub_0_r. rewrite decide_True by done. apply insert_id. rewrite Hv. by destruct v. Qed.
Lemma fm_pos s B T id v : FM s B T -> T !! id = Some v -> 0 < v_qty v.
Proof.
  intros H Hv. destruct (fm_live _ _ _ _ _ H Hv) as (o & Ho & (_ & _ & _ & _ & _ & <-)). pose proof (reach_inv _ (fm_reach _ _ _ H)) as Hinv.
  rewrite get_order_inv in Ho by done. apply (lo_leaves _ _ (mo_live _ (iv_map _ Hinv) _ _ Ho)).
Qed.

Lemma fm_take s B T a id v q : FM s B T -> T !! id = Some v -> 0 <= q <= v_qty v ->
  a = ReduceOrder id q \/ a = ExecuteOrder id q \/ (exists p, u64_range p /\ a = ExecuteOrderAt id p q) ->
  exists s', run s [a] = Ok s' /\ FM s' B (settle id (lower q v) T).
Proof.
  intros H Hv Hq Ha. pose proof (fm_ids _ _ _ H _ _ Hv) as Hid. destruct (fm_live _ _ _ _ _ H Hv) as (o & Ho & Hst). pose proof (fm_reach _ _ _ H) as Hr. pose proof (fm_off _ _ _ H) as Hoff.
  pose proof (reach_inv _ Hr) as Hinv. pose proof (fm_pos _ _ _ _ _ H Hv) as Hpos.
  assert (Hlv : o_leaves o = v_qty v) by apply Hst. assert (Hlt : o_leaves o < TWO64).
  { rewrite get_order_inv in Ho by done. pose proof (mo_total _ (iv_map _ Hinv)) as Ht. rewrite (total_delete _ _ _ Ho) in Ht.
    assert (0 <= total (delete id (st_ords s))); [|lia]. apply total_nonneg. intros i x Hx. apply lookup_delete_Some in Hx as [_ Hx]. pose proof (lo_leaves _ _ (mo_live _ (iv_map _ Hinv) _ _ Hx)). lia. }
  assert (Hop : op_ok s a). { destruct Ha as [->|[->|(p & Hp & ->)]]; cbn; unfold u64_range, MAX64 in *; cbn in *; unfold TWO64 in *; repeat split; lia. }
  assert (Hoc : order_call a = true) by (by destruct Ha as [->|[->|(p & Hp & ->)]]).
  assert (Hfi : fresh_ids s a) by (by destruct Ha as [->|[->|(p & Hp & ->)]]; intros ? ?).
  destruct (decide (q = 0)) as [->|Hq0].
  { rewrite (lower_zero id v T Hv Hpos). eapply fm_call; [done|done|done|done| |apply (fm_ids _ _ _ H)]. intros s' er evs Hc.
    assert (Hf : refusal s a = Some ORDER_QUANTITY_INVALID). { destruct Ha as [->|[->|(p & _ & ->)]]; cbn [refusal]; (rewrite decide_False by lia); by rewrite decide_True. }
    destruct (C46_refused s a s' er evs _ Hr Hop Hc Hf) as (_ & (_ & _ & Hsame & _) & _). intros j. rewrite (Hsame j). apply (fm_same _ _ _ H). }
  eapply fm_call; [done|done|done|done| |apply settle_ids; [done|apply (fm_ids _ _ _ H)]]. intros s' er evs Hc.
  assert (Hx : others_kept id s s' /\ exists o', get_order id s' = (if decide (Z.min q (o_leaves o) = o_leaves o) then None else Some o') /\ (Z.min q (o_leaves o) <> o_leaves o -> stands_for (lower q v) o')).
  { destruct Ha as [->|Ha].
    - destruct (C25_reduce s id q s' er evs o Hr Hop Hoff Hc Ho Hq0) as (_ & Ho1 & Ho2 & _). split; [done|]. eexists. split; [exact Ho2|]. intros Hn. unfold stands_for in *. cbn. rewrite Z.min_l by lia. destruct o. cbn in *. intuition congruence.
    - destruct (C37_execute s a id (match a with ExecuteOrderAt _ p _ => p | _ => o_price o end) q s' er evs o Hr Hop Hoff Hc) as (_ & _ & Ho1 & Ho2 & _); [|done|done|].
      { destruct Ha as [->|(p & _ & ->)]; [left|right]; done. }
      split; [done|]. eexists. split; [exact Ho2|]. intros Hn. unfold stands_for in *. cbn. rewrite Z.min_l by lia. destruct o. cbn in *. intuition congruence. }
  destruct Hx as (Ho1 & o' & Ho2 & Ho3). apply (same_at s B T s' id); [done|done|by intros; apply settle_other|].
  rewrite Ho2, settle_self. cbn [v_qty lower]. destruct (decide (Z.min q (o_leaves o) = o_leaves o)) as [Hd|Hd].
  - by rewrite decide_False by lia.
  - rewrite decide_True by lia. by apply Ho3.
Qed.
Lemma fm_add s B T id sym sd p q : FM s B T -> carries B T (FAdd id sym sd p q) -> exists s', run s [AddOrder (LimitOrder id sym sd p q GTC MAX64)] = Ok s' /\ FM s' B (track (FAdd id sym sd p q) T).
Proof.
  intros H ((Hfr & Hid & Hsym & Hp & Hq & Hcap) & Hid0 & HB & Htot). cbn [track]. set (o := LimitOrder id sym sd p q GTC MAX64).
  pose proof (open_insert T id (mkLive sym sd p q) Hfr) as _. assert (Hq2 : q < TWO64).
  { assert (0 <= open_interest T); [|lia]. rewrite <- (fm_total _ _ _ H). apply total_nonneg. intros i x Hx. pose proof (reach_inv _ (fm_reach _ _ _ H)) as Hinv. pose proof (lo_leaves _ _ (mo_live _ (iv_map _ Hinv) _ _ Hx)). lia. }
  assert (Hop : op_ok s (AddOrder o)). { split; [|rewrite (fm_total _ _ _ H); exact Htot]. unfold order_range, u64_range, i64_range, MAX64, TWO64, TWO63, TWO32 in *; cbn; repeat split; try lia; try done. }
  eapply fm_call; [done|done|intros i Hi; left; change (id = i) in Hi; subst i; by eapply fm_free|done| |].
  - intros s' er evs Hc. destruct (C32_add_limit s o s' er evs (fm_reach _ _ _ H) Hop (fm_off _ _ _ H) Hc) as (_ & H1 & H2 & _); [done| |by left|by apply (fm_books _ _ _ H)|by eapply fm_free|].
    { unfold validate. cbn. replace (id =? 0) with false by lia. replace (q <? q) with false by lia. replace (q =? 0) with false by lia. done. }
    apply (same_at s B T s' id); [done|done|by intros; rewrite lookup_insert_ne|]. change (o_id o) with id in H1. rewrite H1, lookup_insert. by repeat split.
  - intros i v Hv. apply lookup_insert_Some in Hv as [[<- _]|[_ Hv]]; [lia|by eapply fm_ids].
Qed.
Lemma fm_delete s B T id v : FM s B T -> T !! id = Some v -> exists s', run s [DeleteOrder id] = Ok s' /\ FM s' B (delete id T).
Proof.
  intros H Hv. pose proof (fm_ids _ _ _ H _ _ Hv) as Hid. destruct (fm_live _ _ _ _ _ H Hv) as (o & Ho & Hst).
  assert (Hop : op_ok s (DeleteOrder id)) by (cbn; unfold u64_range, MAX64, TWO64 in *; lia).
  eapply fm_call; [done|done|by intros ? ?|done| |].
  - intros s' er evs Hc. destruct (C37_delete s id s' er evs o (fm_reach _ _ _ H) Hop (fm_off _ _ _ H) Hc Ho) as (_ & H1 & H2 & _).
    apply (same_at s B T s' id); [done|done|by intros; rewrite lookup_delete_ne|]. by rewrite H1, lookup_delete.
  - intros i w Hw. apply lookup_delete_Some in Hw as [_ Hw]. by eapply fm_ids.
Qed.
Lemma open_nonneg T : (forall i v, T !! i = Some v -> 0 < v_qty v) -> 0 <= open_interest T.
Proof.
  induction T as [|i v T Hi IH] using map_ind; intros H; [done|]. rewrite open_insert by done. pose proof (H i v ltac:(by rewrite lookup_insert)).
  assert (0 <= open_interest T); [|lia]. apply IH. intros j w Hj. apply (H j). rewrite lookup_insert_ne; [done|]. congruence.
Qed.
Lemma open_but s B T i : FM s B T -> 0 <= open_interest (delete i T).
Proof. intros H. apply open_nonneg. intros j v Hv. apply lookup_delete_Some in Hv as [_ Hv]. by eapply fm_pos. Qed.
Lemma fm_modify s B T id p q : FM s B T -> carries B T (FModify id p q) -> exists s', run s [ModifyOrder id p q] = Ok s' /\ FM s' B (track (FModify id p q) T).
Proof.
  intros H ((v & Hv & Hp & Hf) & Hq & Htot). destruct Hf as [->|Hf]; [lia|]. cbn [track]. rewrite Hv.
  pose proof (fm_ids _ _ _ H _ _ Hv) as Hid. destruct (fm_live _ _ _ _ _ H Hv) as (o & Ho & Hst). pose proof (open_but _ _ _ id H) as Hnn.
  assert (Hop : op_ok s (ModifyOrder id p q)). { cbn. rewrite (fm_total_but _ _ _ id H). unfold u64_range, MAX64, TWO64 in *. lia. }
  eapply fm_call; [done|done|by intros ? ?|done| |apply settle_ids; [done|apply (fm_ids _ _ _ H)]]. intros s' er evs Hc.
  destruct (C25_modify_requeues s id p q s' er evs o (fm_reach _ _ _ H) Hop (fm_off _ _ _ H) Hc Ho) as (_ & H1 & _ & H2); [apply Hst|lia|].
  apply (same_at s B T s' id); [done|done|by intros; apply settle_other|]. rewrite H2, settle_self. cbn [v_qty]. rewrite decide_True by done.
  unfold stands_for in *. destruct o. cbn in *. intuition congruence.
Qed.
Lemma fm_replace s B T id nid p q : FM s B T -> carries B T (FReplace id nid p q) -> exists s', run s [ReplaceOrder id nid p q] = Ok s' /\ FM s' B (track (FReplace id nid p q) T).
Proof.
  intros H ((v & Hv & Hni & Hp & Hf) & Hn0 & Hq & Htot). destruct Hf as [->|Hf]; [lia|]. destruct Hf as (Hnid & _). cbn [track]. rewrite Hv.
  pose proof (fm_ids _ _ _ H _ _ Hv) as Hid. destruct (fm_live _ _ _ _ _ H Hv) as (o & Ho & Hst). pose proof (open_but _ _ _ id H) as Hnn.
  assert (Hop : op_ok s (ReplaceOrder id nid p q)). { cbn. rewrite (fm_total_but _ _ _ id H). unfold u64_range, MAX64, TWO64 in *. lia. }
  eapply fm_call; [done|done|intros i Hi; change (nid = i) in Hi; subst i; destruct Hni as [->|Hni]; [by right|left; by eapply fm_free]|done| |].
  - intros s' er evs Hc. destruct (C26_replace_direct s id nid p q s' er evs o (fm_reach _ _ _ H) Hop (fm_off _ _ _ H) Hc Ho) as (_ & H1 & H2 & H3 & _); [apply Hst|lia|lia| |].
    { destruct Hni as [->|Hni]; [by left|right]. by eapply fm_free. }
    intros j. destruct (decide (j = nid)) as [->|Hj].
    + rewrite H1, settle_self. cbn [v_qty]. rewrite decide_True by done. unfold stands_for in *. destruct o. cbn in *. intuition congruence.
    + rewrite settle_other by done. destruct (decide (j = id)) as [->|Hj2]; [by rewrite H3, lookup_delete|]. rewrite H2, lookup_delete_ne by done. apply (fm_same _ _ _ H).
  - apply settle_ids; [lia|]. intros i w Hw. apply lookup_delete_Some in Hw as [_ Hw]. by eapply fm_ids.
Qed.
Lemma run_app s l1 l2 : run s (l1 ++ l2) = (do s <- run s l1; run s l2).
Proof. revert s. induction l1 as [|a l IH]; intros s; cbn; [done|]. destruct (step s a) as [[s1 er]| |]; cbn; [apply IH|done|done]. Qed.
Lemma fm_book s B T sym name : FM s B T -> 0 <= sym < TWO32 - 1 ->
  exists s', run s [AddSymbol (mkSymbol sym name); AddOrderBook (mkSymbol sym name)] = Ok s' /\ FM s' (sym :: B) T.
Proof.
  intros H Hs. pose proof (fm_reach _ _ _ H) as Hr. set (sy := mkSymbol sym name).
  assert (O1 : forall s, op_ok s (AddSymbol sy)) by done. assert (O2 : forall s, op_ok s (AddOrderBook sy)) by done.
  destruct (call_exists s (AddSymbol sy) (reach_inv _ Hr) Hs) as (s1 & er1 & evs1 & Hc1). pose proof (C30_registry s (AddSymbol sy) s1 er1 evs1 Hr (O1 s) Hc1) as (K1 & K2 & K3).
  assert (Hr1 : reach s1) by (eapply reach_step; [done|apply O1|apply Hc1]).
  destruct (call_exists s1 (AddOrderBook sy) (reach_inv _ Hr1) Hs) as (s2 & er2 & evs2 & Hc2). pose proof (C30_registry s1 (AddOrderBook sy) s2 er2 evs2 Hr1 (O2 s1) Hc2) as (L1 & L2 & L3).
  exists s2. split; [cbn [run]; rewrite (proj1 Hc1); cbn [rbind run]; by rewrite (proj1 Hc2)|]. constructor.
  - eapply ri_step; [|apply O2|by intros ? ?|apply Hc2]. eapply ri_step; [apply (fm_fresh _ _ _ H)|apply O1|by intros ? ?|apply Hc1].
  - rewrite (C51_switch s1 _ s2 er2 evs2 Hr1 (O2 s1) Hc2), (C51_switch s _ s1 er1 evs1 Hr (O1 s) Hc1). apply (fm_off _ _ _ H).
  - change (sy_id sy) with sym in *. assert (Hsy : get_symbol sym s1 <> None).
    { destruct (get_symbol sym s) eqn:E; [|by rewrite (proj1 (proj2 (proj2 K3)))]. rewrite (proj2 (proj2 K3)). congruence. }
    destruct (get_symbol sym s1) as [r|]; [|done]. intros n Hn. destruct (get_book sym s1) as [b|] eqn:Eb.
    + rewrite (proj2 (proj2 L3)). apply elem_of_cons in Hn as [->|Hn]; [by rewrite Eb|]. rewrite K1. by eapply fm_books.
    + destruct L3 as (_ & _ & L3 & L4). destruct (decide (n = sym)) as [->|Hne]; [by rewrite L3|]. rewrite L4, K1 by done. apply elem_of_cons in Hn as [->|Hn]; [done|]. by eapply fm_books.
  - intros id. rewrite L2, K2. apply (fm_same _ _ _ H).
  - apply (fm_ids _ _ _ H).
Qed.
Lemma fm_step s B T m ops : FM s B T -> carries B T m -> drives m ops -> exists s', run s ops = Ok s' /\ FM s' (books_of m ++ B) (track m T).
Proof.
  intros H Hc Hd. destruct m; cbn [drives books_of app] in *.
  - destruct Hd as [nm ->]. destruct Hc as [[? _] _]. by apply fm_book.
  - subst ops. by apply fm_add.
  - subst ops. destruct Hc as [(v & Hv & Hq) _]. cbn [track]. rewrite Hv. apply (fm_take _ _ _ _ _ _ _ H Hv Hq). by left.
  - subst ops. destruct Hc as [(v & Hv & Hq) _]. cbn [track]. rewrite Hv. apply (fm_take _ _ _ _ _ _ _ H Hv Hq). right. by left.
  - subst ops. destruct Hc as [(v & Hv & Hq) Hp]. cbn [track]. rewrite Hv. apply (fm_take _ _ _ _ _ _ _ H Hv Hq). right. right. exists p. split; [|done]. unfold u64_range, MAX64, TWO64 in *. lia.
  - subst ops. by apply fm_modify.
  - subst ops. by apply fm_replace.
  - done.
  - subst ops. destruct Hc as [(v & Hv) _]. cbn [track]. by eapply fm_delete.
Qed.
Definition books_all (B : list Z) (ms : list feed) : list Z := fold_left (fun B m => books_of m ++ B) ms B.
Lemma fm_run ms opss : Forall2 drives ms opss -> forall s B T, FM s B T -> carries_all B T ms -> exists s', run s (concat opss) = Ok s' /\ FM s' (books_all B ms) (track_all T ms).
Proof.
  induction 1 as [|m ops ms opss Hd _ IH]; intros s B T H Hc; [by exists s|]. destruct Hc as [Hc Hcs].
  destruct (fm_step s B T m ops H Hc Hd) as (s1 & E1 & H1). destruct (IH s1 _ _ H1 Hcs) as (s2 & E2 & H2). exists s2. split; [|done]. cbn [concat]. rewrite run_app, E1. done.
Qed.
Lemma fm_init : FM init [] ∅.
Proof. constructor; [apply ri_init|done|by intros ? ?%elem_of_nil| |]. { intros id. rewrite get_order_inv by apply reach_inv, reach_init. cbn. by rewrite !lookup_empty. } intros id v Hv. by rewrite lookup_empty in Hv. Qed.

(** ** The books show the depth of the feed *)
Lemma volume_ids sym sd p ids : forall T : gmap Z live, NoDup ids -> (forall id, id ∈ ids -> T !! id <> None) ->
  (forall id v, T !! id = Some v -> id ∈ ids <-> v_sym v = sym /\ v_side v = sd /\ v_price v = p) ->
  volume T sym sd p = sumZ (omap (fun id => v_qty <$> T !! id) ids).
Proof.
  induction ids as [|i ids IH]; intros T Hnd Hin Hm.
  - cbn. clear Hnd Hin. induction T as [|i v T Hi IHT] using map_ind; [done|]. rewrite volume_insert by done. rewrite IHT.
    + unfold share. rewrite decide_False; [done|]. intros Hx. apply (Hm i v ltac:(by rewrite lookup_insert)) in Hx. by apply elem_of_nil in Hx.
    + intros id w Hw. apply (Hm id). rewrite lookup_insert_ne; [done|]. congruence.
  - apply NoDup_cons in Hnd as [Hi Hnd]. pose proof (Hin i ltac:(left)) as Hv. destruct (T !! i) as [v|] eqn:E; [|done].
    rewrite (volume_delete T i v sym sd p E). cbn. rewrite E. cbn. rewrite (IH (delete i T)).
    + unfold share. rewrite decide_True by (apply (Hm i v E); left). f_equal. f_equal.
      assert (Hx : forall l : list Z, i ∉ l -> omap (fun id => v_qty <$> delete i T !! id) l = omap (fun id => v_qty <$> T !! id) l).
      { induction l as [|j l IHl]; intros Hj; [done|]. apply not_elem_of_cons in Hj as [Hj1 Hj2]. cbn. rewrite lookup_delete_ne by done. by rewrite IHl. }
      by apply Hx.
    + done.
    + intros id Hid. rewrite lookup_delete_ne by congruence. apply Hin. by right.
    + intros id w Hw. apply lookup_delete_Some in Hw as [Hne Hw]. rewrite <- (Hm id w Hw), elem_of_cons. split; [by right|]. by intros [->|?].
Qed.
Lemma fm_volume s B T sym b sd p : FM s B T -> get_book sym s = Some b ->
  volume T sym sd p = osum o_leaves (st_ords s) (queue b (side_kind sd) p).
Proof.
  intros H Hb. pose proof (reach_inv _ (fm_reach _ _ _ H)) as Hinv. pose proof (iv_book _ Hinv _ _ Hb) as Hok.
  assert (Hq : forall i, i ∈ queue b (side_kind sd) p <-> exists v, T !! i = Some v /\ v_sym v = sym /\ v_side v = sd /\ v_price v = p).
  { intros i. rewrite (queue_in _ _ _ _ _ _ Hok). pose proof (fm_same _ _ _ H i) as E. rewrite get_order_inv in E by done. split.
    - intros (o & Ho & Hs & Hk & Hkp). rewrite Ho in E. destruct (T !! i) as [v|]; [|done]. exists v. destruct E as (E1 & E2 & E3 & E4 & E5 & E6).
      destruct (limit_place o E1) as [K1 K2]. rewrite K1 in Hk. rewrite K2 in Hkp. split; [done|]. split; [congruence|]. split; [|congruence]. rewrite <- E4. by destruct (o_side o), sd.
    - intros (v & Hv & Hs & Hsd & Hp). rewrite Hv in E. destruct (st_ords s !! i) as [o|]; [|done]. exists o. destruct E as (E1 & E2 & E3 & E4 & E5 & E6).
      destruct (limit_place o E1) as [K1 K2]. split; [done|]. split; [congruence|]. split; congruence. }
  rewrite (volume_ids sym sd p (queue b (side_kind sd) p)).
  - unfold osum. set (l := queue _ _ _) in *. assert (Hl : forall i, i ∈ l -> exists v, T !! i = Some v) by (intros i Hi; apply Hq in Hi as (v & ? & _); eauto). clearbody l. clear Hq.
    induction l as [|i l IH]; [done|]. destruct (Hl i ltac:(left)) as [v Hv]. pose proof (fm_same _ _ _ H i) as E. rewrite Hv in E. rewrite get_order_inv in E by done.
    cbn. rewrite Hv. cbn. destruct (st_ords s !! i) as [o|]; [|done]. cbn. f_equal; [symmetry; apply E|]. apply IH. intros; apply Hl; by right.
  - by eapply queue_nodup.
  - intros i Hi. apply Hq in Hi as (v & -> & _). done.
  - intros i v Hv. rewrite Hq. split; [intros (w & Hw & ?); congruence|]. intros. by exists v.
Qed.

Lemma fm_shows s B T sym b sd : FM s B T -> get_book sym s = Some b -> depth_of T sym sd (shows b sd).
Proof.
  intros H Hb. pose proof (fm_reach _ _ _ H) as Hr. pose proof (reach_inv _ Hr) as Hinv. pose proof (iv_book _ Hinv _ _ Hb) as Hok.
  pose proof (sd_sorted _ _ _ _ (bk_side _ _ _ Hok (side_kind sd))) as Hso. unfold shows. set (k := side_kind sd) in *.
  assert (Hvol : forall l, l ∈ s_lvls (get_side k b) -> li_total (l_info l) = volume T sym sd (l_price l) /\ 0 < li_total (l_info l)).
  { intros l Hl. pose proof (level_of_side _ _ _ _ _ (bk_side _ _ _ Hok k) Hl) as [Hne Hnd Hin Hty Htot Hhid Hvis Hcnt].
    destruct (C03_level_aggregates s sym b k l Hr Hb Hl) as (_ & _ & _ & _ & _ & _ & _ & _ & Hpos). split; [|done].
    rewrite (fm_volume _ _ _ _ _ _ _ H Hb), Htot. f_equal. unfold queue, ids_at. fold k. by rewrite (sorted_find _ _ _ Hso Hl). }
  split.
  - rewrite map_map. cbn. clear Hvol. induction Hso as [|l ls Hs IH Hl]; cbn; constructor; [done|]. apply Forall_forall. intros p Hp. apply elem_of_list_fmap in Hp as (l' & -> & Hl').
    rewrite Forall_forall in Hl. specialize (Hl _ Hl'). unfold before, better in Hl. subst k. destruct sd; cbn in *; lia.
  - intros p v. split.
    + intros Hx. apply elem_of_list_fmap in Hx as (l & [= -> ->] & Hl). by apply Hvol.
    + intros [-> Hv]. rewrite (fm_volume _ _ _ _ _ _ _ H Hb) in Hv. fold k in Hv. unfold queue, ids_at in Hv. destruct (find_level p (s_lvls (get_side k b))) as [l|] eqn:E; [|done].
      pose proof (find_level_price _ _ _ E) as Hp. apply find_level_elem in E as Hl. apply elem_of_list_fmap. exists l. split; [|done]. destruct (Hvol l Hl) as [Hx _]. rewrite Hx, Hp. done.
Qed.

Lemma books_all_in ms sym : forall B, sym ∈ books_all B ms <-> sym ∈ B \/ FBook sym ∈ ms.
Proof.
  induction ms as [|m ms IH]; intros B; cbn [books_all fold_left]; [set_solver|]. change (fold_left _ ms (books_of m ++ B)) with (books_all (books_of m ++ B) ms). rewrite IH, elem_of_app, elem_of_cons.
  destruct m; cbn [books_of]; rewrite ?elem_of_nil, ?elem_of_cons, ?elem_of_nil; naive_solver.
Qed.
(** With matching off, after any run of the feed every announced book exists, shows on both sides
    exactly the prices with live volume, best first, each with the total of the live orders there,
    and every order found under an id is the live order of the feed. *)
Theorem C54_depth ms opss : carries_all [] ∅ ms -> Forall2 drives ms opss ->
  exists s, run init (concat opss) = Ok s /\
    (forall sym, FBook sym ∈ ms -> get_book sym s <> None) /\
    (forall sym b sd, get_book sym s = Some b -> depth_of (track_all ∅ ms) sym sd (shows b sd)) /\
    (forall id, match get_order id s, track_all ∅ ms !! id with Some o, Some v => stands_for v o | None, None => True | _, _ => False end).
Proof.
  intros Hc Hd. destruct (fm_run ms opss Hd init [] ∅ fm_init Hc) as (s & E & H). exists s. split; [done|]. split; [|split].
  - intros sym Hs. apply (fm_books _ _ _ H). apply books_all_in. by right.
  - intros sym b sd Hb. by eapply fm_shows.
  - apply (fm_same _ _ _ H).
Qed.
Print Assumptions C54_depth.
Lemma depth_unique T sym sd l1 : forall l2, depth_of T sym sd l1 -> depth_of T sym sd l2 -> l1 = l2.
Proof.
  intros l2 [S1 M1] [S2 M2]. assert (M : forall x, x ∈ l1 <-> x ∈ l2) by (intros [p v]; by rewrite M1, M2). clear M1 M2.
  revert l2 S2 M. induction l1 as [|[p v] l1 IH]; intros l2 S2 M.
  - destruct l2 as [|x l2]; [done|]. exfalso. assert (x ∈ @nil (Z * Z)) by (apply M; left). by apply elem_of_nil in H.
  - destruct l2 as [|[p2 v2] l2]; [exfalso; assert ((p, v) ∈ @nil (Z * Z)) by (apply M; left); by apply elem_of_nil in H|].
    cbn in S1, S2. apply StronglySorted_inv in S1 as [S1 F1]. apply StronglySorted_inv in S2 as [S2 F2]. rewrite Forall_forall in F1, F2.
    assert (G1 : forall x, x ∈ l1 -> beats sd p x.1) by (intros x Hx; apply F1, elem_of_list_fmap; by exists x).
    assert (G2 : forall x, x ∈ l2 -> beats sd p2 x.1) by (intros x Hx; apply F2, elem_of_list_fmap; by exists x).
    assert (E : (p, v) = (p2, v2)).
    { assert (A : (p, v) ∈ (p2, v2) :: l2) by (apply M; left). assert (A2 : (p2, v2) ∈ (p, v) :: l1) by (apply M; left).
      apply elem_of_cons in A as [?|A]; [done|]. apply elem_of_cons in A2 as [?|A2]; [done|]. specialize (G1 _ A2). specialize (G2 _ A). destruct sd; cbn in *; lia. }
    f_equal; [done|]. injection E as <- <-. apply IH; [done|done|]. intros x. specialize (M x). rewrite !elem_of_cons in M.
    assert (Hirr : ~ beats sd p p) by (destruct sd; cbn; lia). split; intros Hx.
    + destruct (proj1 M (or_intror Hx)) as [->|]; [|done]. by apply G1 in Hx.
    + destruct (proj2 M (or_intror Hx)) as [->|]; [|done]. by apply G2 in Hx.
Qed.
(** The manager and the aggressive optimized manager show the same depth on the same feed. *)
Theorem C54_same ms opss : carries_all [] ∅ ms -> OKF ms -> Forall2 drives ms opss ->
  exists s fs, run init (concat opss) = Ok s /\ fast_run ms fast_init = Ok fs /\
    forall sym b sd, get_book sym s = Some b -> shows b sd = fast_levels fs sym sd.
Proof.
  intros Hc Hk Hd. destruct (C54_depth ms opss Hc Hd) as (s & E & _ & Hs & _). destruct (C52_depth ms Hk) as (fs & Ef & Hf).
  exists s, fs. split; [done|]. split; [done|]. intros sym b sd Hb. eapply depth_unique; [by apply Hs|apply Hf].
Qed.
Print Assumptions C54_same.

(** The hypotheses, checked by computation, and a run with all kinds of messages. *)
Definition carriesb (B : list Z) (T : gmap Z live) (m : feed) : bool :=
  match m with
  | FBook sym => (0 <=? sym) && (sym <? TWO32 - 1) && forallb (fun x => negb (v_sym (snd x) =? sym)) (map_to_list T)
  | FAdd id sym sd p q => match T !! id with None => true | Some _ => false end && (0 <? id) && (id <? TWO64) && (0 <=? sym) && (sym <? TWO32 - 1) && (0 <? p) && (p <? TWO64) && (0 <? q) &&
      (volume T sym sd p + q <? TWO64) && bool_decide (sym ∈ B) && (open_interest T + q <? TWO64)
  | FReduce id q | FExecute id q => match T !! id with Some v => (0 <=? q) && (q <=? v_qty v) | None => false end
  | FExecuteAt id p q => match T !! id with Some v => (0 <=? q) && (q <=? v_qty v) && (0 <=? p) && (p <? TWO64) | None => false end
  | FModify id p q => match T !! id with Some v => (0 <=? id) && (id <? TWO64) && (0 <=? v_sym v) && (v_sym v <? TWO32 - 1) && (0 <? p) && (p <? TWO64) && (0 <? q) &&
      (volume (delete id T) (v_sym v) (v_side v) p + q <? TWO64) && (open_interest (delete id T) + q <? TWO64) | None => false end
  | FReplace id nid p q => match T !! id with Some v => free_id T id nid && (0 <? nid) && (nid <? TWO64) && (0 <=? v_sym v) && (v_sym v <? TWO32 - 1) && (0 <? p) && (p <? TWO64) && (0 <? q) &&
      (volume (delete id T) (v_sym v) (v_side v) p + q <? TWO64) && (open_interest (delete id T) + q <? TWO64) | None => false end
  | FReplaceTo _ _ _ _ _ => false
  | FDelete id => match T !! id with Some v => true | None => false end
  end.
Lemma carriesb_ok B T m : carriesb B T m = true -> carries B T m.
Proof.
  unfold carries, feed_ok, fits. destruct m as [sym|id sym sd p q|id q|id q|id p q|id p q|id nid p q|id nid sym p q|id]; cbn [carriesb].
  - rewrite !andb_true_iff. intros [[H1 H2] H3]. split; [|done]. split; [lia|]. intros id v Hv. rewrite forallb_forall in H3. specialize (H3 (id, v)).
    assert (Hin : In (id, v) (map_to_list T)) by (apply elem_of_list_In; by apply elem_of_map_to_list). apply H3 in Hin. cbn in Hin. lia.
  - destruct (T !! id); [done|]. rewrite !andb_true_iff, bool_decide_eq_true. intros H. repeat split; try done; try lia. by destruct H as [[_ ?] _].
  - destruct (T !! id) as [v|]; [|done]. rewrite !andb_true_iff. intros H. split; [|done]. exists v. split; [done|lia].
  - destruct (T !! id) as [v|]; [|done]. rewrite !andb_true_iff. intros H. split; [|done]. exists v. split; [done|lia].
  - destruct (T !! id) as [v|]; [|done]. rewrite !andb_true_iff. intros H. split; [|lia]. exists v. split; [done|lia].
  - destruct (T !! id) as [v|]; [|done]. rewrite !andb_true_iff. intros H. split; [|lia]. exists v. split; [done|]. split; [lia|]. right. lia.
  - destruct (T !! id) as [v|] eqn:Ev; [|done]. rewrite !andb_true_iff. intros H. split; [|lia]. exists v. split; [done|]. split; [apply free_id_ok; apply H|]. split; [lia|]. right. lia.
  - done.
  - destruct (T !! id) as [v|]; [|done]. intros _. split; [|done]. by exists v.
Qed.
Fixpoint carries_allb (B : list Z) (T : gmap Z live) (ms : list feed) : bool :=
  match ms with [] => true | m :: ms => carriesb B T m && carries_allb (books_of m ++ B) (track m T) ms end.
Lemma carries_allb_ok ms : forall B T, carries_allb B T ms = true -> carries_all B T ms.
Proof. induction ms as [|m ms IH]; intros B T H; [done|]. cbn in *. apply andb_true_iff in H as [H1 H2]. split; [by apply carriesb_ok|auto]. Qed.
Definition drive (m : feed) : list op :=
  match m with
  | FBook sym => [AddSymbol (mkSymbol sym 0); AddOrderBook (mkSymbol sym 0)]
  | FAdd id sym sd p q => [AddOrder (LimitOrder id sym sd p q GTC MAX64)]
  | FReduce id q => [ReduceOrder id q] | FExecute id q => [ExecuteOrder id q] | FExecuteAt id p q => [ExecuteOrderAt id p q]
  | FModify id p q => [ModifyOrder id p q] | FReplace id nid p q => [ReplaceOrder id nid p q] | FReplaceTo _ _ _ _ _ => [] | FDelete id => [DeleteOrder id]
  end.
Example C54_example : carries_all [] ∅ ex_feed /\ OKF ex_feed /\ Forall2 drives ex_feed (map drive ex_feed) /\
  exists s b, run init (concat (map drive ex_feed)) = Ok s /\ get_book 1 s = Some b /\ shows b BUY = [(100, 3); (99, 1)] /\ shows b SELL = [(104, 6)].
Proof.
  split; [apply carries_allb_ok; vm_compute; reflexivity|]. split; [apply feeds_okb_ok; vm_compute; reflexivity|].
  split; [repeat constructor; by exists 0|]. eexists _, _. split; [vm_compute; reflexivity|]. split; [vm_compute; reflexivity|]. split; vm_compute; reflexivity.
Qed.
