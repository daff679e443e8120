(** * PropsBench.v -- the report of the throughput program: C69. *)
From Coq Require Import ZifyBool String Ascii.
From stdpp Require Import fin_maps.
From Verif Require Import Types Book Engine Manager Factory Validate BookInv EngInv EngPrim Steps StepsOk Api StateInv Micro Reach Calls Witness PropsState PropsSettle CallFacts PropsBasic PropsDirect PropsFills Itch ItchSpec PropsItch Feed Fast PropsFast Drive PropsFeed PropsItchFeed ItchPrint PropsItchPrint Example PropsExample Tally PropsTally Bench Spec Spec2 Spec3 Spec5 Spec10 Spec11 Spec21 Spec22 Spec24 Spec25.
Open Scope Z_scope. Open Scope list_scope.

(** ** What the calls of one message do *)
Definition kind_of (ev : event) : option deed :=
  match ev with EAddOrder _ => Some Arrives | EUpdateOrder _ => Some Changes | EDeleteOrder _ => Some Leaves | EExecute _ _ _ => Some Trades | _ => None end.
Definition kinds (l : list event) : list deed := omap kind_of l.
Definition up1 (ev : event) : Z := match ev with EUpdateBook _ _ => 0 | _ => 1 end.
Definition ups (l : list event) : Z := sumZ (map up1 l).
Lemma kinds_app a b : kinds (a ++ b) = kinds a ++ kinds b.
Proof. unfold kinds. apply omap_app. Qed.
Lemma ups_app a b : ups (a ++ b) = ups a + ups b.
Proof. unfold ups. rewrite map_app. apply sumZ_app. Qed.
Lemma kinds_lev sid u : kinds (lev_evs sid u) = [] /\ ups (lev_evs sid u) = 1.
Proof. unfold lev_evs, lev_ev. by destruct (u_type u). Qed.
Lemma kinds_lim o sid u : o_type o = LIMIT -> kinds (lim_evs o sid u) = [] /\ ups (lim_evs o sid u) = 1.
Proof. intros Ho. unfold lim_evs, is_limit. rewrite bool_decide_eq_true_2 by done. apply kinds_lev. Qed.
Definition load (l : list deed) : Z := foldr (fun d a => weight d + a) 0 l.
Lemma load_app a b : load (a ++ b) = load a + load b.
Proof. induction a as [|d a IH]; [done|]. cbn. unfold load in *. cbn. lia. Qed.

(** The order on its way comes to rest. *)
Lemma rests s sid c s' evs2 o : inv s' -> off_end s sid c s' OK evs2 -> snd c = Some o -> o_type o = LIMIT -> e_ords (fst c) !! o_id o = None -> get_order (o_id o) s' <> None ->
  kinds evs2 = [] /\ ups evs2 = 1.
Proof.
  intros Hinv Hoff Hs Hty Hn Hg. inversion Hoff as [e Hce|e o2 u2 e2 Hce Hf2 Hty2 Htif2 Hords2 Hlog2 Hpr2 Hp2|e o2 Hce Hv2|]; subst; cbn in *; try done; injection Hs as ->.
  - by apply kinds_lim.
  - exfalso. apply Hg. rewrite get_order_inv by done. cbn. exact Hn.
Qed.
Lemma deeds_add s B T s' er evs id sym sd p q : FM s B T -> carries B T (FAdd id sym sd p q) -> let o := LimitOrder id sym sd p q GTC MAX64 in
  op_ok s (AddOrder o) -> call s (AddOrder o) s' er evs -> kinds evs = [Arrives] /\ ups evs = 2.
Proof.
  intros H ((Hfr & Hid & Hsym & Hp & Hq & Hcap) & Hid0 & HB & Htot) o Hop Hc. pose proof (fm_reach _ _ _ H) as Hr.
  assert (Hv : validate o = OK). { unfold validate. cbn. replace (id =? 0) with false by lia. replace (q <? q) with false by lia. replace (q =? 0) with false by lia. done. }
  pose proof (fm_free _ _ _ _ H Hfr) as Hfree. pose proof (fm_books _ _ _ H _ HB) as Hbk.
  destruct (C32_add_limit s o s' er evs Hr Hop (fm_off _ _ _ H) Hc eq_refl Hv (or_introl eq_refl) Hbk Hfree) as (-> & Hg & _).
  destruct (off_call _ _ _ _ _ Hr Hop eq_refl Hc (fm_off _ _ _ H)) as (sid & b & hevs & c & evs2 & Hinv & Hinv' & Hb & Htg & Hh & Hcf & Hoff & ->).
  { cbn [refusal]. rewrite decide_True by done. change (o_sym o) with sym. by destruct (get_book sym s). }
  inversion Hh as [o0 o' Hsym' Hval| | | | |a2 i' price q0 o0 u e' q1 o' Q' evs' Ha]; subst; try (by destruct mit); [|by destruct Ha as [[? _]|?]].
  assert (Eo : o' = o) by done. rewrite Eo in *. rewrite get_order_inv in Hfree by done.
  destruct (rests s _ _ _ _ o Hinv' Hoff eq_refl eq_refl Hfree ltac:(by rewrite Hg)) as [K1 K2].
  rewrite kinds_app, ups_app, K1, K2. done.
Qed.
Lemma red_kind o' : kinds [red_ev o'] = (if decide (o_leaves o' = 0) then [Leaves] else [Changes]) /\ ups [red_ev o'] = 1.
Proof. unfold red_ev. case_decide as E; destruct (Z.eqb_spec (o_leaves o') 0); done. Qed.
Lemma deeds_reduce s B T s' er evs id q v : FM s B T -> T !! id = Some v -> 0 < q <= v_qty v -> op_ok s (ReduceOrder id q) -> call s (ReduceOrder id q) s' er evs ->
  kinds evs = taken T id q /\ ups evs = 2.
Proof.
  intros H Hv Hq Hop Hc. pose proof (fm_reach _ _ _ H) as Hr. pose proof (reach_inv _ Hr) as Hinv0. destruct (fm_live _ _ _ _ _ H Hv) as (o & Ho & Hst).
  destruct (off_call _ _ _ _ _ Hr Hop eq_refl Hc (fm_off _ _ _ H)) as (sid & b & hevs & c & evs2 & Hinv & Hinv' & Hb & Htg & Hh & Hcf & Hoff & ->).
  { eapply live_accept; [done|done|lia]. }
  rewrite get_order_inv in Ho by done.
  inversion Hh as [|i' q0 o0 u e' q1 o' Q' Ho' Hid Hsym Hq' He' Hords Hlog Hpr Hp| | | |a2 i' price q0 o0 u e' q1 o' Q' evs' Ha]; subst; try (by destruct mit); [|by destruct Ha as [[? _]|?]].
  cbn in Ho'. assert (o0 = o) as -> by congruence. clear Hh.
  inversion Hoff as [e Hce|e o2 u2 e2 Hce|e o2 Hce|e o2 Hce]; subst; try done. rewrite app_nil_r.
  destruct (kinds_lim o (o_sym o) u) as [K1 K2]; [apply Hst|]. destruct (red_kind o') as [R1 R2].
  change (red_ev o' :: lim_evs o (o_sym o) u) with ([red_ev o'] ++ lim_evs o (o_sym o) u). rewrite kinds_app, ups_app, K1, K2, R1, R2, app_nil_r. split; [|done].
  unfold taken. rewrite Hv. assert (Hl : o_leaves o = v_qty v) by apply Hst. assert (o_leaves o' = o_leaves o - Z.min q (o_leaves o)) as -> by done. rewrite Z.min_l by lia.
  repeat case_decide; try done; lia.
Qed.
Lemma deeds_execute s B T s' er evs id p q v a : FM s B T -> T !! id = Some v -> 0 < q <= v_qty v -> a = ExecuteOrder id q \/ a = ExecuteOrderAt id p q ->
  op_ok s a -> call s a s' er evs -> kinds evs = Trades :: taken T id q /\ ups evs = 3.
Proof.
  intros H Hv Hq Ha Hop Hc. pose proof (fm_reach _ _ _ H) as Hr. pose proof (reach_inv _ Hr) as Hinv0. destruct (fm_live _ _ _ _ _ H Hv) as (o & Ho & Hst).
  destruct (off_call s a s' er evs Hr Hop ltac:(by destruct Ha as [->| ->]) Hc (fm_off _ _ _ H)) as (sid & b & hevs & c & evs2 & Hinv & Hinv' & Hb & Htg & Hh & Hcf & Hoff & ->).
  { destruct Ha as [->| ->]; (eapply live_accept; [done|done|lia]). }
  rewrite get_order_inv in Ho by done.
  destruct Hh as [o0 o' Hsym Hval|i' q0 o0 u e' q1 o' Q' Ho' Hid Hsym Hq' He' Hords Hlog Hpr Hp
    |mit i' p0 q0 o0 u e' o' evs' Q' Ho' Hid Hsym Hq' He' Hords Hlog Hpr Hp
    |i' ni p0 q0 o0 u e' o' Q' evs' Ho' Hid Hsym Hq' Hni Hty He' Hords Hlog Hpr Hp
    |i' o0 u e' Q' evs' Ho' Hid Hsym He' Hords Hlog Hpr Hp
    |a2 i' price q0 o0 u e' q1 o' Q' evs' Ha' Ho' Hid Hsym Hq' He' Hords Hlog Hpr Hp];
    try (by destruct Ha as [?|?]); try (destruct mit; by destruct Ha as [?|?]).
  cbn in Ho'. assert (i' = id /\ q0 = q) as [-> ->] by (destruct Ha as [->| ->], Ha' as [[E _]|E]; by simplify_eq).
  assert (o0 = o) as -> by congruence.
  inversion Hoff as [e Hce|e o2 u2 e2 Hce|e o2 Hce|e o2 Hce]; subst; try done. rewrite app_nil_r.
  destruct (kinds_lim o (o_sym o) u) as [K1 K2]; [apply Hst|]. destruct (red_kind o') as [R1 R2].
  unfold evs'. change (EExecute o price q1 :: lim_evs o (o_sym o) u ++ [red_ev o']) with ([EExecute o price q1] ++ lim_evs o (o_sym o) u ++ [red_ev o']).
  rewrite !kinds_app, !ups_app, K1, K2, R1, R2. split; [|done].
  unfold taken. rewrite Hv. assert (Hl : o_leaves o = v_qty v) by apply Hst. assert (o_leaves o' = o_leaves o - Z.min q (o_leaves o)) as -> by done. rewrite Z.min_l by lia.
  cbn. repeat case_decide; try done; lia.
Qed.
Lemma deeds_delete s B T s' er evs id v : FM s B T -> T !! id = Some v -> op_ok s (DeleteOrder id) -> call s (DeleteOrder id) s' er evs ->
  kinds evs = [Leaves] /\ ups evs = 2.
Proof.
  intros H Hv Hop Hc. pose proof (fm_reach _ _ _ H) as Hr. pose proof (reach_inv _ Hr) as Hinv0. destruct (fm_live _ _ _ _ _ H Hv) as (o & Ho & Hst).
  destruct (off_call _ _ _ _ _ Hr Hop eq_refl Hc (fm_off _ _ _ H)) as (sid & b & hevs & c & evs2 & Hinv & Hinv' & Hb & Htg & Hh & Hcf & Hoff & ->).
  { cbn [refusal]. rewrite decide_False by (by intros ->). unfold need_order. by rewrite Ho. }
  rewrite get_order_inv in Ho by done.
  inversion Hh as [| | | |i' o0 u e' Q' evs' Ho' Hid Hsym He' Hords Hlog Hpr Hp|a2 i' price q0 o0 u e' q1 o' Q' evs' Ha]; subst; try (by destruct mit); [|by destruct Ha as [[? _]|?]].
  cbn in Ho'. assert (o0 = o) as -> by congruence. clear Hh.
  inversion Hoff as [e Hce|e o2 u2 e2 Hce|e o2 Hce|e o2 Hce]; subst; try done. rewrite app_nil_r.
  destruct (kinds_lim o (o_sym o) u) as [K1 K2]; [apply Hst|]. unfold evs'. rewrite kinds_app, ups_app, K1, K2. done.
Qed.
Lemma deeds_replace s B T s' er evs id nid p q : FM s B T -> carries B T (FReplace id nid p q) -> op_ok s (ReplaceOrder id nid p q) ->
  call s (ReplaceOrder id nid p q) s' er evs -> kinds evs = [Leaves; Arrives] /\ ups evs = 4.
Proof.
  intros H ((v & Hv & Hni & Hp & _) & Hn0 & Hq & Htot) Hop Hc. pose proof (fm_reach _ _ _ H) as Hr. pose proof (reach_inv _ Hr) as Hinv0.
  destruct (fm_live _ _ _ _ _ H Hv) as (o & Ho & Hst). pose proof (proj1 Hst) as Hty.
  assert (Hni' : nid = id \/ get_order nid s = None) by (destruct Hni as [->|Hni]; [by left|right; by eapply fm_free]).
  destruct (C26_replace_direct s id nid p q s' er evs o Hr Hop (fm_off _ _ _ H) Hc Ho Hty ltac:(lia) ltac:(lia) Hni') as (-> & Hg & _).
  destruct (off_call _ _ _ _ _ Hr Hop eq_refl Hc (fm_off _ _ _ H)) as (sid & b & hevs & c & evs2 & Hinv & Hinv' & Hb & Htg & Hh & Hcf & Hoff & ->).
  { cbn [refusal]. rewrite decide_False by (intros [-> | ->]; [by cbn in Ho|lia]). rewrite decide_False by lia. rewrite Ho. by rewrite decide_True. }
  rewrite get_order_inv in Ho by done. rewrite (get_order_inv s nid Hinv0) in Hni'.
  inversion Hh as [| |mit i' p0 q0 o0 u e' o' evs' Q' Ho' Hid Hsym Hq' He' Hords Hlog Hpr Hp' Ea|i' ni' p0 q0 o0 u e' o' Q' evs' Ho' Hid Hsym Hq' Hni2 Hty' He' Hords Hlog Hpr Hp'| |a2 i' price q0 o0 u e' q1 o' Q' evs' Ha]; subst;
    [by destruct mit| |by destruct Ha as [[? _]|?]].
  cbn in Ho'. assert (o0 = o) as -> by congruence.
  assert (Hfree : e_ords e' !! nid = None). { rewrite Hords. cbn. destruct Hni' as [->|Hn]; [apply lookup_delete|]. destruct (decide (o_id o = nid)) as [<-|]; [apply lookup_delete|by rewrite lookup_delete_ne]. }
  destruct (rests s _ _ _ _ o' Hinv' Hoff eq_refl Hty' Hfree ltac:(by change (o_id o') with nid; rewrite Hg)) as [K1 K2].
  destruct (kinds_lim o (o_sym o) u Hty) as [L1 L2]. unfold evs'. rewrite !kinds_app, !ups_app, K1, K2, L1, L2. done.
Qed.

(** ** A message *)
Lemma carries_ok s B T m ops a : FM s B T -> carries B T m -> drives m ops -> ops = [a] -> op_ok s a.
Proof.
  intros H Hc Hd ->. pose proof (fm_total _ _ _ H) as Ht. pose proof (open_but _ _ _ (-1) H) as _.
  assert (Hn0 : 0 <= open_interest T) by (apply open_nonneg; intros i v Hv; by eapply fm_pos).
  assert (Hlq : forall id v, T !! id = Some v -> v_qty v < TWO64).
  { intros id v Hv. pose proof (open_delete T id v Hv) as E. pose proof (open_but _ _ _ id H). pose proof (mo_total _ (iv_map _ (reach_inv _ (fm_reach _ _ _ H)))). lia. }
  destruct m as [sym|id sym sd p q|id q|id q|id p q|id p q|id nid p q|id nid sym p q|id]; cbn [drives] in Hd; try done.
  - by destruct Hd as [nm E].
  - injection Hd as ->. destruct Hc as ((Hfr & Hid & Hsym & Hp & Hq & Hcap) & Hid0 & HB & Htot).
    split; [|rewrite Ht; exact Htot]. unfold order_range, u64_range, i64_range, MAX64, TWO64, TWO63, TWO32 in *; cbn; repeat split; try lia; try done.
  - injection Hd as ->. destruct Hc as [(v & Hv & Hq) _]. pose proof (fm_ids _ _ _ H _ _ Hv). pose proof (Hlq _ _ Hv). cbn. unfold u64_range, MAX64, TWO64 in *. repeat split; lia.
  - injection Hd as ->. destruct Hc as [(v & Hv & Hq) _]. pose proof (fm_ids _ _ _ H _ _ Hv). pose proof (Hlq _ _ Hv). cbn. unfold u64_range, MAX64, TWO64 in *. repeat split; lia.
  - injection Hd as ->. destruct Hc as [(v & Hv & Hq) Hp]. pose proof (fm_ids _ _ _ H _ _ Hv). pose proof (Hlq _ _ Hv). cbn. unfold u64_range, MAX64, TWO64 in *. repeat split; lia.
  - injection Hd as ->. destruct Hc as ((v & Hv & Hp & Hf) & Hq & Htot). pose proof (fm_ids _ _ _ H _ _ Hv). cbn. rewrite (fm_total_but _ _ _ id H). pose proof (open_but _ _ _ id H).
    unfold u64_range, MAX64, TWO64 in *. repeat split; lia.
  - injection Hd as ->. destruct Hc as ((v & Hv & Hni & Hp & Hf) & Hn & Hq & Htot). pose proof (fm_ids _ _ _ H _ _ Hv). cbn. rewrite (fm_total_but _ _ _ id H). pose proof (open_but _ _ _ id H).
    destruct Hf as [->|[Hnid _]]; [lia|]. unfold u64_range, MAX64, TWO64 in *. repeat split; lia.
  - injection Hd as ->. destruct Hc as [(v & Hv) _]. pose proof (fm_ids _ _ _ H _ _ Hv). cbn. unfold u64_range, MAX64, TWO64 in *. lia.
Qed.
Lemma load_taken T id q v : T !! id = Some v -> load (taken T id q) = 2.
Proof. intros Hv. unfold taken. rewrite Hv. by case_decide. Qed.
(** One call of a message about an order. *)
Lemma deeds_call s B T m a s' er evs : FM s B T -> carries B T m -> ~ is_modify m -> drives m [a] -> call s a s' er evs ->
  kinds evs = deeds T m /\ ups evs = load (deeds T m).
Proof.
  intros H Hc Hm Hd Hcall. pose proof (carries_ok s B T m [a] a H Hc Hd eq_refl) as Hop. pose proof (fm_reach _ _ _ H) as Hr.
  destruct m as [sym|id sym sd p q|id q|id q|id p q|id p q|id nid p q|id nid sym p q|id]; cbn [drives deeds] in *; try done.
  - by destruct Hd as [nm E].
  - injection Hd as ->. by apply (deeds_add s B T s' er evs id sym sd p q).
  - injection Hd as ->. destruct Hc as [(v & Hv & Hq) _]. case_decide as Hz.
    + assert (Hf : refusal s (ReduceOrder id q) = Some ORDER_QUANTITY_INVALID). { pose proof (fm_ids _ _ _ H _ _ Hv). cbn [refusal]. rewrite decide_False by lia. by rewrite decide_True. }
      destruct (C46_refused s _ s' er evs _ Hr Hop Hcall Hf) as (_ & _ & ->). done.
    + rewrite (load_taken T id q v Hv). apply (deeds_reduce s B T s' er evs id q v); try done. lia.
  - injection Hd as ->. destruct Hc as [(v & Hv & Hq) _]. case_decide as Hz.
    + assert (Hf : refusal s (ExecuteOrder id q) = Some ORDER_QUANTITY_INVALID). { pose proof (fm_ids _ _ _ H _ _ Hv). cbn [refusal]. rewrite decide_False by lia. by rewrite decide_True. }
      destruct (C46_refused s _ s' er evs _ Hr Hop Hcall Hf) as (_ & _ & ->). done.
    + change (load (Trades :: taken T id q)) with (1 + load (taken T id q)). rewrite (load_taken T id q v Hv). apply (deeds_execute s B T s' er evs id (o_price (LimitOrder 0 0 BUY 0 0 GTC 0)) q v (ExecuteOrder id q)); try done; [lia|by left].
  - injection Hd as ->. destruct Hc as [(v & Hv & Hq) _]. case_decide as Hz.
    + assert (Hf : refusal s (ExecuteOrderAt id p q) = Some ORDER_QUANTITY_INVALID). { pose proof (fm_ids _ _ _ H _ _ Hv). cbn [refusal]. rewrite decide_False by lia. by rewrite decide_True. }
      destruct (C46_refused s _ s' er evs _ Hr Hop Hcall Hf) as (_ & _ & ->). done.
    + change (load (Trades :: taken T id q)) with (1 + load (taken T id q)). rewrite (load_taken T id q v Hv). apply (deeds_execute s B T s' er evs id p q v (ExecuteOrderAt id p q)); try done; [lia|by right].
  - injection Hd as ->. by apply (deeds_replace s B T s' er evs id nid p q).
  - injection Hd as ->. destruct Hc as [(v & Hv) _]. by apply (deeds_delete s B T s' er evs id v).
Qed.

(** ** The figures after a stream *)
Definition flat (t : tally) : Prop := t_max_symbols t = t_symbols t /\ t_max_order_books t = t_order_books t.
Definition known (s : state) (B : list Z) : Prop := forall j, (known_symbols s j <-> j ∈ B) /\ (open_books s j <-> j ∈ B).
Lemma number_mono P Q n n' : number P n -> number Q n' -> (forall j, P j -> Q j) -> n <= n'.
Proof. intros (l & Hl & <- & Hp) (l' & Hl' & <- & Hp') H. apply inj_le, submseteq_length, NoDup_submseteq; [done|]. intros x Hx. apply Hp', H, Hp, Hx. Qed.
(** A call that takes no symbol and no book away. *)
Lemma flat_call s a s' er evs ns t : reach s -> op_ok s a -> call s a s' er evs -> Spec21.told ns evs -> facts s t -> flat t ->
  (forall j, known_symbols s j -> known_symbols s' j) -> (forall j, open_books s j -> open_books s' j) -> facts s' (tell_all t ns) /\ flat (tell_all t ns).
Proof.
  intros Hr Hop Hc Hns Hf [Hx1 Hx2] Hk Hb. destruct (call_moves _ _ _ _ _ _ _ Hr Hop Hc Hns Hf) as [M1 M2 M3 M4]. split; [done|].
  pose proof (number_mono _ _ _ _ (fc_syms _ _ Hf) (fc_syms _ _ M1) Hk). pose proof (number_mono _ _ _ _ (fc_books _ _ Hf) (fc_books _ _ M1) Hb). split; lia.
Qed.
Lemma order_known s a s' er evs : reach s -> op_ok s a -> call s a s' er evs -> order_call a = true ->
  (forall j, known_symbols s' j <-> known_symbols s j) /\ (forall j, open_books s' j <-> open_books s j).
Proof.
  intros Hr Hop Hc Ho. pose proof (C30_registry s a s' er evs Hr Hop Hc) as H.
  assert (Hx : (forall i, get_symbol i s' = get_symbol i s) /\ (forall i, get_book i s' = None <-> get_book i s = None)) by (destruct a; try done; destruct H as (? & ? & _); done).
  destruct Hx as [H1 H2]. split; intros j; [unfold known_symbols; by rewrite H1|unfold open_books; by rewrite H2].
Qed.
Definition news (B : list Z) (T : gmap Z live) (m : feed) : Z := match m with FBook sym => if decide (sym ∈ B) then 0 else 2 | _ => load (deeds T m) end.
Record went (s : state) (B : list Z) (T : gmap Z live) (m : feed) (s' : state) (evs : list event) : Prop := {
  we_fm : FM s' (books_of m ++ B) (track m T);
  we_log : st_log s' = st_log s ++ evs;
  we_known : known s' (books_of m ++ B);
  we_kinds : kinds evs = deeds T m;
  we_ups : ups evs = news B T m;
  we_flat : forall ns t, Spec21.told ns evs -> facts s t -> flat t -> facts s' (tell_all t ns) /\ flat (tell_all t ns);
}.
Lemma tell_all_app2 t n1 n2 : tell_all t (n1 ++ n2) = tell_all (tell_all t n1) n2.
Proof. unfold tell_all. by rewrite fold_left_app. Qed.
Lemma went_step s B T m ops s' : FM s B T -> known s B -> carries B T m -> ~ is_modify m -> drives m ops -> run s ops = Ok s' -> exists evs, went s B T m s' evs.
Proof.
  intros H Hk Hc Hm Hd Hrun. pose proof (fm_reach _ _ _ H) as Hr. destruct (fm_step s B T m ops H Hc Hd) as (s0 & E & HF). rewrite E in Hrun. injection Hrun as ->.
  destruct (match m with FBook _ => true | _ => false end) eqn:Em.
  - destruct m as [sym| | | | | | | |]; try done. destruct Hd as [nm ->]. destruct Hc as [[Hs _] _]. set (sy := mkSymbol sym nm) in *.
    assert (O1 : forall s, op_ok s (AddSymbol sy)) by done. assert (O2 : forall s, op_ok s (AddOrderBook sy)) by done.
    destruct (call_exists s (AddSymbol sy) (reach_inv _ Hr) Hs) as (s1 & er1 & evs1 & Hc1). pose proof (C30_registry s (AddSymbol sy) s1 er1 evs1 Hr (O1 s) Hc1) as (K1 & K2 & K3).
    assert (Hr1 : reach s1) by (eapply reach_step; [done|apply O1|apply Hc1]).
    destruct (call_exists s1 (AddOrderBook sy) (reach_inv _ Hr1) Hs) as (s2 & er2 & evs2 & Hc2). pose proof (C30_registry s1 (AddOrderBook sy) s2 er2 evs2 Hr1 (O2 s1) Hc2) as (L1 & L2 & L3).
    assert (s' = s2) as ->. { cbn [run] in E. rewrite (proj1 Hc1) in E. cbn [rbind run] in E. rewrite (proj1 Hc2) in E. cbn in E. by injection E. }
    change (sy_id sy) with sym in *. exists (evs1 ++ evs2).
    assert (A1 : forall j, (known_symbols s1 j <-> j ∈ sym :: B) /\ (open_books s1 j <-> j ∈ B)).
    { intros j. destruct (Hk j) as [Hk1 Hk2]. split; [|unfold open_books; rewrite K1; exact Hk2]. rewrite elem_of_cons, <- Hk1. unfold known_symbols.
      destruct (get_symbol sym s) as [x|] eqn:Es; destruct K3 as (_ & _ & K3); [rewrite K3|destruct K3 as [K3 K4]]; destruct (decide (j = sym)) as [->|Hne]; try (rewrite K4 by done); rewrite ?Es, ?K3; naive_solver. }
    assert (A2 : forall j, known_symbols s2 j <-> j ∈ sym :: B).
    { intros j. rewrite <- (proj1 (A1 j)). unfold known_symbols. by rewrite L1. }
    assert (A3 : forall j, open_books s2 j <-> j ∈ sym :: B).
    { intros j. rewrite elem_of_cons, <- (proj2 (A1 j)). unfold open_books. assert (Hsy : get_symbol sym s1 <> None) by (apply (proj1 (A1 sym)); left).
      destruct (get_symbol sym s1) as [r|]; [|done]. destruct (get_book sym s1) as [b|] eqn:Eb.
      - destruct L3 as (_ & _ & L3). rewrite L3. split; [auto|]. intros [->|?]; [by rewrite Eb|done].
      - destruct L3 as (_ & _ & L3 & L4). destruct (decide (j = sym)) as [->|Hne]; [rewrite L3; naive_solver|rewrite L4 by done; naive_solver]. }
    assert (A4 : (sym ∈ B /\ evs1 = [] /\ evs2 = []) \/ (sym ∉ B /\ evs1 = [EAddSymbol sy] /\ evs2 = [EAddBook sym])).
    { destruct (Hk sym) as [Hk1 Hk2]. assert (Hsy : get_symbol sym s1 <> None) by (apply (proj1 (A1 sym)); left).
      unfold known_symbols, open_books in *. rewrite K1 in L3. destruct (get_symbol sym s) as [x|].
      - left. assert (Hin : sym ∈ B) by (by apply Hk1). destruct K3 as (_ & -> & _). destruct (get_symbol sym s1); [|done]. pose proof (proj2 Hk2 Hin). destruct (get_book sym s); [|done]. by destruct L3 as (_ & -> & _).
      - right. assert (Hin : sym ∉ B) by (intros Hin; by apply Hk1 in Hin). destruct K3 as (_ & -> & _). destruct (get_symbol sym s1); [|done].
        destruct (get_book sym s); [exfalso; by apply Hin, Hk2|]. by destruct L3 as (_ & -> & _). }
    constructor.
    + done.
    + rewrite (proj2 Hc2), (proj2 Hc1), <- app_assoc. done.
    + intros j. split; [apply A2|apply A3].
    + destruct A4 as [(_ & -> & ->)|(_ & -> & ->)]; done.
    + cbn [news]. destruct A4 as [(Hin & -> & ->)|(Hin & -> & ->)]; by case_decide.
    + intros ns t Hns Hf Hfl. apply told_app in Hns as (n1 & n2 & -> & H1 & H2). rewrite tell_all_app2.
      destruct (flat_call s _ s1 er1 evs1 n1 t Hr (O1 s) Hc1 H1 Hf Hfl) as [F1 F2].
      { intros j Hj. apply (proj1 (A1 j)). right. by apply (proj1 (Hk j)). }
      { intros j Hj. apply (proj2 (A1 j)). by apply (proj2 (Hk j)). }
      eapply (flat_call s1 _ s2 er2 evs2 n2 _ Hr1 (O2 s1) Hc2 H2 F1 F2).
      { intros j Hj. apply A2. by apply (proj1 (A1 j)). }
      { intros j Hj. apply A3. right. by apply (proj2 (A1 j)). }
  - assert (exists a, ops = [a] /\ order_call a = true) as (a & -> & Ho).
    { destruct m; cbn [drives] in Hd; try done; subst ops; eexists; split; reflexivity. }
    pose proof (carries_ok s B T m [a] a H Hc Hd eq_refl) as Hop. destruct (call_exists s a (reach_inv _ Hr) Hop) as (s1 & er & evs & Hcall).
    assert (s1 = s') as ->. { cbn [run] in E. rewrite (proj1 Hcall) in E. cbn in E. by injection E. }
    exists evs. destruct (deeds_call s B T m a s' er evs H Hc Hm Hd Hcall) as [D1 D2]. destruct (order_known s a s' er evs Hr Hop Hcall Ho) as [N1 N2].
    assert (books_of m = []) as Eb by (by destruct m). constructor; try done.
    + apply Hcall.
    + rewrite Eb. intros j. rewrite (N1 j), (N2 j). apply Hk.
    + rewrite D2. by destruct m.
    + intros ns t Hns Hf Hfl. eapply (flat_call s a s' er evs ns t Hr Hop Hcall Hns Hf Hfl); intros j Hj; [by apply N1|by apply N2].
Qed.

(** ** The counters *)
Definition oview : Type := Z * Z * Z * Z * Z * Z.
Definition view (t : tally) : oview := (t_orders t, t_max_orders t, t_add t, t_update t, t_delete t, t_execute t).
Definition kstep (v : oview) (d : deed) : oview :=
  let '(o, mo, a, u, l, x) := v in
  match d with
  | Arrives => (inc o, Z.max (inc o) mo, inc a, u, l, x)
  | Changes => (o, mo, a, inc u, l, x)
  | Leaves => (dec o, mo, a, u, inc l, x)
  | Trades => (o, mo, a, u, l, inc x)
  end.
Lemma view_tell ns : forall t, view (tell_all t ns) = fold_left kstep (kinds (map fst ns)) (view t).
Proof.
  induction ns as [|[ev b] ns IH]; intros t; [done|]. change (tell_all t ((ev, b) :: ns)) with (tell_all (tell t (ev, b)) ns). rewrite IH.
  cbn [map fst]. change (ev :: map fst ns) with ([ev] ++ map fst ns). rewrite kinds_app, fold_left_app. f_equal. by destruct t, ev.
Qed.
Lemma u64_inc k : inc (u64 k) = u64 (k + 1).
Proof. unfold inc, u64, TWO64. rewrite Zplus_mod_idemp_l. done. Qed.
Lemma times_cons d x l : times d (x :: l) = (if decide (x = d) then 1 else 0) + times d l.
Proof. unfold times. rewrite filter_cons. destruct (decide (x = d)); cbn [length]; lia. Qed.
Lemma updates_tell ns : forall t k, t_updates t = u64 k -> t_updates (tell_all t ns) = u64 (k + ups (map fst ns)).
Proof.
  induction ns as [|[ev b] ns IH]; intros t k Ht; [cbn; by rewrite Z.add_0_r|]. change (tell_all t ((ev, b) :: ns)) with (tell_all (tell t (ev, b)) ns).
  rewrite (IH _ (k + up1 ev)).
  - f_equal. cbn [map fst]. unfold ups. change (sumZ (map up1 (ev :: map fst ns))) with (up1 ev + sumZ (map up1 (map fst ns))). lia.
  - destruct t, ev; cbn in *; subst; rewrite ?u64_inc, ?Z.add_0_r; done.
Qed.
Lemma counts l : forall o mo a u d x, exists o' mo', fold_left kstep l (o, mo, u64 a, u64 u, u64 d, u64 x) =
  (o', mo', u64 (a + times Arrives l), u64 (u + times Changes l), u64 (d + times Leaves l), u64 (x + times Trades l)).
Proof.
  induction l as [|k l IH]; intros o mo a u d x; [exists o, mo; cbn; by rewrite !Z.add_0_r|]. rewrite !times_cons.
  destruct k; cbn [fold_left kstep]; rewrite u64_inc; rewrite ?decide_True, ?decide_False by done; rewrite !Z.add_0_l, Z.add_assoc.
  - destruct (IH (inc o) (Z.max (inc o) mo) (a + 1) u d x) as (o' & mo' & E). exists o', mo'. exact E.
  - destruct (IH o mo a (u + 1) d x) as (o' & mo' & E). exists o', mo'. exact E.
  - destruct (IH (dec o) mo a u (d + 1) x) as (o' & mo' & E). exists o', mo'. exact E.
  - destruct (IH o mo a u d (x + 1)) as (o' & mo' & E). exists o', mo'. exact E.
Qed.
Definition orders_of (v : oview) : Z * Z := let '(o, mo, _, _, _, _) := v in (o, mo).
Definition ostep (v : Z * Z) (d : deed) : Z * Z :=
  match d with Arrives => (inc (fst v), Z.max (inc (fst v)) (snd v)) | Leaves => (dec (fst v), snd v) | _ => v end.
Lemma orders_fold l : forall v, orders_of (fold_left kstep l v) = fold_left ostep l (orders_of v).
Proof. induction l as [|d l IH]; intros v; [done|]. cbn [fold_left]. rewrite IH. destruct v as [[[[[o mo] a] u] x] y]. by destruct d. Qed.
Definition zsize (T : gmap Z live) : Z := Z.of_nat (size T).
Lemma zsize_open T : (forall i v, T !! i = Some v -> 0 < v_qty v) -> 0 <= zsize T <= open_interest T.
Proof.
  unfold zsize. induction T as [|i v T Hi IH] using map_ind; intros H; [done|]. rewrite open_insert, map_size_insert_None by done. pose proof (H i v ltac:(by rewrite lookup_insert)).
  assert (0 <= Z.of_nat (size T) <= open_interest T); [|lia]. apply IH. intros j w Hj. apply (H j). rewrite lookup_insert_ne; [done|]. congruence.
Qed.
Lemma fm_size s B T : FM s B T -> 0 <= zsize T < TWO64.
Proof.
  intros H. pose proof (zsize_open T ltac:(intros i v Hv; by eapply fm_pos)). pose proof (mo_total _ (iv_map _ (reach_inv _ (fm_reach _ _ _ H)))). rewrite (fm_total _ _ _ H) in *. lia.
Qed.
Lemma zsize_new T i v : T !! i = None -> zsize (<[i := v]> T) = zsize T + 1.
Proof. intros Hi. unfold zsize. rewrite map_size_insert_None by done. lia. Qed.
Lemma zsize_change T i v w : T !! i = Some w -> zsize (<[i := v]> T) = zsize T.
Proof. intros Hi. unfold zsize. rewrite map_size_insert_Some by eauto. done. Qed.
Lemma zsize_gone T i w : T !! i = Some w -> zsize (delete i T) = zsize T - 1.
Proof.
  intros Hi. unfold zsize. rewrite map_size_delete, Hi. assert (size T <> 0%nat); [|lia]. intros H. apply map_size_empty_iff in H. subst. by rewrite lookup_empty in Hi.
Qed.
Lemma dec_id n : 1 <= n < TWO64 -> dec n = n - 1.
Proof. intros H. unfold dec. apply u64_id. lia. Qed.
Lemma inc_id n : 0 <= n -> n + 1 < TWO64 -> inc n = n + 1.
Proof. intros H1 H2. unfold inc. apply u64_id. lia. Qed.
Lemma size_pos T i (w : live) : T !! i = Some w -> 1 <= zsize T.
Proof. intros Hi. pose proof (zsize_gone _ _ _ Hi). unfold zsize in *. lia. Qed.
Lemma deed_sizes s B T m s' B' mo : FM s B T -> FM s' B' (track m T) -> carries B T m -> ~ is_modify m -> zsize T <= mo ->
  fold_left ostep (deeds T m) (zsize T, mo) = (zsize (track m T), Z.max mo (zsize (track m T))).
Proof.
  intros H H' Hc Hm Hmo. pose proof (fm_size _ _ _ H) as Hn. pose proof (fm_size _ _ _ H') as Hn'.
  assert (HT : forall id q v, T !! id = Some v -> 0 <= q <= v_qty v -> q <> 0 -> fold_left ostep (taken T id q) (zsize T, mo) = (zsize (settle id (lower q v) T), Z.max mo (zsize (settle id (lower q v) T)))).
  { intros id q v Hv Hq Hq0. unfold taken. rewrite Hv. pose proof (size_pos _ _ _ Hv). unfold settle. cbn [v_qty lower]. destruct (decide (q = v_qty v)) as [E|E].
    - rewrite decide_False by lia. cbn. rewrite (zsize_gone _ _ _ Hv), dec_id by lia. f_equal. lia.
    - rewrite decide_True by lia. cbn. rewrite (zsize_change _ _ _ _ Hv). f_equal. lia. }
  assert (HQ : forall id q v, T !! id = Some v -> 0 <= q <= v_qty v -> fold_left ostep (if decide (q = 0) then [] else taken T id q) (zsize T, mo) = (zsize (settle id (lower q v) T), Z.max mo (zsize (settle id (lower q v) T)))).
  { intros id q v Hv Hq. case_decide as E; [|by apply HT]. subst q. rewrite (lower_zero id v T Hv) by (exact (fm_pos s B T id v H Hv)). cbn. f_equal. lia. }
  assert (HX : forall id q v, T !! id = Some v -> 0 <= q <= v_qty v -> fold_left ostep (if decide (q = 0) then [] else Trades :: taken T id q) (zsize T, mo) = (zsize (settle id (lower q v) T), Z.max mo (zsize (settle id (lower q v) T)))).
  { intros id q v Hv Hq. specialize (HQ id q v Hv Hq). by case_decide. }
  destruct m as [sym|id sym sd p q|id q|id q|id p q|id p q|id nid p q|id nid sym p q|id]; cbn [deeds track] in *; try done.
  - cbn. f_equal. lia.
  - destruct Hc as ((Hfr & _) & _). rewrite (zsize_new _ _ _ Hfr) in *. cbn. rewrite inc_id by lia. f_equal. lia.
  - destruct Hc as [(v & Hv & Hq) _]. rewrite Hv. by apply HQ.
  - destruct Hc as [(v & Hv & Hq) _]. rewrite Hv. by apply HX.
  - destruct Hc as [(v & Hv & Hq) _]. rewrite Hv. by apply HX.
  - destruct Hc as ((v & Hv & Hni & Hp & _) & Hn0 & Hq & Htot). rewrite Hv in *. pose proof (size_pos _ _ _ Hv). unfold settle in *. cbn [v_qty] in *. rewrite decide_True in * by lia.
    assert (Hfr : delete id T !! nid = None) by (destruct Hni as [->|Hni]; [apply lookup_delete|]; destruct (decide (id = nid)) as [->|]; [apply lookup_delete|by rewrite lookup_delete_ne]).
    rewrite (zsize_new _ _ _ Hfr), (zsize_gone _ _ _ Hv). cbn. rewrite dec_id, inc_id by lia. f_equal; lia.
  - by destruct Hc.
  - destruct Hc as [(v & Hv) _]. pose proof (size_pos _ _ _ Hv). rewrite (zsize_gone _ _ _ Hv). cbn. rewrite dec_id by lia. f_equal. lia.
Qed.

(** ** A stream *)
Fixpoint news_all (B : list Z) (T : gmap Z live) (ms : list feed) : Z := match ms with [] => 0 | m :: ms => news B T m + news_all (books_of m ++ B) (track m T) ms end.
Record gone (s : state) (B : list Z) (T : gmap Z live) (ms : list feed) (s' : state) (evs : list event) : Prop := {
  go_fm : FM s' (books_all B ms) (track_all T ms);
  go_log : st_log s' = st_log s ++ evs;
  go_known : known s' (books_all B ms);
  go_kinds : kinds evs = deeds_all T ms;
  go_ups : ups evs = news_all B T ms;
  go_flat : forall ns t, Spec21.told ns evs -> facts s t -> flat t -> facts s' (tell_all t ns) /\ flat (tell_all t ns);
  go_sizes : forall mo, zsize T <= mo -> fold_left ostep (deeds_all T ms) (zsize T, mo) = (zsize (track_all T ms), Z.max mo (most_live T ms));
}.
Lemma gone_run ms opss : Forall2 drives ms opss -> forall s B T s', FM s B T -> known s B -> carries_all B T ms -> Forall (fun m => ~ is_modify m) ms -> run s (concat opss) = Ok s' ->
  exists evs, gone s B T ms s' evs.
Proof.
  induction 1 as [|m ops ms opss Hd _ IH]; intros s B T s' H Hk Hc Hm Hrun.
  { injection Hrun as <-. exists []. constructor; try done.
    - by rewrite app_nil_r.
    - intros ns t Hns Hf Hfl. by apply map_eq_nil in Hns as ->.
    - intros mo Hmo. cbn. unfold zsize in *. f_equal. lia. }
  destruct Hc as [Hc Hcs]. apply Forall_cons in Hm as [Hm Hms]. cbn [concat] in Hrun. rewrite run_app in Hrun. destruct (run s ops) as [s1| |] eqn:E; cbn [rbind] in Hrun; try done.
  destruct (went_step s B T m ops s1 H Hk Hc Hm Hd E) as (e1 & W). destruct (IH s1 _ _ s' (we_fm _ _ _ _ _ _ W) (we_known _ _ _ _ _ _ W) Hcs Hms Hrun) as (e2 & G).
  exists (e1 ++ e2). constructor.
  - apply G.
  - rewrite (go_log _ _ _ _ _ _ G), (we_log _ _ _ _ _ _ W). by rewrite app_assoc.
  - apply G.
  - rewrite kinds_app, (we_kinds _ _ _ _ _ _ W), (go_kinds _ _ _ _ _ _ G). done.
  - rewrite ups_app, (we_ups _ _ _ _ _ _ W), (go_ups _ _ _ _ _ _ G). done.
  - intros ns t Hns Hf Hfl. apply told_app in Hns as (n1 & n2 & -> & H1 & H2). rewrite tell_all_app2.
    destruct (we_flat _ _ _ _ _ _ W n1 t H1 Hf Hfl) as [F1 F2]. by apply (go_flat _ _ _ _ _ _ G).
  - intros mo Hmo. cbn [deeds_all]. rewrite fold_left_app, (deed_sizes s B T m s1 _ mo H (we_fm _ _ _ _ _ _ W) Hc Hm Hmo).
    rewrite (go_sizes _ _ _ _ _ _ G) by lia. cbn [most_live]. fold (zsize T). f_equal.
    assert (zsize (track m T) <= most_live (track m T) ms) by (unfold zsize; destruct ms; cbn; lia). lia.
Qed.

(** ** What is counted on the wire *)
Lemma note_fold l : forall a b, fold_left note l (u64 a, u64 b) =
  (u64 (a + Z.of_nat (length (filter (fun m => m_struct m <> "UnknownMessage"%string) l))), u64 (b + Z.of_nat (length (filter (fun m => m_struct m = "UnknownMessage"%string) l)))).
Proof.
  induction l as [|m l IH]; intros a b; [cbn; by rewrite !Z.add_0_r|]. cbn [fold_left]. unfold note at 2. rewrite !filter_cons. cbn [fst snd].
  destruct (String.eqb_spec (m_struct m) "UnknownMessage") as [E|E]; rewrite u64_inc, IH.
  - rewrite decide_False by (intros Hn; by apply Hn). rewrite decide_True by done. cbn [length]. f_equal. f_equal. lia.
  - rewrite decide_True by done. rewrite decide_False by done. cbn [length]. f_equal. f_equal. lia.
Qed.
Lemma note_all_is l : note_all l = (u64 (Z.of_nat (length (filter (fun m => m_struct m <> "UnknownMessage"%string) l))), u64 (Z.of_nat (length (filter (fun m => m_struct m = "UnknownMessage"%string) l)))).
Proof. exact (note_fold l 0 0). Qed.
Lemma count_told (xs : list Spec22.told) :
  length (filter (fun m => m_struct m <> "UnknownMessage"%string) (map as_msg xs)) = length (filter (fun x : Spec22.told => x.1 <> "UnknownMessage"%string) xs) /\
  length (filter (fun m => m_struct m = "UnknownMessage"%string) (map as_msg xs)) = length (filter (fun x : Spec22.told => x.1 = "UnknownMessage"%string) xs).
Proof. induction xs as [|x xs [IH1 IH2]]; [done|]. cbn [map]. rewrite !filter_cons. change (m_struct (as_msg x)) with x.1. repeat case_decide; cbn [length]; split; congruence. Qed.
Lemma layout_known : Forall (fun l : layout => snd (fst l) <> "UnknownMessage"%string) layouts.
Proof. apply (bool_decide_unpack _). vm_compute. exact I. Qed.
Lemma callbacks_known ks : Forall packet_ok ks -> filter (fun m => m_struct m <> "UnknownMessage"%string) (map callback ks) = map callback ks /\
  filter (fun m => m_struct m = "UnknownMessage"%string) (map callback ks) = [].
Proof.
  induction 1 as [|k ks Hk _ [IH1 IH2]]; [done|]. cbn [map]. rewrite !filter_cons. pose proof (proj1 (Forall_forall _ _) layout_known _ (proj1 Hk)) as Hn. cbn in Hn.
  rewrite decide_True by done. rewrite decide_False by done. by rewrite IH1, IH2.
Qed.
Lemma says_itch ks ms : Spec11.says ks ms -> Forall (fun m => ~ is_modify m) ms /\ (length ms <= length ks)%nat.
Proof. induction 1 as [|k ks m ms Ha Ht Hs [IH1 IH2]|k ks ms Ha Hs [IH1 IH2]]; [done| |]; (split; [|cbn; lia]); [constructor; [by destruct Ht; intros Hx; cbn in Hx|done]|done]. Qed.
Lemma load_pos l : 0 <= load l.
Proof. induction l as [|d l IH]; [done|]. unfold load in *. cbn. destruct d; cbn; lia. Qed.
Lemma load_few T m : load (deeds T m) <= 4.
Proof. destruct m; cbn [deeds]; unfold taken; repeat case_decide; repeat case_match; repeat case_decide; cbn; lia. Qed.
Lemma news_few ms : forall B T, 0 <= news_all B T ms <= 4 * Z.of_nat (length ms).
Proof.
  induction ms as [|m ms IH]; intros B T; [done|]. cbn [news_all length]. specialize (IH (books_of m ++ B) (track m T)). pose proof (load_pos (deeds T m)). pose proof (load_few T m).
  assert (0 <= news B T m <= 4) by (destruct m; cbn [news]; try case_decide; lia). lia.
Qed.
(** Two updates for each book, and the weights of the deeds. *)
Lemma news_sum ms : forall B T n n', number (fun j => j ∈ B) n -> number (fun j => j ∈ books_all B ms) n' -> news_all B T ms = 2 * (n' - n) + load (deeds_all T ms).
Proof.
  induction ms as [|m ms IH]; intros B T n n' Hn Hn'.
  - cbn in *. rewrite (number_fun _ _ _ Hn Hn'). lia.
  - cbn [news_all deeds_all]. rewrite load_app. change (books_all B (m :: ms)) with (books_all (books_of m ++ B) ms) in Hn'. destruct m; cbn [news books_of app] in *; try (rewrite (IH B _ n n' Hn Hn'); lia).
    case_decide as Hin.
    + rewrite (IH (sym :: B) _ n n'); [cbn; lia| |done]. eapply number_iff; [done|]. intros j. rewrite elem_of_cons. naive_solver.
    + rewrite (IH (sym :: B) _ (n + 1) n'); [cbn; lia| |done]. eapply number_more; [done|exact Hin|]. intros j. by rewrite elem_of_cons.
Qed.
Lemma first_book ms : carries_all [] ∅ ms -> ms <> [] -> exists sym, FBook sym ∈ ms.
Proof.
  destruct ms as [|m ms]; [done|]. intros [Hc _] _. destruct m as [sym|id sym sd p q|id q|id q|id p q|id p q|id nid p q|id nid sym p q|id]; unfold carries in Hc; cbn [feed_ok] in Hc; try (destruct Hc as [(v & Hv & _) _]; rewrite lookup_empty in Hv; done).
  - exists sym. left.
  - destruct Hc as (_ & _ & Hin & _). by apply elem_of_nil in Hin.
  - destruct Hc as [(v & Hv) _]. by rewrite lookup_empty in Hv.
Qed.

(** ** C69 *)
(** The counts of the messages: whatever the blocks, one for each message of a known type, and an error for each of an unknown one. *)
Theorem C69_counts bh blocks ms xs tail :
  Forall (Forall is_byte) blocks -> Forall (fun m => Z.of_nat (length m) <= 65535) ms -> incomplete tail -> concat blocks = stream ms ++ tail -> Forall2 Spec22.says ms xs ->
  exists d, run_blocks bh blocks new_dec = Ok d /\
    note_all (d_log d) = (u64 (Z.of_nat (length (filter (fun x : Spec22.told => x.1 <> "UnknownMessage"%string) xs))), u64 (Z.of_nat (length (filter (fun x : Spec22.told => x.1 = "UnknownMessage"%string) xs)))).
Proof.
  intros Hb Hl Ht Hc Hs. destruct (C40_stream bh (fun _ => true) blocks ms tail Hb Hl Ht Hc) as (ok & d & Hf & Hd).
  rewrite (deliver_says bh ms xs Hs) in Hd. injection Hd as <- Hd. exists d. split; [by apply run_feed|]. rewrite note_all_is, <- Hd. cbn [app].
  destruct (count_told xs) as [-> ->]. done.
Qed.
Print Assumptions C69_counts.
(** The report on a stream of packets about stocks and orders. *)
Theorem C69_report bh blocks ks tail ms hear elapsed nb :
  Forall (Forall is_byte) blocks -> Forall packet_ok ks -> incomplete tail -> concat blocks = stream (map on_wire ks) ++ tail ->
  Spec11.says ks ms -> carries_all [] ∅ ms -> ms <> [] -> Z.of_nat (length ks) * 4000000000 < TWO64 -> 0 < elapsed < TWO64 ->
  (forall l, map fst (hear l) = l) -> number (fun sym => FBook sym ∈ ms) nb ->
  exists levels level_orders, let n := Z.of_nat (length ks) in let l := deeds_all ∅ ms in let u := updates nb l in
  performance bh hear elapsed blocks = Ok [
    ("Errors", 0); ("Processing time", elapsed); ("Total ITCH messages", n); ("ITCH message latency", elapsed / n); ("ITCH message throughput", n * 1000000000 / elapsed);
    ("Total market updates", u); ("Market update latency", elapsed / u); ("Market update throughput", u * 1000000000 / elapsed);
    ("Max symbols", nb); ("Max order books", nb); ("Max order book levels", levels); ("Max order book orders", level_orders); ("Max orders", most_live ∅ ms);
    ("Add order operations", times Arrives l); ("Update order operations", times Changes l); ("Delete order operations", times Leaves l); ("Execute order operations", times Trades l)]%string.
Proof.
  intros Hb Hk Ht Hc Hs Hca Hne Hfew He Hhear Hnb.
  destruct (C40_stream bh (fun _ => true) blocks (map on_wire ks) tail Hb) as (ok & d & Hf & Hd); [|done|done|].
  { apply Forall_map. eapply Forall_impl; [done|]. apply on_wire_length. }
  rewrite (deliver_packets bh ks [] Hk) in Hd. injection Hd as <- Hlog. cbn [app] in Hlog.
  destruct (says_calls ks ms Hk Hs) as (opss & Hdr & Eo). destruct (fm_run ms opss Hdr init [] ∅ fm_init Hca) as (s & Er & _). destruct (says_itch ks ms Hs) as [Hmod Hlen].
  assert (Hk0 : known init []).
  { intros j. destruct (C30_empty j) as (E1 & E2 & _). unfold known_symbols, open_books. rewrite E1, E2. split; (split; [done|intros H; by apply elem_of_nil in H]). }
  destruct (gone_run ms opss Hdr init [] ∅ s fm_init Hk0 Hca Hmod Er) as (evs & G). pose proof (go_log _ _ _ _ _ _ G) as Hl. cbn [init st_log app] in Hl.
  set (t := tell_all no_tally (hear (st_log s))).
  assert (Htold : Spec21.told (hear (st_log s)) evs) by (unfold Spec21.told; rewrite Hhear; done).
  destruct (go_flat _ _ _ _ _ _ G _ no_tally Htold facts_init (conj eq_refl eq_refl)) as [F [F1 F2]]. fold t in F, F1, F2.
  assert (Hbooks : number (fun j => j ∈ books_all [] ms) nb) by (eapply number_iff; [exact Hnb|]; intros j; rewrite books_all_in, elem_of_nil; naive_solver).
  assert (Esy : t_symbols t = nb).
  { apply (number_fun (known_symbols s)); [apply F|]. eapply number_iff; [exact Hbooks|]. intros j. symmetry. apply (go_known _ _ _ _ _ _ G j). }
  assert (Ebk : t_order_books t = nb).
  { apply (number_fun (open_books s)); [apply F|]. eapply number_iff; [exact Hbooks|]. intros j. symmetry. apply (go_known _ _ _ _ _ _ G j). }
  assert (Eup : t_updates t = u64 (updates nb (deeds_all ∅ ms))).
  { unfold t. rewrite (updates_tell _ no_tally 0 eq_refl), Hhear, Hl, (go_ups _ _ _ _ _ _ G). rewrite (news_sum ms [] ∅ 0 nb); [|apply number_none; intros j Hj; by apply elem_of_nil in Hj|done]. unfold updates, load. f_equal. lia. }
  pose proof (news_few ms [] ∅) as Hnews. rewrite (news_sum ms [] ∅ 0 nb) in Hnews; [|apply number_none; intros j Hj; by apply elem_of_nil in Hj|done].
  assert (Hnb1 : 1 <= nb).
  { destruct (first_book ms Hca Hne) as [sym Hin]. destruct Hnb as (lb & _ & <- & Hp). apply Hp in Hin. destruct lb; [by apply elem_of_nil in Hin|cbn; lia]. }
  pose proof (load_pos (deeds_all ∅ ms)) as Hlp. fold (load (deeds_all ∅ ms)) in *.
  assert (Hu : 1 <= updates nb (deeds_all ∅ ms) <= 4 * Z.of_nat (length ks)). { unfold updates. fold (load (deeds_all ∅ ms)). lia. }
  assert (Ht64 : forall z, 0 <= z < TWO64 -> u64 z = z) by (intros; by apply u64_id).
  rewrite Ht64 in Eup by lia.
  pose proof (view_tell (hear (st_log s)) no_tally) as Hv. fold t in Hv. rewrite Hhear, Hl, (go_kinds _ _ _ _ _ _ G) in Hv.
  destruct (counts (deeds_all ∅ ms) 0 0 0 0 0 0) as (o' & mo' & Ec). change (u64 0) with 0 in Ec. change (view no_tally) with (0, 0, 0, 0, 0, 0) in Hv. rewrite Ec in Hv.
  pose proof (orders_fold (deeds_all ∅ ms) (0, 0, 0, 0, 0, 0)) as Ho. rewrite Ec in Ho. cbn [orders_of] in Ho.
  pose proof (go_sizes _ _ _ _ _ _ G 0) as Hsz. change (zsize ∅) with 0 in Hsz. rewrite Hsz in Ho by lia. injection Ho as _ Emo. 
  assert (Hml : 0 <= most_live ∅ ms) by (destruct ms; cbn; lia). rewrite Z.max_r in Emo by lia.
  assert (Htm : forall dd, 0 <= times dd (deeds_all ∅ ms) <= load (deeds_all ∅ ms)).
  { intros dd. generalize (deeds_all ∅ ms). intros l. induction l as [|x l IH]; [by split|]. rewrite times_cons. change (load (x :: l)) with (weight x + load l). destruct (decide (x = dd)), x; cbn [weight]; lia. }
  assert (Htl : forall dd, times dd (deeds_all ∅ ms) < TWO64) by (intros dd; specialize (Htm dd); lia).
  unfold view in Hv. injection Hv as V1 V2 V3 V4 V5 V6. rewrite Z.add_0_l, Ht64 in V3, V4, V5, V6 by (split; [apply Htm|apply Htl]).
  exists (t_max_levels t), (t_max_level_orders t). cbv zeta. unfold performance. rewrite (run_feed _ _ _ _ Hf). cbn [rbind]. rewrite <- Hlog, <- Eo, Er. cbn [rbind]. fold t.
  rewrite note_all_is. destruct (callbacks_known ks Hk) as [-> ->]. rewrite map_length. change (length []) with 0%nat. change (u64 (Z.of_nat 0)) with 0.
  rewrite (Ht64 (Z.of_nat (length ks))) by lia. unfold report, div64. cbn [fst snd]. rewrite Eup. rewrite !Ht64 by lia.
  assert (1 <= length ks)%nat by (destruct ms; [done|cbn in Hlen; lia]).
  replace (Z.of_nat (length ks) =? 0) with false by lia. replace (elapsed =? 0) with false by lia. replace (updates nb (deeds_all ∅ ms) =? 0) with false by lia. cbn [rbind].
  rewrite F1, F2, Esy, Ebk, V2, V3, V4, V5, V6, Emo. done.
Qed.
Print Assumptions C69_report.
(** On any bytes the program goes wrong in no other way than by a division by zero. *)
Theorem C69_any_bytes bh blocks hear elapsed : Forall (Forall is_byte) blocks -> elapsed <> 0 ->
  exists d, run_blocks bh blocks new_dec = Ok d /\ (Z.of_nat (length (d_log d)) <= TWO32 -> exists s, market_example bh blocks = Ok s /\
    (fst (note_all (d_log d)) <> 0 -> t_updates (tell_all no_tally (hear (st_log s))) <> 0 -> exists r, performance bh hear elapsed blocks = Ok r)).
Proof.
  intros Hb He. destruct (C68_any_bytes bh blocks Hb) as (d & E & H). exists d. split; [done|]. intros Hlen. destruct (H Hlen) as (s & Es & _). exists s. split; [done|]. intros Hn Hu.
  unfold performance. unfold market_example in Es. rewrite E in *. cbn [rbind] in *. rewrite Es. cbn [rbind]. unfold report, div64.
  rewrite (proj2 (Z.eqb_neq _ _) Hn), (proj2 (Z.eqb_neq _ _) He), (proj2 (Z.eqb_neq _ _) Hu). cbn [rbind]. by eexists.
Qed.
Print Assumptions C69_any_bytes.
(** It does divide by zero: on the empty input, and on a sound stream that announces no stock. *)
Theorem C69_silent_refuted : (forall bh hear elapsed, performance bh hear elapsed [] = Undef) /\
  exists k, packet_ok k /\ forall bh hear elapsed, (forall l, map fst (hear l) = l) -> performance bh hear elapsed [stream [on_wire k]] = Undef.
Proof.
  split.
  - intros bh hear elapsed. unfold performance. cbn. done.
  - exists (nth 3 a_day (mkPacket "S" "" [] [])). split.
    { pose proof a_day_ok as H. unfold a_day, layouts in *. cbn [nth]. rewrite Forall_forall in H. apply H. do 3 right. left. }
    intros bh hear elapsed Hh. assert (hear [] = []) as E by (apply (map_eq_nil fst), Hh).
    unfold performance. assert (run_blocks bh [stream [on_wire (nth 3 a_day (mkPacket "S" "" [] []))]] new_dec = Ok (mkDec 0 [] [callback (nth 3 a_day (mkPacket "S" "" [] []))])) as -> by (destruct bh; vm_compute; reflexivity).
    cbn [rbind d_log]. assert (flat_map handler_calls [callback (nth 3 a_day (mkPacket "S" "" [] []))] = []) as -> by (vm_compute; reflexivity). cbn [run rbind]. change (st_log init) with (@nil event). rewrite E.
    unfold report, div64. assert (fst (note_all [callback (nth 3 a_day (mkPacket "S" "" [] []))]) = 1) as -> by (vm_compute; reflexivity). cbn [rbind Z.eqb].
    destruct (elapsed =? 0); done.
Qed.
Print Assumptions C69_silent_refuted.
(** The stream of [C68_example]: six packets, in 3000 nanoseconds. *)
Definition plain (l : list event) : list (event * book) := map (fun ev => (ev, new_book (mkSymbol 7 0))) l.
Example C69_example : (forall l, map fst (plain l) = l) /\ number (fun sym => FBook sym ∈ a_feed) 1 /\ Spec11.says a_day a_feed /\ carries_all [] ∅ a_feed /\
  deeds_all ∅ a_feed = [Arrives; Arrives; Leaves; Arrives; Trades; Changes] /\ most_live ∅ a_feed = 2 /\ updates 1 (deeds_all ∅ a_feed) = 13 /\
  performance false plain 3000 cut_day = Ok [("Errors", 0); ("Processing time", 3000); ("Total ITCH messages", 6); ("ITCH message latency", 500); ("ITCH message throughput", 2000000);
    ("Total market updates", 13); ("Market update latency", 230); ("Market update throughput", 4333333); ("Max symbols", 1); ("Max order books", 1); ("Max order book levels", 0); ("Max order book orders", 1);
    ("Max orders", 2); ("Add order operations", 3); ("Update order operations", 1); ("Delete order operations", 1); ("Execute order operations", 1)]%string.
Proof.
  destruct C55_example as (_ & H2 & H3 & _). split; [intros l; unfold plain; rewrite map_map; apply map_id|]. split; [|split; [exact H2|split; [exact H3|split; [vm_compute; reflexivity|split; [vm_compute; reflexivity|split; vm_compute; reflexivity]]]]].
  exists [7]. split; [apply NoDup_singleton|]. split; [done|]. intros j. unfold a_feed. rewrite !elem_of_cons, !elem_of_nil. split; [intros [->|[]]; by left|intros [H|H]; [injection H as ->; by left|]; repeat (destruct H as [H|H]; [discriminate|]); done].
Qed.
(** A message of a known type, one of an unknown type. *)
Example C69_example_unknown : exists m, Forall2 Spec22.says [on_wire (nth 3 a_day (mkPacket "S" "" [] [])); [90; 1]] [m; ("UnknownMessage"%string, [("Type"%string, VText [90])])] /\ m.1 <> "UnknownMessage"%string /\
  match run_blocks false [stream [on_wire (nth 3 a_day (mkPacket "S" "" [] [])); [90; 1]]] new_dec with Ok d => note_all (d_log d) | _ => (0, 0) end = (1, 1).
Proof.
  set (k := nth 3 a_day (mkPacket "S" "" [] [])). assert (Hk : packet_ok k). { pose proof a_day_ok as H. rewrite Forall_forall in H. apply H. unfold k, a_day, layouts. cbn [nth]. do 3 right. left. }
  exists (pk_name k, delivered_fields (pk_layout k) (pk_values k)). destruct Hk as (H1 & H2 & _). split; [|split; [discriminate|vm_compute; reflexivity]].
  constructor; [by eapply Spec22.sa_known|]. constructor; [|constructor]. apply Spec22.sa_unknown. intros c name fs Hin.
  assert (Hx : forallb (fun l : layout => negb (chr (fst (fst l)) =? 90)) layouts = true) by (vm_compute; reflexivity).
  rewrite forallb_forall in Hx. apply elem_of_list_In in Hin. specialize (Hx _ Hin). cbn [fst] in Hx. lia.
Qed.
