(** * PropsOpen.v -- open quantity: C67. *)
From Coq Require Import ZifyBool.
From stdpp Require Import fin_maps relations.
From Verif Require Import Types Book Engine Manager Factory LevelFacts BookInv EngInv EngPrim Steps StepsOk Validate Api StateInv Micro Reach Calls Witness PropsState PropsSettle CallFacts PropsTally Spec Spec2 Spec23.
Open Scope Z_scope. Open Scope list_scope.

(** ** The order map as a list *)
Lemma open_total s : inv s -> open_quantity s (total (st_ords s)).
Proof.
  intros Hinv. assert (H : forall m : gmap Z order, (forall i o, m !! i = Some o -> o_id o = i) ->
    exists l, NoDup (map o_id l) /\ (forall i o, m !! i = Some o <-> o ∈ l /\ o_id o = i) /\ total m = sum_leaves l).
  { induction m as [|i o m Hi IH] using map_ind; intros Hid.
    - exists []. split; [constructor|]. split; [|by rewrite total_empty]. intros i o. rewrite lookup_empty. split; [done|]. intros [H _]. by apply elem_of_nil in H.
    - destruct IH as (l & Hnd & Hl & Ht). { intros j x Hj. apply Hid. rewrite lookup_insert_ne; [done|congruence]. }
      assert (Eid : o_id o = i) by (apply Hid, lookup_insert). exists (o :: l). split; [|split].
      + cbn. constructor; [|done]. intros Hx. apply elem_of_list_fmap in Hx as (x & Hx & Hin). assert (m !! i = Some x) by (apply Hl; split; [done|congruence]). congruence.
      + intros j x. rewrite elem_of_cons. destruct (decide (i = j)) as [<-|Hne].
        * rewrite lookup_insert. split; [intros [= <-]; auto|]. intros [[->|Hx] Hj]; [done|]. assert (m !! i = Some x) by (by apply Hl). congruence.
        * rewrite lookup_insert_ne by done. rewrite Hl. split; [naive_solver|]. intros [[->|Hx] Hj]; [congruence|done].
      + rewrite total_insert by done. cbn. by rewrite Ht. }
  destruct (H (st_ords s)) as (l & Hnd & Hl & Ht). { intros i o Ho. apply (lo_id _ _ (mo_live _ (iv_map _ Hinv) _ _ Ho)). }
  exists l. split; [done|]. split; [|done]. intros i o. rewrite get_order_inv by done. apply Hl.
Qed.
Lemma open_unique s n : inv s -> open_quantity s n -> n = total (st_ords s).
Proof.
  intros Hinv (l & Hnd & Hl & ->). assert (H : forall m : gmap Z order, NoDup (map o_id l) -> (forall i o, m !! i = Some o <-> o ∈ l /\ o_id o = i) -> sum_leaves l = total m).
  { clear. induction l as [|o l IH]; intros m Hnd Hl.
    - assert (m = ∅) as ->; [|by rewrite total_empty]. apply map_eq. intros i. rewrite lookup_empty. destruct (m !! i) as [o|] eqn:E; [|done]. apply Hl in E as [E _]. by apply elem_of_nil in E.
    - cbn in Hnd. apply NoDup_cons in Hnd as [Hi Hnd]. assert (Ho : m !! o_id o = Some o) by (apply Hl; split; [by left|done]).
      rewrite (total_delete m _ _ Ho). cbn. rewrite (IH (delete (o_id o) m)); [done|done|]. intros i x. rewrite lookup_delete_Some, Hl, elem_of_cons. split.
      + intros (Hne & [->|Hx] & Hx2); [congruence|done].
      + intros [Hx Hx2]. split; [|auto]. intros E. apply Hi. apply elem_of_list_fmap. exists x. split; [congruence|done]. }
  apply H; [done|]. intros i o. rewrite <- get_order_inv by done. apply Hl.
Qed.

(** ** Executed quantity of micro actions, heads, segments *)
Definition exq (evs : list event) : Z := sum_qty (execs evs).
Lemma exq_app a b : exq (a ++ b) = exq a + exq b.
Proof. unfold exq, execs. rewrite omap_app. induction (omap _ a) as [|x l IH]; cbn; [done|]. unfold sum_qty in *. cbn. rewrite IH. lia. Qed.
Lemma exq_lev sid u : exq (lev_evs sid u) = 0.
Proof. unfold lev_evs, lev_ev. by destruct (u_type u). Qed.
Lemma exq_lim o sid u : exq (lim_evs o sid u) = 0.
Proof. unfold lim_evs. destruct (is_limit o); [apply exq_lev|done]. Qed.
Lemma exq_red o l : exq (red_ev o :: l) = exq l.
Proof. unfold red_ev. by destruct (_ =? 0). Qed.
Lemma exq_exec o p q l : exq (EExecute o p q :: l) = q + exq l.
Proof. done. Qed.
Lemma exq_other ev l : (forall o p q, ev <> EExecute o p q) -> exq (ev :: l) = exq l.
Proof. intros H. destruct ev; try done. by destruct (H o price qty). Qed.
Lemma usteps_spent sid A c evs c' : usteps sid A c evs c' -> cfg_ok sid c ->
  total (e_ords (fst c')) + fly_leaves (snd c') + exq evs <= total (e_ords (fst c)) + fly_leaves (snd c).
Proof.
  revert c evs c'. apply (usteps_ind_ok sid A (fun c evs c' => total (e_ords (fst c')) + fly_leaves (snd c') + exq evs <= total (e_ords (fst c)) + fly_leaves (snd c))).
  { intros c. change (exq []) with 0. lia. }
  intros c evs c1 evs' c' [He Hf] Hu _ IH. rewrite exq_app. enough (total (e_ords (fst c1)) + fly_leaves (snd c1) + exq evs <= total (e_ords (fst c)) + fly_leaves (snd c)) by lia. clear IH evs' c'.
  inversion Hu as [e f r p q u e' Q Hr Hs Ht Hq Hx He' Hords Hlog Hpr Hp
    |e f r p u e' Q Hr Hs Ht Hx He' Hords Hlog Hpr Hp|e o p q Hq Hw Hfa|e o p Hty Hb|e o Hty Hre
    |e o u e' Hfr Hlv Hty Htif He' Hords Hlog Hpr Hp|e o Hmv|e o u e' Ho Hs Hty Hre He' Hords Hlog Hpr Hp
    |e o u1 b1 u2 e' o' Ho Hs Htr Hne He' Hords Hlog Hpr Hp1 Hp2|e s|e]; subst; rewrite ?exq_exec, ?exq_red, ?exq_lev, ?exq_lim, ?exq_other by done; cbn [fst snd fly_leaves].
  - rewrite Hords, (total_reduced _ r) by done. cbn. lia.
  - rewrite Hords, (total_delete (e_ords e) _ _ Hr), exq_app, exq_lev. change (exq [_]) with 0. lia.
  - change (exq []) with 0. cbn. lia.
  - change (exq []) with 0. cbn. lia.
  - change (exq []) with 0. cbn [emit e_ords]. unfold converted, to_market, to_limit. destruct (o_type o); cbn; lia.
  - rewrite Hords, total_insert by done. lia.
  - change (exq []) with 0. cbn in *. destruct Hf. lia.
  - change (exq []) with 0. rewrite Hords, (total_delete (e_ords e) _ _ Ho). unfold converted, to_market, to_limit. destruct (o_type o); cbn; lia.
  - change (exq []) with 0. rewrite Hords. erewrite total_update by done. destruct (retrail_place (calc_trailing o (e_bk e)) o Htr) as (_ & _ & _ & _ & _ & El).
    fold o' in El. lia.
  - change (exq []) with 0. cbn. lia.
  - change (exq []) with 0. cbn. lia.
Qed.
Lemma hstep_spent sid b s a evs c : inv s -> get_book sid s = Some b -> op_ok s a -> hstep sid (eng_of b s) a evs c ->
  total (e_ords (fst c)) + fly_leaves (snd c) + exq evs <= total (st_ords s) + change s a.
Proof.
  intros Hinv Hb Hop Hh. pose proof (iv_map _ Hinv) as Hm. assert (Hof : forall i, open_of s i = match st_ords s !! i with Some o => o_leaves o | None => 0 end) by (intros i; unfold open_of; by rewrite get_order_inv).
  inversion Hh as [o o' Hsym Hval|i q0 o u e' q o' Q' Ho Hid Hsym Hq He' Hords Hlog Hpr Hp
    |mit i p q o u e' o' evs' Q' Ho Hid Hsym Hq He' Hords Hlog Hpr Hp
    |i ni p q o u e' o' Q' evs' Ho Hid Hsym Hq Hni Hty He' Hords Hlog Hpr Hp
    |i o u e' Q' evs' Ho Hid Hsym He' Hords Hlog Hpr Hp
    |a' i price q0 o u e' q o' Q' evs' Ha Ho Hid Hsym Hq He' Hords Hlog Hpr Hp]; subst; cbn [fst snd fly_leaves]; cbn [change]; rewrite ?Hof; try (cbn in Ho; rewrite ?Ho; pose proof (mo_live _ Hm _ _ Ho) as Hl; pose proof (lo_leaves _ _ Hl) as Hlv; pose proof (total_delete _ _ _ Ho) as Htd).
  - change (exq [_]) with 0. destruct (placed_same o (e_bk (eng_of b s))) as (_ & _ & _ & E & _). fold o' in E. cbn. lia.
  - rewrite exq_red, exq_lim, Hords. unfold o', q in *. cbn [eng_of e_ords]. erewrite (total_reduced _ o) by done. cbn. lia.
  - unfold evs'. rewrite exq_app, exq_lim, Hords. cbn [eng_of e_ords]. assert (exq (if 0 <? o_leaves o' then [EUpdateOrder o'] else []) = 0) as -> by (by destruct (0 <? _)).
    assert (o_leaves o' <= q).
    { pose proof (lo_exec _ _ Hl) as Hex. unfold u64_range in Hex. unfold o', modified.
      destruct mit; cbn -[Z.sub].
      all: try destruct (o_exec o <? q) eqn:E; lia. }
    destruct mit; cbn [change]; rewrite Hof, Ho; lia.
  - unfold evs'. rewrite exq_app, exq_lim, Hords. cbn [eng_of e_ords]. change (exq [_; _]) with 0. cbn. lia.
  - unfold evs'. rewrite exq_app, exq_lim, Hords. cbn [eng_of e_ords]. change (exq [_]) with 0. cbn. lia.
  - unfold evs'. rewrite exq_exec, exq_app, exq_lim, exq_red, Hords. change (exq []) with 0. cbn [eng_of e_ords]. unfold o', q in *. erewrite (total_reduced _ o) by done. cbn.
    assert (change s a = 0) as ->; [|lia]. by destruct Ha as [[-> _]| ->].
Qed.
Definition part_change (s : state) (x : option op) : Z := match x with Some a => change s a | None => 0 end.
Lemma seg_spent A s x evs s' : inv s -> (forall a, x = Some a -> op_ok s a) -> seg A s x evs s' -> total (st_ords s') + exq evs <= total (st_ords s) + part_change s x.
Proof.
  intros Hinv Hop Hs. inversion Hs as [a sid b hevs c uevs e' Hord Hb Htg Hh Hc Hfr Hfr' Hu|sid b uevs e' Hb Hfr' Hu]; subst.
  - pose proof (hstep_spent sid b s a hevs c Hinv Hb (Hop a eq_refl) Hh) as H1. pose proof (usteps_spent _ _ _ _ _ Hu Hc) as H2.
    rewrite exq_app. cbn [fst snd fly_leaves part_change] in *. change (st_ords (put_eng sid e' s)) with (e_ords e'). lia.
  - pose proof (usteps_spent _ _ _ _ _ Hu (conj (inv_eng _ _ _ Hinv Hb) I)) as H2. cbn [fst snd fly_leaves part_change] in *. change (st_ords (put_eng sid e' s)) with (e_ords e'). cbn [eng_of e_ords] in H2. lia.
Qed.
Lemma segs_spent A s l evs s' : segs A s l evs s' -> Forall (fun x => x = None) l -> total (st_ords s') + exq evs <= total (st_ords s).
Proof.
  induction 1 as [s|s a evs s1 l evs' s' Hinv Hop Hseg Hinv1 _ IH]; intros Hl; [change (exq []) with 0; lia|].
  apply Forall_cons in Hl as [-> Hl]. specialize (IH Hl). pose proof (seg_spent _ _ _ _ _ Hinv Hop Hseg) as H. cbn in H. rewrite exq_app. lia.
Qed.
Lemma outcome_spent s a s' er : inv s -> op_ok s a -> order_op a = true -> outcome s a s' er ->
  exists evs, st_log s' = st_log s ++ evs /\ (er = OK -> total (st_ords s') + exq evs <= total (st_ords s) + change s a) /\
    total (st_ords s') + exq evs <= total (st_ords s) + Z.max 0 (change s a).
Proof.
  intros Hinv Hop Hord Ho. assert (Hops : forall x, Some a = Some x -> op_ok s x) by (by intros ? [= <-]).
  destruct (outcome_seg True s a s' er Hinv Hop Hord Ho (or_introl I)) as [(-> & He & _)|(evs & Hs & Hinv')].
  - exists []. rewrite app_nil_r. change (exq []) with 0. split; [done|]. split; [done|lia].
  - exists evs. split; [|pose proof (seg_spent _ _ _ _ _ Hinv Hops Hs) as H; cbn [part_change] in H; split; lia].
    assert (H : segs (wide True) s [Some a] (evs ++ []) s') by (eapply sg_cons; [done|done|exact Hs|done|constructor]). apply segs_log in H. by rewrite app_nil_r in H.
Qed.
Lemma mrun_spent s s' : mrun s s' -> inv s -> exists evs, st_log s' = st_log s ++ evs /\ total (st_ords s') + exq evs <= total (st_ords s).
Proof.
  intros Hm Hinv. destruct (mrun_segs True s s' Hm Hinv (or_introl I)) as (l & evs & Hs & Hl). exists evs. split; [by eapply segs_log|by eapply segs_spent].
Qed.
(** ** C67 *)
(** What is open after a call, and what has been executed in it, is no more than what was open before and what the call brings in. *)
Theorem C67_call s a s' er evs n n' : reach s -> op_ok s a -> call s a s' er evs -> open_quantity s n -> open_quantity s' n' ->
  n' + sum_qty (execs evs) <= n + brings s a er.
Proof.
  intros Hr Hop Hc Hn Hn'. destruct (call_result _ _ _ _ _ Hr Hop Hc) as (Hinv & Hres & Hinv'). rewrite (open_unique s n Hinv Hn), (open_unique s' n' Hinv' Hn'). clear Hn Hn' n n'.
  change (sum_qty (execs evs)) with (exq evs).
  assert (H : exists evs0, st_log s' = st_log s ++ evs0 /\ (er = OK -> total (st_ords s') + exq evs0 <= total (st_ords s) + change s a) /\
    total (st_ords s') + exq evs0 <= total (st_ords s) + Z.max 0 (change s a)).
  { destruct (registry_op a) eqn:Hreg.
    - assert (Ho : st_ords s' = st_ords s) by (by destruct (result_registry s a s' er Hres Hreg)). rewrite Ho. exists evs. split; [apply Hc|].
      assert (change s a = 0) as -> by (by destruct a). assert (exq evs = 0) as ->; [|lia]. destruct Hc as [_ Hlog]. inversion Hres; subst; try done; cbn in Hlog.
      all: try (by rewrite (log_same _ _ Hlog)). all: try (apply app_inv_head in Hlog; by subst evs). all: try (match goal with H : order_op _ = true |- _ => by destruct a end).
    - inversion Hres as [a0 s0 er0 Hord Ho|i o er0 H1 H2 Ho|i o s1 s0 er0 Ho1 Hi1 Hop1 Ho2|s0 Hm|s0 Hm| | | | | | | | | | ]; subst; try done.
      + by eapply outcome_spent.
      + exists []. rewrite app_nil_r. change (exq []) with 0. split; [done|]. split; [done|lia].
      + destruct Hop as (Hi & Hrg & Htot). destruct (outcome_spent s (DeleteOrder i) s1 OK Hinv Hi eq_refl Ho1) as (e1 & L1 & T1 & _). specialize (T1 eq_refl).
        assert (Hx : 0 <= o_leaves o). { unfold order_range, u64_range in Hrg. lia. }
        destruct (outcome_spent s1 (AddOrder o) s' er Hi1 Hop1 eq_refl Ho2) as (e2 & L2 & _ & T2). exists (e1 ++ e2). rewrite exq_app. cbn [change] in *. split; [by rewrite L2, L1, app_assoc|split; lia].
      + destruct (mrun_spent _ _ Hm Hinv) as (e1 & L1 & T1). exists e1. cbn [change]. split; [done|split; lia].
      + destruct (mrun_spent _ _ Hm (inv_matching true s Hinv)) as (e1 & L1 & T1). exists e1. cbn [change] in *. cbn in T1. split; [done|split; lia].
      + exists []. cbn. rewrite app_nil_r. change (exq []) with 0. split; [done|split; lia]. }
  destruct H as (evs0 & L & T1 & T2). destruct Hc as [_ Hlog]. rewrite Hlog in L. apply app_inv_head in L. subst evs0. unfold brings. destruct (decide _); [by apply T1|done].
Qed.
Print Assumptions C67_call.
(** Over a whole history: what has been executed and what is still open are together no more than what the calls brought in. *)
Lemma bringing_reach s N : reach_bringing s N -> reach s.
Proof. induction 1 as [|s n a s' er Hr IH Hop Hs]; [constructor|]. by eapply reach_step. Qed.
Theorem C67_history s N n : reach_bringing s N -> open_quantity s n -> n + sum_qty (execs (st_log s)) <= N.
Proof.
  intros Hr. revert n. induction Hr as [|s N a s' er Hr IH Hop Hs]; intros n Hn.
  - change (sum_qty (execs (st_log init))) with 0. pose proof (open_unique init n (reach_inv init reach_init) Hn) as ->. change (total (st_ords init)) with (total ∅). rewrite total_empty. lia.
  - pose proof (bringing_reach _ _ Hr) as Hre. pose proof (reach_inv _ Hre) as Hinv.
    destruct (call_exists s a Hinv Hop) as (s1 & er1 & evs & Hc). assert (s1 = s' /\ er1 = er) as [-> ->].
    { pose proof Hc as [Hs1 _]. rewrite Hs in Hs1. by inversion Hs1. }
    pose proof (open_total s Hinv) as Ho. specialize (IH _ Ho). pose proof (C67_call s a s' er evs _ _ Hre Hop Hc Ho Hn) as H.
    pose proof (proj2 Hc) as ->. change (sum_qty (execs (st_log s ++ evs))) with (exq (st_log s ++ evs)). rewrite exq_app. unfold exq. lia.
Qed.
Print Assumptions C67_history.

(** A buyer of 5, changed to 7 and reduced to 5 again, and a seller of 3 come in, 3 are executed on either side and 2 stay open: 2 + (3 + 3) = 8, all that was brought in. *)
Definition two_sides : list op := [AddSymbol (mkSymbol 0 1); AddOrderBook (mkSymbol 0 1); EnableMatching;
  AddOrder (LimitOrder 1 0 BUY 10 5 GTC MAX64); ModifyOrder 1 10 7; ReduceOrder 1 2; DeleteOrder 9; AddOrder (LimitOrder 2 0 SELL 9 3 GTC MAX64)].
Fixpoint brought (s : state) (ops : list op) : Z :=
  match ops with [] => 0 | a :: ops => match step s a with Ok (s', er) => brings s a er + brought s' ops | _ => 0 end end.
Lemma history_bringing ops : forall s N s', reach_bringing s N -> history s ops = Some s' -> reach_bringing s' (N + brought s ops).
Proof.
  induction ops as [|a ops IH]; intros s N s' Hr H.
  - cbn in H. injection H as <-. cbn [brought]. by rewrite Z.add_0_r.
  - cbn [history] in H. destruct (op_okb s a) eqn:E; [|done]. cbn [brought]. destruct (step s a) as [[s1 er]| |] eqn:Es; try done.
    pose proof (rb_step _ _ _ _ _ Hr (op_okb_ok _ _ E) Es) as Hr1. specialize (IH _ _ _ Hr1 H). by rewrite Z.add_assoc.
Qed.
Example C67_example : reach_bringing (hist two_sides) 8 /\ open_quantity (hist two_sides) 2 /\ sum_qty (execs (st_log (hist two_sides))) = 6.
Proof.
  split; [|split; [|vm_compute; reflexivity]].
  - assert (history init two_sides = Some (hist two_sides)) as H.
    { unfold hist. destruct (history init two_sides) eqn:E; [done|]. exfalso. assert (E2 : (match history init two_sides with Some _ => true | None => false end) = true) by (vm_compute; reflexivity). by rewrite E in E2. }
    assert (E : brought init two_sides = 8) by (vm_compute; reflexivity). rewrite <- E. exact (history_bringing two_sides init 0 _ rb_init H).
  - pose proof (open_total (hist two_sides) (reach_inv _ (hist_reach _))) as H. assert (E : total (st_ords (hist two_sides)) = 2) by (vm_compute; reflexivity). rewrite E in H. exact H.
Qed.
(** What a refused call brings has to be counted: the identifier of a live order is refused only after the new order has been executed. *)
Theorem C67_refused_refuted : exists s o s' evs, reach s /\ op_ok s (AddOrder o) /\ call s (AddOrder o) s' ORDER_DUPLICATE evs /\
  0 < sum_qty (execs evs) /\ exists n n', open_quantity s n /\ open_quantity s' n' /\ n' + sum_qty (execs evs) > n.
Proof.
  pose (ops := [AddSymbol (mkSymbol 0 1); AddOrderBook (mkSymbol 0 1); EnableMatching;
    AddOrder (LimitOrder 1 0 BUY 10 5 GTC MAX64); AddOrder (LimitOrder 2 0 BUY 8 5 GTC MAX64)]). pose (o := LimitOrder 2 0 SELL 9 8 GTC MAX64).
  exists (hist ops), o, (after (hist ops) (AddOrder o)), (news (hist ops) (AddOrder o)).
  split; [apply hist_reach|]. split; [apply op_okb_ok; vm_compute; reflexivity|]. split; [apply hist_call; vm_compute; reflexivity|]. split; [vm_compute; reflexivity|].
  exists (total (st_ords (hist ops))), (total (st_ords (after (hist ops) (AddOrder o)))).
  assert (Hop : op_ok (hist ops) (AddOrder o)) by (apply op_okb_ok; vm_compute; reflexivity).
  assert (Hc : call (hist ops) (AddOrder o) (after (hist ops) (AddOrder o)) ORDER_DUPLICATE (news (hist ops) (AddOrder o))) by (apply hist_call; vm_compute; reflexivity).
  split; [exact (open_total _ (reach_inv _ (hist_reach _)))|]. split; [exact (open_total _ (reach_inv _ (reach_step _ _ _ _ (hist_reach _) Hop (proj1 Hc))))|]. vm_compute; reflexivity.
Qed.
