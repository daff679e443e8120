(** * PropsPriority.v -- price-time priority: C11, C12. *)
From Coq Require Import ZifyBool.
From stdpp Require Import fin_maps relations.
From Verif Require Import Types Book Engine Manager Factory Validate LevelFacts BookInv EngInv EngPrim Steps StepsOk Refine3 Refine4 Api StateInv Micro Reach Calls Witness PropsState PropsSettle CallFacts PropsMirror PropsMirror2 Split PropsStops Spec Spec2 Spec3 Spec4.

(** ** Orders the call does not bring into flight *)
Definition apart (i : Z) (c : cfg) : Prop :=
  (forall o, snd c = Some o -> o_id o <> i) /\ (forall o, e_ords (fst c) !! i = Some o -> o_type o = LIMIT).
Definition sapart (i : Z) (s : state) : Prop := forall o, st_ords s !! i = Some o -> o_type o = LIMIT.
Lemma converted_id o : o_id (converted o) = o_id o.
Proof. unfold converted, to_market, to_limit. destruct (o_type o); cbn; try done; by destruct (is_fok _). Qed.
Lemma reduced_type i m x o : reduced_map m o !! i = Some x -> (forall y, m !! i = Some y -> o_type y = LIMIT) -> (o_id o = i -> o_type o = LIMIT) -> o_type x = LIMIT.
Proof.
  unfold reduced_map. intros H Hm Ho. destruct (_ =? 0).
  - apply lookup_delete_Some in H as [_ H]. auto. - apply lookup_insert_Some in H as [[E <-]|[_ H]]; auto.
Qed.
Lemma ustep_apart sid A i c evs c' : ustep sid A c evs c' -> apart i c -> apart i c'.
Proof.
  intros Hu [Hf Hm]. destruct Hu as [e f r p q u e' Q' Hr Hs Ht Hq0 Hx He' Hords Hlog Hpr Hp
    |e f r p u e' Q' Hr Hs Ht Hx He' Hords Hlog Hpr Hp|e o p q Hq0 Hw Hfa Hst Hna|e o p Hty Hb Hann|e o Hty Hre Htlv
    |e o u e' Hfr Hlv Hty Htif He' Hords Hlog Hpr Hp Hset|e o Hmv|e o u e' Ho Hs Hty Hre He' Hords Hlog Hpr Hp
    |e o u1 b1 u2 e' o' Ho Hs Htr Hne He' Hords Hlog Hpr Hp1 Hp2|e s|e]; unfold apart; cbn [fst snd] in *.
  - split; [done|]. intros x H. rewrite Hords in H. by eapply reduced_type.
  - split; [done|]. intros x H. rewrite Hords in H. apply lookup_delete_Some in H as [_ H]. auto.
  - split; [|done]. intros x [= <-]. cbn. by apply Hf.
  - split; [|done]. intros x [= <-]. cbn. by apply Hf.
  - split; [|done]. intros x [= <-]. rewrite converted_id. by apply Hf.
  - split; [done|]. intros x H. rewrite Hords in H. apply lookup_insert_Some in H as [[E <-]|[_ H]]; [by destruct (Hf _ eq_refl)|auto].
  - done.
  - split.
    + intros x [= <-]. rewrite converted_id. intros <-. rewrite stop_type_kind, (Hm _ Ho) in Hty. done.
    + intros x H. rewrite Hords in H. apply lookup_delete_Some in H as [_ H]. auto.
  - split; [done|]. intros x H. rewrite Hords in H. apply lookup_insert_Some in H as [[E <-]|[_ H]]; [|auto].
    unfold is_trailing, is_trailing_stop, is_trailing_stop_limit in Htr. rewrite <- E in Hm. by rewrite (Hm _ Ho) in Htr.
  - by destruct s.
  - done.
Qed.
Lemma usteps_apart sid A i c evs c' : usteps sid A c evs c' -> apart i c -> apart i c'.
Proof. induction 1 as [|c evs c1 evs' c' Hu _ IH]; [done|]. intros H. apply IH. by eapply ustep_apart. Qed.
Lemma hstep_apart sid e a evs c i : hstep sid e a evs c -> (forall o, e_ords e !! i = Some o -> o_type o = LIMIT) ->
  ~ introduces a i -> refers a <> Some i -> apart i c.
Proof.
  intros Hh Hm Hin Hre. destruct Hh as [o0 o' Hsym Hval|i' q0 o0 u e' q1 o' Q' Ho Hid Hsym Hq He' Hords Hlog Hpr Hp
    |mit i' p0 q0 o0 u e' o' evs' Q' Ho Hid Hsym Hq He' Hords Hlog Hpr Hp
    |i' ni p0 q0 o0 u e' o' Q' evs' Ho Hid Hsym Hq Hni Hty He' Hords Hlog Hpr Hp
    |i' o0 u e' Q' evs' Ho Hid Hsym He' Hords Hlog Hpr Hp
    |a2 i' price q0 o0 u e' q1 o' Q' evs' Ha Ho Hid Hsym Hq He' Hords Hlog Hpr Hp]; unfold apart; cbn [fst snd].
  - split; [|done]. intros x [= <-]. unfold o'. rewrite placed_id. exact Hin.
  - split; [done|]. intros x H. rewrite Hords in H. eapply reduced_type; [done|done|]. cbn. intros E. destruct Hre. cbn. congruence.
  - split.
    + intros x [= <-] E. destruct Hre. assert (o_id o' = o_id o0) as E' by (unfold o', modified; by destruct mit). destruct mit; cbn; congruence.
    + intros x H. rewrite Hords in H. apply lookup_delete_Some in H as [_ H]. auto.
  - split; [|intros x H; rewrite Hords in H; apply lookup_delete_Some in H as [_ H]; auto]. intros x [= <-] E. by destruct Hin.
  - split; [done|]. intros x H. rewrite Hords in H. apply lookup_delete_Some in H as [_ H]. auto.
  - split; [done|]. intros x H. rewrite Hords in H. eapply reduced_type; [done|done|]. cbn. intros E. destruct Hre. destruct Ha as [[-> _]| ->]; cbn; congruence.
Qed.
Definition opt_spares (i : Z) (x : option op) : Prop := match x with Some a => ~ introduces a i /\ refers a <> Some i | None => True end.
Lemma seg_apart A s x evs s' i : seg A s x evs s' -> opt_spares i x -> sapart i s -> sapart i s'.
Proof.
  intros Hseg Hx Hs. inversion Hseg as [a sid b hevs c uevs e' Hord Hb Htg Hh Hc Hfr Hfr' Hu|sid b uevs e' Hb Hfr' Hu]; subst; unfold sapart; cbn.
  - destruct Hx as [Hx1 Hx2]. eapply (usteps_apart _ _ i _ _ _ Hu). eapply hstep_apart; [done|exact Hs|done|done].
  - eapply (usteps_apart _ _ i _ _ _ Hu). split; [done|exact Hs].
Qed.
Lemma segs_apart A s l evs s' i : segs A s l evs s' -> Forall (opt_spares i) l -> sapart i s -> sapart i s'.
Proof.
  induction 1 as [s|s a evs s1 l evs' s' Hinv Hop Hseg Hinv1 _ IH]; intros Hl Hs; [done|]. apply Forall_cons in Hl as [Ha Hl].
  apply IH; [done|]. by eapply seg_apart.
Qed.
Lemma parts_spare a l i : ~ introduces a i -> refers a <> Some i -> Forall (part_of a) l -> Forall (opt_spares i) l.
Proof.
  intros H1 H2 Hl. eapply Forall_impl; [exact Hl|]. intros [x|]; [|done]. destruct a; cbn; intros H; try done; try (by subst).
  destruct H as [-> | ->]; cbn; naive_solver.
Qed.

(** ** C11: the best level *)
Lemma xcond_best sid A e f r p q : eng_ok sid e -> e_ords e !! o_id r = Some r -> o_type r = LIMIT -> xcond A e f r p q -> best (okind r) e = Some (okey r).
Proof.
  intros He Hr Hty Hx. destruct Hx as [o lvl Hf Hfr|o lvl Hf Hfr|Hf Ha Hw Hb|k lvl Hf Hfr]; [| |done|];
  destruct (front_facts _ _ _ _ _ He Hfr) as (_ & Ek & Ep & _); rewrite Ek, Ep; by destruct Hfr.
Qed.
Lemma best_mirror ms sid b t r : book_ok ms sid b -> (forall ty p, t ty p = shown b ty p) -> o_type r = LIMIT -> s_best (get_side (okind r) b) = Some (okey r) ->
  best_price_in t (o_side r) (o_price r).
Proof.
  intros Hb Ht Hty Hbest. destruct (best_some _ _ _ _ _ Hb Hbest) as [Hq Hall].
  assert (Ek : okind r = match o_side r with BUY => KBid | SELL => KAsk end) by (unfold okind; rewrite Hty; by destruct (o_side r)).
  assert (Ep : okey r = o_price r) by (unfold okey; by rewrite Hty). rewrite Ek, Ep in *.
  unfold best_price_in, side_type. split; [|intros p' Hp'].
  - rewrite Ht. by apply (shown_queue ms sid b (o_side r) _ Hb).
  - rewrite Ht in Hp'. apply (shown_queue ms sid b (o_side r) _ Hb) in Hp'. specialize (Hall _ Hp').
    destruct (o_side r); unfold better in Hall; cbn in Hall; lia.
Qed.
Lemma execute_head_refers sid e a hevs c o p q : hstep sid e a hevs c -> EExecute o p q ∈ hevs -> refers a = Some (o_id o).
Proof.
  intros Hh Hin. destruct Hh as [o0 o' Hsym Hval|i q0 o0 u e' q1 o' Q' Ho Hid Hsym Hq He' Hords Hlog Hpr Hp
    |mit i p0 q0 o0 u e' o' evs' Q' Ho Hid Hsym Hq He' Hords Hlog Hpr Hp
    |i ni p0 q0 o0 u e' o' Q' evs' Ho Hid Hsym Hq Hni Hty He' Hords Hlog Hpr Hp
    |i o0 u e' Q' evs' Ho Hid Hsym He' Hords Hlog Hpr Hp
    |a2 i price q0 o0 u e' q1 o' Q' evs' Ha Ho Hid Hsym Hq He' Hords Hlog Hpr Hp].
  - set_solver.
  - exfalso. apply elem_of_cons in Hin as [Hin|Hin]; [by eapply red_not_exec|by eapply lim_not_exec].
  - exfalso. apply elem_of_app in Hin as [Hin|Hin]; [by eapply lim_not_exec|]. destruct (0 <? _); set_solver.
  - exfalso. apply elem_of_app in Hin as [Hin|Hin]; [by eapply lim_not_exec|]. set_solver.
  - exfalso. apply elem_of_app in Hin as [Hin|Hin]; [by eapply lim_not_exec|]. set_solver.
  - apply elem_of_cons in Hin as [Hin|Hin].
    + injection Hin as -> _ _. destruct Ha as [[-> _]| ->]; cbn; congruence.
    + exfalso. apply elem_of_app in Hin as [Hin|Hin]; [by eapply lim_not_exec|]. apply elem_of_list_singleton in Hin. by eapply red_not_exec.
Qed.
Lemma registry_no_order_event s a s' er pre ev post : reach s -> op_ok s a -> call s a s' er (pre ++ ev :: post) -> registry_op a = true ->
  match ev with EAddSymbol _ | EDeleteSymbol _ | EAddBook _ | EDeleteBook _ => True | _ => False end.
Proof.
  intros Hr Hop Hc Hreg. destruct (call_result _ _ _ _ _ Hr Hop Hc) as (_ & Hres & _). destruct Hc as [_ Hlog].
  destruct (result_registry _ _ _ _ Hres Hreg) as (_ & _ & evs' & Hl & _ & He). rewrite Hlog in Hl. apply app_inv_head in Hl. subst evs'.
  destruct He as [E|(ev' & E & Hev)]; [by destruct pre|]. destruct pre as [|e0 pre]; cbn in E; [by injection E as <- _|injection E as _ E; by destruct pre].
Qed.
(** The execution of an order the call did not bring in, at the moment it is reported. *)
Lemma resting_exec A s a s' er pre r p q post c r0 : reach s -> op_ok s a -> call s a s' er (pre ++ EExecute r p q :: post) -> permits A s a ->
  get_order (o_id r) s = Some r0 -> o_type r0 = LIMIT -> ~ introduces a (o_id r) -> refers a <> Some (o_id r) -> mirrors c s ->
  exists s1 x l1 pre1 sid b h c0 e f pre3 m, segs A (start_of s a) l1 pre1 s1 /\ inv s1 /\ part_of a x /\ Forall (part_of a) l1 /\ pre = pre1 ++ h ++ pre3 /\
    get_book sid s1 = Some b /\
    ((x = None /\ c0 = (eng_of b s1, None) /\ h = []) \/ (exists a, x = Some a /\ order_op a = true /\ target s1 a = Some sid /\ hstep sid (eng_of b s1) a h c0)) /\
    cfg_ok sid c0 /\ usteps sid A c0 pre3 (e, f) /\ cfg_ok sid (e, f) /\ apart (o_id r) c0 /\ apart (o_id r) (e, f) /\
    e_ords e !! o_id r = Some r /\ o_sym r = sid /\ o_type r = LIMIT /\ xcond A e f r p q /\
    hear_all c pre = Some m /\ (exists t, m sid = Some t /\ forall ty p, t ty p = shown (e_bk e) ty p).
Proof.
  intros Hr Hop Hc HA Hr0 Hty0 Hni Hnr Hm. pose proof (reach_inv _ Hr) as Hinv. rewrite get_order_inv in Hr0 by done.
  destruct (registry_op a) eqn:Hreg. { by destruct (registry_no_order_event _ _ _ _ _ _ _ Hr Hop Hc Hreg). }
  destruct (call_made s a s' er pre _ post A Hr Hop Hreg Hc HA) as (s1 & x & l1 & pre1 & pre2 & post1 & Hs & Hinv1 & Hop1 & Hx & Hl1 & Hmade & ->).
  assert (Hs1 : sapart (o_id r) s1).
  { eapply segs_apart; [exact Hs|by eapply parts_spare|]. intros y Hy. assert (st_ords (start_of s a) = st_ords s) as E by (by destruct a). rewrite E in Hy. congruence. }
  assert (Hxs : opt_spares (o_id r) x). { apply (Forall_forall (opt_spares (o_id r)) [x]); [|set_solver]. apply (parts_spare a); [done|done|]. by constructor. }
  destruct (segs_hears _ _ _ _ _ Hs c) as (m1 & Hm1 & Hmi1). { eapply mirrors_books; [|done]. intros i. by destruct a. }
  apply hears_all in Hm1.
  destruct Hmade as [a1 sid b hevs c0 post2 -> Hord Hb Htg Hh Hcf E|sid b h c0 c1 c2 pre3 a' b' Hb Hst Hc0 Hus Hc1 Hu ->].
  { exfalso. apply Hxs. eapply (execute_head_refers _ _ _ _ _ r p q); [done|]. rewrite E. set_solver. }
  assert (Hap0 : apart (o_id r) c0).
  { destruct Hst as [(_ & -> & _)|(a1 & -> & _ & _ & Hh)]; [split; [done|exact Hs1]|]. destruct Hxs as [X1 X2]. eapply hstep_apart; [done|exact Hs1|done|done]. }
  pose proof (usteps_apart _ _ _ _ _ _ Hus Hap0) as Hap1.
  destruct (ustep_execs _ _ _ _ _ _ _ _ _ Hc1 Hu) as [-> [(e & f & -> & Hre & Hsy & Hty & Hxc & Hq)|(Hf & _)]].
  2: { by destruct (proj1 Hap1 _ Hf). }
  destruct (micro_hears _ _ _ _ _ _ _ _ _ _ Hinv1 Hb Hmi1 Hst Hc0 Hus) as (m & Hmm & Hk).
  exists s1, x, l1, pre1, sid, b, h, c0, e, f, pre3, m. rewrite app_nil_r in *. repeat (split; [done|]).
  split; [by eapply hear_all_app|]. by eapply knows_view.
Qed.
Theorem C11_best_level s a s' er pre r p q post c r0 : reach s -> op_ok s a -> call s a s' er (pre ++ EExecute r p q :: post) -> mirrors c s ->
  get_order (o_id r) s = Some r0 -> o_type r0 = LIMIT -> ~ introduces a (o_id r) -> refers a <> Some (o_id r) ->
  exists m t, hear_all c pre = Some m /\ m (o_sym r) = Some t /\ best_price_in t (o_side r) (o_price r).
Proof.
  intros Hr Hop Hc Hm Hr0 Hty0 Hni Hnr.
  destruct (resting_exec (wide True) s a s' er pre r p q post c r0) as (s1 & x & l1 & pre1 & sid & b & h & c0 & e & f & pre3 & m & H); try done.
  { apply permits_wide. by left. }
  destruct H as (_ & _ & _ & _ & _ & _ & _ & _ & _ & Hc1 & _ & _ & Hre & Hsy & Hty & Hxc & Hh & t & Ht & Hv).
  exists m, t. split; [done|]. split; [by rewrite Hsy|]. eapply best_mirror; [exact (proj2 (proj1 Hc1))|done|done|]. by eapply xcond_best; [exact (proj1 Hc1)| | |].
Qed.
Print Assumptions C11_best_level.

(** ** C11: the oldest order of the level *)
Definition gone (y : Z) (evs : list event) : Prop := exists x, EDeleteOrder x ∈ evs /\ o_id x = y.
Lemma gone_app_l y a b : gone y a -> gone y (a ++ b).
Proof. intros (x & H & E). exists x. set_solver. Qed.
Lemma gone_app_r y a b : gone y b -> gone y (a ++ b).
Proof. intros (x & H & E). exists x. set_solver. Qed.
Definition aheadq (b : book) (y r : Z) : Prop := exists k p l1 l2, queue b k p = l1 ++ l2 /\ y ∈ l1 /\ r ∈ l2.
Lemma aheadq_same b b' y r : same_sides b b' -> aheadq b y r -> aheadq b' y r.
Proof. intros Hs (k & p & l1 & l2 & H). exists k, p, l1, l2. by rewrite (same_sides_queue _ _ _ _ Hs). Qed.
(** One level operation that takes [x] out, or adds it at the end, or leaves the queue. *)
Lemma aheadq_prim m k p ids b b' u y r x : prim m k p ids b b' u ->
  (ids = filter (fun j => j <> x) (queue b k p) \/ ids = queue b k p \/ ids = queue b k p ++ [x]) ->
  aheadq b y r -> aheadq b' y r \/ (ids = filter (fun j => j <> x) (queue b k p) /\ (x = y \/ x = r) /\ x ∈ queue b k p).
Proof.
  intros Hp Hids (k' & p' & l1 & l2 & Hq & Hy & Hr). destruct (decide (k' = k /\ p' = p)) as [[-> ->]|Hne].
  - destruct Hids as [-> | [-> | ->]].
    + destruct (decide (x = y)) as [->|Hxy]; [right; split; [done|]; split; [by left|]; rewrite Hq; set_solver|].
      destruct (decide (x = r)) as [->|Hxr]; [right; split; [done|]; split; [by right|]; rewrite Hq; set_solver|].
      left. exists k, p, (filter (fun j => j <> x) l1), (filter (fun j => j <> x) l2).
      rewrite (prim_queue _ _ _ _ _ _ _ Hp), decide_True by done. rewrite Hq, filter_app. split; [done|].
      rewrite !elem_of_list_filter. done.
    + left. exists k, p, l1, l2. rewrite (prim_queue _ _ _ _ _ _ _ Hp), decide_True by done. done.
    + left. exists k, p, l1, (l2 ++ [x]). rewrite (prim_queue _ _ _ _ _ _ _ Hp), decide_True, Hq by done. rewrite app_assoc. set_solver.
  - left. exists k', p', l1, l2. rewrite (prim_queue _ _ _ _ _ _ _ Hp), decide_False by done. done.
Qed.
Lemma aheadq_limit sid e y r : eng_ok sid e -> aheadq (e_bk e) y r -> (forall o, e_ords e !! r = Some o -> o_type o = LIMIT) ->
  exists o, e_ords e !! y = Some o /\ o_type o = LIMIT.
Proof.
  intros He (k & p & l1 & l2 & Hq & Hy & Hr) Hl.
  destruct (queue_facts sid e k p y He) as (oy & Hoy & _ & _ & Hky & _ & Hly). { rewrite Hq. set_solver. }
  destruct (queue_facts sid e k p r He) as (or & Hor & _ & _ & Hkr & _). { rewrite Hq. set_solver. }
  exists oy. split; [done|]. pose proof (Hl _ Hor) as Ht. destruct (okind_limit _ Ht) as [E|E]; rewrite Hkr in E; rewrite <- Hky in E;
  pose proof (lo_type _ _ Hly); unfold okind in E; by destruct (o_type oy), (o_side oy).
Qed.
Lemma red_gone o evs : o_leaves o = 0 -> gone (o_id o) (red_ev o :: evs).
Proof. intros H. exists o. unfold red_ev. rewrite H. cbn. split; [left|done]. Qed.
Definition in_order (y r : Z) (c : cfg) (evs : list event) (c' : cfg) : Prop :=
  aheadq (e_bk (fst c)) y r -> gone y evs \/ aheadq (e_bk (fst c')) y r \/ e_ords (fst c') !! r = None.
Lemma ustep_in_order sid A y r c evs c' : cfg_ok sid c -> apart r c -> ustep sid A c evs c' -> in_order y r c evs c'.
Proof.
  intros [He Hf] [Hap Hlr] Hu Hah. destruct (aheadq_limit sid _ y r He Hah Hlr) as (oy & Hoy & Hty).
  destruct Hu as [e f r0 p q u e' Q' Hr Hs Ht Hq0 Hx He' Hords Hlog Hpr Hp
    |e f r0 p u e' Q' Hr Hs Ht Hx He' Hords Hlog Hpr Hp|e o p q Hq0 Hw Hfa Hst Hna|e o p Hmt Hb Hann|e o Hst Hre Htlv
    |e o u e' Hfr Hlv Hmt Htif He' Hords Hlog Hpr Hp Hset|e o Hmv|e o u e' Ho Hs Hst Hre He' Hords Hlog Hpr Hp
    |e o u1 b1 u2 e' o' Ho Hs Htr Hne He' Hords Hlog Hpr Hp1 Hp2|e s|e]; cbn [fst snd] in *.
  - destruct (aheadq_prim _ _ _ _ _ _ _ y r (o_id r0) Hp) as [H|(E & [<- | <-] & Hin)]; try done.
    + destruct (q =? o_leaves r0); auto.
    + by right; left.
    + destruct (Z.eqb_spec q (o_leaves r0)) as [->|Hq].
      * left. destruct (red_gone (executed (o_leaves r0) r0) (lev_evs sid u)) as (x & H1 & H2); [cbn; lia|]. exists x. split; [by right|done].
      * exfalso. assert (o_id r0 ∈ Q') as Hin2 by done. rewrite E in Hin2. apply elem_of_list_filter in Hin2 as [? _]. done.
    + destruct (Z.eqb_spec q (o_leaves r0)) as [->|Hq].
      * right. right. rewrite Hords. unfold reduced_map. cbn. rewrite Z.sub_diag. cbn. apply lookup_delete.
      * exfalso. assert (o_id r0 ∈ Q') as Hin2 by done. rewrite E in Hin2. apply elem_of_list_filter in Hin2 as [? _]. done.
  - destruct (aheadq_prim _ _ _ _ _ _ _ y r (o_id r0) Hp) as [H|(E & [<- | <-] & Hin)]; try done; [by left|by right; left| |].
    + left. exists (exec_incr (o_leaves r0) r0). split; [set_solver|done].
    + right. right. rewrite Hords. apply lookup_delete.
  - right. left. eapply aheadq_same; [|done]. eapply same_sides_trans; [apply same_sides_last|apply same_sides_matching].
  - by right; left.
  - by right; left.
  - right. left. destruct (aheadq_prim _ _ _ _ _ _ _ y r (o_id o) Hp) as [H|(E & _ & Hin)]; try done; [auto|].
    exfalso. destruct (queue_facts sid e _ _ _ He Hin) as (z & Hz & _). congruence.
  - by right; left.
  - destruct (aheadq_prim _ _ _ _ _ _ _ y r (o_id o) Hp) as [H|(E & [Exy|Exr] & Hin)]; try done; [by left|by right; left| |]; exfalso; rewrite stop_type_kind in Hst.
    + rewrite Exy, Hoy in Ho. injection Ho as ->. by rewrite Hty in Hst. + rewrite <- Exr in Hlr. by rewrite (Hlr _ Ho) in Hst.
  - assert (Hst : o_type o <> LIMIT). { unfold is_trailing, is_trailing_stop, is_trailing_stop_limit in Htr. by destruct (o_type o). }
    right. left. destruct (aheadq_prim _ _ _ _ _ _ _ y r (o_id o) Hp1) as [H|(E & [Exy|Exr] & Hin)]; try done; [by left| | |].
    + destruct (aheadq_prim _ _ _ _ _ _ _ y r (o_id o) Hp2) as [H'|(E & _ & Hin)]; try done; [auto|]. exfalso. apply (f_equal (fun l => bool_decide (o_id o ∈ l))) in E.
      rewrite bool_decide_eq_true_2 in E by set_solver. symmetry in E. apply bool_decide_eq_true in E. apply elem_of_list_filter in E as [? _]. done.
    + rewrite Exy, Hoy in Ho. injection Ho as ->. done. + rewrite <- Exr in Hlr. by rewrite (Hlr _ Ho) in Hst.
  - right. left. eapply aheadq_same; [|done]. destruct s; apply same_sides_prices.
  - right. left. eapply aheadq_same; [|done]. apply same_sides_reset.
Qed.
Lemma ustep_absent sid A i c evs c' : ustep sid A c evs c' -> cfg_ok sid c -> apart i c -> e_ords (fst c) !! i = None -> e_ords (fst c') !! i = None.
Proof. intros Hu Hc [Hap _] Hn. destruct (usteps_ids _ _ _ _ _ (usteps_one _ _ _ _ _ Hu) Hc i Hn) as [H _]; [|done]. exact Hap. Qed.
Lemma usteps_in_order sid A y r c evs c' : usteps sid A c evs c' -> cfg_ok sid c -> apart r c ->
  (e_ords (fst c) !! r = None -> e_ords (fst c') !! r = None) /\ in_order y r c evs c'.
Proof.
  revert c evs c'. apply (usteps_ind_ok sid A (fun c evs c' => apart r c -> (e_ords (fst c) !! r = None -> e_ords (fst c') !! r = None) /\ in_order y r c evs c')).
  - intros c Hap. split; [done|]. intros Ha. by right; left.
  - intros c evs c1 evs' c' Hc Hu Hc1 IH Hap. pose proof (ustep_apart _ _ _ _ _ _ Hu Hap) as Hap1.
    destruct (IH Hap1) as [IH1 IH2]. split; [intros Hn; apply IH1; by eapply ustep_absent|]. intros Hah.
    destruct (ustep_in_order _ _ y r _ _ _ Hc Hap Hu Hah) as [Hg|[Ha|Hn]].
    + left. by apply gone_app_l.
    + destruct (IH2 Ha) as [Hg|?]; [left; by apply gone_app_r|by right].
    + right. right. auto.
Qed.
Lemma hstep_in_order sid e a evs c y r : eng_ok sid e -> hstep sid e a evs c -> ~ introduces a r -> refers a <> Some r -> ~ requeues a y ->
  (e_ords e !! r = None -> e_ords (fst c) !! r = None) /\
  (aheadq (e_bk e) y r -> gone y evs \/ aheadq (e_bk (fst c)) y r \/ e_ords (fst c) !! r = None).
Proof.
  intros He Hh Hin Hre Hrq. destruct Hh as [o0 o' Hsym Hval|i' q0 o0 u e' q1 o' Q' Ho Hid Hsym Hq He' Hords Hlog Hpr Hp
    |mit i' p0 q0 o0 u e' o' evs' Q' Ho Hid Hsym Hq He' Hords Hlog Hpr Hp
    |i' ni p0 q0 o0 u e' o' Q' evs' Ho Hid Hsym Hq Hni Hty He' Hords Hlog Hpr Hp
    |i' o0 u e' Q' evs' Ho Hid Hsym He' Hords Hlog Hpr Hp
    |a2 i' price q0 o0 u e' q1 o' Q' evs' Ha Ho Hid Hsym Hq He' Hords Hlog Hpr Hp]; cbn [fst snd].
  - split; [done|]. intros H. by right; left.
  - assert (i' <> r) as Hir by (intros ->; by destruct Hre). split.
    { intros Hn. rewrite Hords. unfold reduced_map. destruct (_ =? 0); cbn; [rewrite lookup_delete_ne|rewrite lookup_insert_ne]; congruence. }
    intros Hah. destruct (aheadq_prim _ _ _ _ _ _ _ y r (o_id o0) Hp) as [H|(E & [Exy|Exr] & Hin')]; try done.
    + destruct (q1 =? o_leaves o0); auto.
    + by right; left.
    + destruct (Z.eqb_spec q1 (o_leaves o0)) as [Eq|Hne].
      * left. rewrite <- Exy. apply (red_gone o'). cbn. lia.
      * exfalso. assert (o_id o0 ∈ Q') as Hin2 by done. rewrite E in Hin2. apply elem_of_list_filter in Hin2 as [? _]. done.
    + congruence.
  - assert (i' <> r) as Hir by (intros ->; by destruct mit, Hre). assert (i' <> y) as Hiy by (intros ->; by destruct mit, Hrq). split.
    { intros Hn. rewrite Hords. by rewrite lookup_delete_ne. }
    intros Hah. destruct (aheadq_prim _ _ _ _ _ _ _ y r (o_id o0) Hp) as [H|(E & [Exy|Exr] & Hin')]; try done; [by left|by right; left|congruence|congruence].
  - assert (i' <> r) as Hir by (intros ->; by destruct Hre). split.
    { intros Hn. rewrite Hords. by rewrite lookup_delete_ne. }
    intros Hah. destruct (aheadq_prim _ _ _ _ _ _ _ y r (o_id o0) Hp) as [H|(E & [Exy|Exr] & Hin')]; try done; [by left|by right; left| |congruence].
    left. exists o0. unfold evs'. split; [set_solver|done].
  - assert (i' <> r) as Hir by (intros ->; by destruct Hre). split.
    { intros Hn. rewrite Hords. by rewrite lookup_delete_ne. }
    intros Hah. destruct (aheadq_prim _ _ _ _ _ _ _ y r (o_id o0) Hp) as [H|(E & [Exy|Exr] & Hin')]; try done; [by left|by right; left| |congruence].
    left. exists o0. unfold evs'. split; [set_solver|done].
  - assert (i' <> r) as Hir. { intros ->. destruct Ha as [[-> _]| ->]; by destruct Hre. } split.
    { intros Hn. rewrite Hords. unfold reduced_map. destruct (_ =? 0); cbn; [rewrite lookup_delete_ne|rewrite lookup_insert_ne]; congruence. }
    intros Hah. destruct (aheadq_prim _ _ _ _ _ _ _ y r (o_id o0) Hp) as [H|(E & [Exy|Exr] & Hin')]; try done.
    + destruct (q1 =? o_leaves o0); auto.
    + by right; left.
    + destruct (Z.eqb_spec q1 (o_leaves o0)) as [Eq|Hne].
      * left. rewrite <- Exy. unfold evs'. rewrite app_comm_cons. apply gone_app_r. apply (red_gone o'). cbn. lia.
      * exfalso. assert (o_id o0 ∈ Q') as Hin2 by done. rewrite E in Hin2. apply elem_of_list_filter in Hin2 as [? _]. done.
    + congruence.
Qed.
Definition opt_keeps (y : Z) (x : option op) : Prop := match x with Some a => ~ requeues a y | None => True end.
Definition ordered (i y r : Z) (s : state) (evs : list event) (s' : state) : Prop :=
  (st_ords s !! r = None -> st_ords s' !! r = None) /\ (ahead s i y r -> gone y evs \/ ahead s' i y r \/ st_ords s' !! r = None).
Lemma aheadq_ahead s i b y r : get_book i s = Some b -> ahead s i y r <-> aheadq b y r.
Proof.
  intros Hb. split; [intros (b' & k & p & l1 & l2 & Hb' & H)|intros (k & p & l1 & l2 & H)].
  - assert (b' = b) as -> by congruence. by exists k, p, l1, l2. - by exists b, k, p, l1, l2.
Qed.
Lemma seg_ordered A s x evs s' i y r : inv s -> seg A s x evs s' -> opt_spares r x -> opt_keeps y x -> sapart r s -> ordered i y r s evs s'.
Proof.
  intros Hinv Hseg Hx Hy Hs.
  inversion Hseg as [a sid b hevs c uevs e' Hord Hb Htg Hh Hc Hfr Hfr' Hu|sid b uevs e' Hb Hfr' Hu]; subst; unfold ordered; cbn [put_eng st_ords].
  - destruct Hx as [Hx1 Hx2]. pose proof (inv_eng _ _ _ Hinv Hb) as He.
    destruct (hstep_in_order _ _ _ _ _ y r He Hh Hx1 Hx2 Hy) as [H1 H2].
    pose proof (hstep_apart _ _ _ _ _ r Hh Hs Hx1 Hx2) as Hap.
    destruct (usteps_in_order _ _ y r _ _ _ Hu Hc Hap) as [H3 H4]. cbn [fst] in *. split; [auto|].
    intros Hah. destruct (decide (sid = i)) as [<-|Hne].
    + rewrite (aheadq_ahead _ _ _ _ _ Hb) in Hah. destruct (H2 Hah) as [Hg|[Ha|Hn]]; [left; by apply gone_app_l| |right; right; auto].
      destruct (H4 Ha) as [Hg|[Ha'|Hn]]; [left; by apply gone_app_r|right; left|by right; right].
      rewrite (aheadq_ahead _ _ (e_bk e')); [done|]. by rewrite (get_book_put _ _ _ _ _ Hb), decide_True.
    + right. left. destruct Hah as (b' & k & p & l1 & l2 & Hb' & H). exists b', k, p, l1, l2. split; [|done]. by rewrite (get_book_put _ _ _ _ _ Hb), decide_False.
  - pose proof (inv_eng _ _ _ Hinv Hb) as He.
    destruct (usteps_in_order _ _ y r _ _ _ Hu (conj He I)) as [H3 H4]. { by split. } cbn [fst] in *. split; [auto|].
    intros Hah. destruct (decide (sid = i)) as [<-|Hne].
    + rewrite (aheadq_ahead _ _ _ _ _ Hb) in Hah.
      destruct (H4 Hah) as [Hg|[Ha'|Hn]]; [by left|right; left|by right; right].
      rewrite (aheadq_ahead _ _ (e_bk e')); [done|]. by rewrite (get_book_put _ _ _ _ _ Hb), decide_True.
    + right. left. destruct Hah as (b' & k & p & l1 & l2 & Hb' & H). exists b', k, p, l1, l2. split; [|done]. by rewrite (get_book_put _ _ _ _ _ Hb), decide_False.
Qed.
Lemma segs_ordered A s l evs s' i y r : segs A s l evs s' -> Forall (opt_spares r) l -> Forall (opt_keeps y) l -> sapart r s -> ordered i y r s evs s'.
Proof.
  induction 1 as [s|s a evs s1 l evs' s' Hinv Hop Hseg Hinv1 _ IH]; intros Hl Hl' Hs; [split; [done|]; intros H; by right; left|].
  apply Forall_cons in Hl as [Ha Hl]. apply Forall_cons in Hl' as [Ha' Hl'].
  destruct (seg_ordered _ _ _ _ _ i y r Hinv Hseg Ha Ha' Hs) as [H1 H2].
  destruct (IH Hl Hl' (seg_apart _ _ _ _ _ _ Hseg Ha Hs)) as [H3 H4]. split; [auto|].
  intros Hah. destruct (H2 Hah) as [Hg|[H|H]]; [left; by apply gone_app_l| |right; right; auto].
  destruct (H4 H) as [Hg|?]; [left; by apply gone_app_r|by right].
Qed.
Lemma parts_keep a l y : ~ requeues a y -> Forall (part_of a) l -> Forall (opt_keeps y) l.
Proof.
  intros H Hl. eapply Forall_impl; [exact Hl|]. intros [x|]; [|done]. destruct a; cbn; intros Hp; try done; try (by subst).
  by destruct Hp as [-> | ->].
Qed.
Lemma mirrors_exists s : exists c, mirrors c s.
Proof. exists (fun i => (fun b ty p => shown b ty p) <$> get_book i s). intros i. by destruct (get_book i s). Qed.
(** With matching on and no All-Or-None order, an order resting before the call is executed only
    when every order queued before it in its level has left the book. *)
Theorem C11_oldest_partial s a s' er pre r p q post r0 y : reach_with adds_no_aon s -> adds_no_aon a -> st_match s = true -> op_ok s a ->
  call s a s' er (pre ++ EExecute r p q :: post) ->
  get_order (o_id r) s = Some r0 -> o_type r0 = LIMIT -> ~ introduces a (o_id r) -> refers a <> Some (o_id r) ->
  ahead s (o_sym r) y (o_id r) -> ~ requeues a y ->
  exists x, EDeleteOrder x ∈ pre /\ o_id x = y.
Proof.
  intros Hrw Hna Hm Hop Hc Hr0 Hty0 Hni Hnr Hah Hrq. pose proof (reach_with_reach _ _ Hrw) as Hr. pose proof (reach_inv _ Hr) as Hinv.
  set (A := Mode False False False True).
  assert (HA : permits A s a).
  { assert (no_live_aon s) by exact (reach_with_q _ adds_no_aon s closed_tif aon_keeps Hrw).
    constructor; cbn; try done; [|by right|by rewrite Hm]. split; [by right|]. right. split; [done|]. split; [by apply C01_uncrossed_partial|]. by intros []. }
  destruct (mirrors_exists s) as [c0 Hmi].
  destruct (resting_exec A s a s' er pre r p q post c0 r0) as (s1 & x & l1 & pre1 & sid & b & h & c1 & e & f & pre3 & m & H); try done.
  destruct H as (Hs & Hinv1 & Hx & Hl1 & -> & Hb & Hst & Hcf & Hus & Hcf1 & Hap0 & Hap1 & Hre & Hsy & Hty & Hxc & _).
  rewrite get_order_inv in Hr0 by done. subst sid.
  assert (Hs0 : sapart (o_id r) (start_of s a)). { intros z Hz. assert (st_ords (start_of s a) = st_ords s) as E by (by destruct a). rewrite E in Hz. congruence. }
  assert (Hah0 : ahead (start_of s a) (o_sym r) y (o_id r)). { destruct Hah as (b' & Hah). exists b'. by destruct a. }
  destruct (segs_ordered _ _ _ _ _ (o_sym r) y (o_id r) Hs) as [Ho1 Ho2]; [by eapply parts_spare|by eapply parts_keep|done|].
  pose proof (segs_apart _ _ _ _ _ (o_id r) Hs (parts_spare _ _ _ Hni Hnr Hl1) Hs0) as Hs1.
  assert (Hxs : opt_spares (o_id r) x). { apply (Forall_forall (opt_spares (o_id r)) [x]); [|set_solver]. apply (parts_spare a); [done|done|]. by constructor. }
  assert (Hxk : opt_keeps y x). { apply (Forall_forall (opt_keeps y) [x]); [|set_solver]. apply (parts_keep a); [done|]. by constructor. }
  pose proof (inv_eng _ _ _ Hinv1 Hb) as He1.
  assert (Hhead : (st_ords s1 !! o_id r = None -> e_ords (fst c1) !! o_id r = None) /\
    (aheadq b y (o_id r) -> gone y h \/ aheadq (e_bk (fst c1)) y (o_id r) \/ e_ords (fst c1) !! o_id r = None)).
  { destruct Hst as [(-> & -> & ->)|(a1 & -> & _ & _ & Hh)]; cbn [fst]; [split; [done|]; intros; by right; left|].
    destruct Hxs as [X1 X2]. by apply (hstep_in_order _ _ _ _ _ y (o_id r) He1 Hh X1 X2). }
  destruct Hhead as [Hh1 Hh2]. destruct (usteps_in_order _ _ y (o_id r) _ _ _ Hus Hcf Hap0) as [Hu1 Hu2]. cbn [fst] in *.
  destruct (Ho2 Hah0) as [Hg|[Ha|Hn]]; [by apply gone_app_l| |specialize (Hu1 ltac:(auto)); cbn in Hu1; congruence].
  rewrite (aheadq_ahead _ _ _ _ _ Hb) in Ha.
  destruct (Hh2 Ha) as [Hg|[Hb'|Hn]]; [by apply gone_app_r, gone_app_l| |specialize (Hu1 ltac:(auto)); cbn in Hu1; congruence].
  destruct (Hu2 Hb') as [Hg|[Hb2|Hn]]; [by apply gone_app_r, gone_app_r| |cbn in Hn; congruence].
  exfalso. assert (exists k lvl, front e k lvl r) as (k & lvl & Hfr). { destruct Hxc as [o lvl Hf Hfr|o lvl Hf Hfr| |]; eauto; done. }
  destruct Hb2 as (k' & p' & q1 & q2 & Hq & Hy & Hrr). cbn [fst] in Hq.
  destruct (front_facts _ _ _ _ _ (proj1 Hcf1) Hfr) as (_ & Ek & Ep & _).
  destruct (queue_facts _ e k' p' (o_id r) (proj1 Hcf1)) as (z & Hz & _ & _ & Ek' & Ep' & _). { rewrite Hq. set_solver. }
  assert (z = r) as -> by congruence. destruct Hfr as (_ & (rest & Hq2) & _).
  pose proof (queue_nodup _ _ _ k' p' (proj2 (proj1 Hcf1))) as Hnd. cbn [fst] in Hnd. rewrite Hq in Hnd. apply NoDup_app in Hnd as (_ & Hd & _).
  assert (queue (e_bk e) k' p' = o_id r :: rest) as E by (rewrite <- Ek', <- Ep', Ek, Ep; done).
  rewrite Hq in E. destruct q1 as [|z1 q1]; [by apply elem_of_nil in Hy|]. cbn in E. injection E as -> _. apply (Hd (o_id r)); [left|done].
Qed.
Print Assumptions C11_oldest_partial.
(** 10 sell against bids 4@101, 3@100 (older) and 10@100: the bid of 10 comes third. *)
Definition ex_queue : list op := setup ++ [EnableMatching; BL 1 100 3; BL 2 100 10; BL 5 101 4].
Example C11_example : let s := hist ex_queue in let a := SL 3 99 10 in
  exists pre r post, reach_with adds_no_aon s /\ adds_no_aon a /\ st_match s = true /\ op_ok s a /\
    call s a (after s a) OK (pre ++ EExecute r 100 3 :: post) /\ get_order (o_id r) s = Some r /\ o_type r = LIMIT /\
    ~ introduces a (o_id r) /\ refers a <> Some (o_id r) /\ ahead s (o_sym r) 1 (o_id r) /\ ~ requeues a 1 /\ o_id r = 2 /\
    map (fun x => (o_id (fst (fst x)), snd x)) (execs pre) = [(5, 4); (3, 4); (1, 3); (3, 3)].
Proof.
  cbv zeta. set (s := hist ex_queue). set (a := SL 3 99 10).
  assert (exists n, news s a !! n = Some (EExecute (LimitOrder 2 0 BUY 100 10 GTC MAX64) 100 3) /\
     map (fun x => (o_id (fst (fst x)), snd x)) (execs (take n (news s a))) = [(5, 4); (3, 4); (1, 3); (3, 3)]) as (n & Hn & Hm).
  { exists 11%nat. by vm_compute. }
  exists (take n (news s a)), (LimitOrder 2 0 BUY 100 10 GTC MAX64), (drop (S n) (news s a)).
  split. { apply hist_reach_with. unfold ex_queue, setup. cbn [app]. repeat (apply Forall_cons; split; [intros o [=]; by subst|]). by apply Forall_nil. }
  split. { by intros o [= <-]. } split; [by vm_compute|]. split; [by apply op_okb_ok; vm_compute|].
  split. { rewrite (take_drop_middle _ _ _ Hn). by apply (hist_call ex_queue); vm_compute. }
  split; [by vm_compute|]. split; [reflexivity|]. split; [by intros [=]|]. split; [by intros [=]|].
  split. { exists (the_book s), KBid, 100, [1], [2]. split; [by vm_compute|]. split; [by vm_compute|]. split; left. }
  split; [by intros []|]. split; [reflexivity|]. exact Hm.
Qed.

(** ** C12: Match and EnableMatching *)
(** Best price first, in Match and EnableMatching too, AON or not. *)
Theorem C12_best_level_partial s a s' er pre r p q post c r0 : reach s -> a = Match \/ a = EnableMatching ->
  call s a s' er (pre ++ EExecute r p q :: post) -> mirrors c s -> get_order (o_id r) s = Some r0 -> o_type r0 = LIMIT ->
  exists m t, hear_all c pre = Some m /\ m (o_sym r) = Some t /\ best_price_in t (o_side r) (o_price r).
Proof. intros Hr Ha Hc Hm Hr0 Hty. destruct Ha as [-> | ->]; (eapply C11_best_level; [exact Hr| |exact Hc|exact Hm|exact Hr0|exact Hty| |]); cbn; try exact I; try (by intros []); by intros [=]. Qed.
Print Assumptions C12_best_level_partial.
(** But not in queue order: bid 2 trades while the older bid 1 of the same level still has 20 of its
    30 left, so C12 as stated is false. *)
Theorem C12_fifo_refuted : exists s s' pre r p q post, reach s /\ op_ok s Match /\ call s Match s' OK (pre ++ EExecute r p q :: post) /\
  ahead s 0 1 2 /\ o_id r = 2 /\ o_sym r = 0 /\ (forall x, EDeleteOrder x ∈ pre ++ post -> o_id x <> 1) /\
  exists o, get_order 1 s' = Some o /\ o_leaves o = 20.
Proof.
  set (ops := setup ++ [BL 1 100 30; BL 2 100 10; SL 3 100 10; SL 4 100 10]). set (s := hist ops). set (r := LimitOrder 2 0 BUY 100 10 GTC MAX64).
  assert (Hn : news s Match !! 8%nat = Some (EExecute r 100 10)) by (vm_compute; reflexivity).
  assert (Hc : call s Match (after s Match) OK (news s Match)) by (apply (hist_call ops); vm_compute; reflexivity).
  assert (Ha : ahead s 0 1 2). { exists (the_book s), KBid, 100, [1], [2]. split; [vm_compute; reflexivity|]. split; [vm_compute; reflexivity|]. split; left. }
  assert (Hb : forallb (fun ev => match ev with EDeleteOrder x => negb (o_id x =? 1) | _ => true end) (news s Match) = true) by (vm_compute; reflexivity).
  assert (Hl : exists o, get_order 1 (after s Match) = Some o /\ o_leaves o = 20). { eexists. split; [vm_compute; reflexivity|reflexivity]. }
  pose proof (hist_reach ops : reach s) as Hr. generalize dependent (after s Match). generalize dependent (news s Match). clearbody s. intros evs Hn Hb s' Hc Hl.
  exists s, s', (take 8 evs), r, 100, 10, (drop 9 evs). split; [exact Hr|]. split; [exact I|].
  split. { by rewrite (take_drop_middle _ _ _ Hn). }
  split; [exact Ha|]. split; [reflexivity|]. split; [reflexivity|]. split; [|exact Hl].
  intros x Hx. assert (EDeleteOrder x ∈ evs) as Hx'.
  { rewrite <- (take_drop_middle _ _ _ Hn). apply elem_of_app in Hx as [Hx|Hx]; apply elem_of_app; [by left|right; by right]. }
  apply elem_of_list_In in Hx'. pose proof (proj1 (forallb_forall _ _) Hb _ Hx') as H1. cbn in H1. lia.
Qed.
Print Assumptions C12_fifo_refuted.
