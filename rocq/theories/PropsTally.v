(** * PropsTally.v -- the statistics gathered through the notifications: C65. *)
From Coq Require Import ZifyBool.
From stdpp Require Import fin_maps relations.
From Verif Require Import Types Book Engine Manager Factory Validate LevelFacts BookInv EngInv EngPrim Steps StepsOk Api StateInv Micro Reach Calls Witness PropsState PropsSettle CallFacts PropsBasic Tally Spec Spec21.
Open Scope Z_scope. Open Scope list_scope.

(** ** How many arrivals and departures of orders *)
Lemma ins_app a b : ins (a ++ b) = ins a + ins b.
Proof. induction a as [|x a IH]; cbn [ins app]; lia. Qed.
Lemma outs_app a b : outs (a ++ b) = outs a + outs b.
Proof. induction a as [|x a IH]; cbn [outs app]; lia. Qed.
Lemma ins_pos l : 0 <= ins l.
Proof. induction l as [|[] l IH]; cbn [ins in1]; lia. Qed.
Lemma outs_pos l : 0 <= outs l.
Proof. induction l as [|[] l IH]; cbn [outs out1]; lia. Qed.
Lemma ins_lev sid u : ins (lev_evs sid u) = 0 /\ outs (lev_evs sid u) = 0.
Proof. unfold lev_evs, lev_ev. by destruct (u_type u). Qed.
Lemma ins_lim o sid u : ins (lim_evs o sid u) = 0 /\ outs (lim_evs o sid u) = 0.
Proof. unfold lim_evs. destruct (is_limit o); [apply ins_lev|done]. Qed.
Lemma red_counts o : in1 (red_ev o) = 0 /\ out1 (red_ev o) = if o_leaves o =? 0 then 1 else 0.
Proof. unfold red_ev. by destruct (o_leaves o =? 0). Qed.

Definition msize (m : gmap Z order) : Z := Z.of_nat (size m).
Definition csize (c : cfg) : Z := msize (e_ords (fst c)) + match snd c with Some _ => 1 | None => 0 end.
Lemma msize_pos m : 0 <= msize m. Proof. unfold msize. lia. Qed.
Lemma msize_delete m i o : m !! i = Some o -> msize (delete i m) = msize m - 1.
Proof.
  intros Hi. unfold msize. rewrite map_size_delete, Hi. assert (size m <> 0%nat); [|lia]. intros H. apply map_size_empty_iff in H. subst. by rewrite lookup_empty in Hi.
Qed.
Lemma msize_change m i o x : m !! i = Some o -> msize (<[i := x]> m) = msize m.
Proof. intros Hi. unfold msize. rewrite map_size_insert_Some by eauto. done. Qed.
Lemma msize_some m i (o : order) : m !! i = Some o -> 1 <= msize m.
Proof. intros Hi. pose proof (msize_delete _ _ _ Hi). pose proof (msize_pos (delete i m)). lia. Qed.
Lemma msize_reduced m o o' : m !! o_id o' = Some o -> msize (reduced_map m o') = msize m - (if o_leaves o' =? 0 then 1 else 0).
Proof. intros Hi. unfold reduced_map. destruct (o_leaves o' =? 0); [by apply (msize_delete _ _ o)|]. rewrite (msize_change _ _ o) by done. lia. Qed.

Lemma ustep_counts sid A c evs c' : ustep sid A c evs c' -> ins evs = 0 /\ outs evs <= csize c /\ outs evs <= 1 /\ csize c' = csize c - outs evs.
Proof.
  intros Hu. destruct Hu as [e f r p q u e' Q Hr Hs Ht Hq Hx He' Hords Hlog Hpr Hp
    |e f r p u e' Q Hr Hs Ht Hx He' Hords Hlog Hpr Hp|e o p q Hq Hw Hfa|e o p Hty Hb|e o Hty Hre
    |e o u e' Hfr Hlv Hty Htif He' Hords Hlog Hpr Hp|e o Hmv|e o u e' Ho Hs Hty Hre He' Hords Hlog Hpr Hp
    |e o u1 b1 u2 e' o' Ho Hs Htr Hne He' Hords Hlog Hpr Hp1 Hp2|e s|e]; unfold csize; cbn [fst snd].
  - cbn [ins outs in1 out1]. destruct (ins_lev sid u) as [-> ->]. destruct (red_counts (executed q r)) as [-> ->].
    rewrite Hords, (msize_reduced _ r) by done. pose proof (msize_some _ _ _ Hr). destruct (_ =? 0), f; lia.
  - cbn [ins outs in1 out1]. rewrite ins_app, outs_app. destruct (ins_lev sid u) as [-> ->]. cbn [ins outs in1 out1].
    rewrite Hords, (msize_delete _ _ r) by done. pose proof (msize_some _ _ _ Hr). destruct f; lia.
  - cbn [ins outs in1 out1]. pose proof (msize_pos (e_ords e)). unfold exec_note. cbn. lia.
  - cbn. pose proof (msize_pos (e_ords e)). lia.
  - cbn. pose proof (msize_pos (e_ords e)). lia.
  - destruct (ins_lim o sid u) as [-> ->]. rewrite Hords. unfold msize. rewrite map_size_insert_None by done. lia.
  - cbn. pose proof (msize_pos (e_ords e)). lia.
  - cbn. rewrite Hords, (msize_delete _ _ o) by done. pose proof (msize_some _ _ _ Ho). lia.
  - cbn. rewrite Hords, (msize_change _ _ o) by done. pose proof (msize_some _ _ _ Ho). lia.
  - cbn. pose proof (msize_pos (e_ords e)). destruct s; cbn; lia.
  - cbn. pose proof (msize_pos (e_ords e)). lia.
Qed.
(** Enough orders are there for every departure. *)
Lemma usteps_counts sid A c evs c' : usteps sid A c evs c' -> ins evs = 0 /\ outs evs <= csize c /\ csize c' = csize c - outs evs.
Proof.
  induction 1 as [c|c evs c1 evs' c' Hu _ IH]; [cbn; pose proof (msize_pos (e_ords (fst c))); unfold csize; destruct (snd c); lia|].
  destruct (ustep_counts _ _ _ _ _ Hu) as (H1 & H2 & _ & H3). rewrite ins_app, outs_app. lia.
Qed.
Definition arrives (a : op) : Z := match a with AddOrder _ | ReplaceOrder _ _ _ _ | ReplaceWith _ _ => 1 | _ => 0 end.
Lemma hstep_counts sid e a evs c : hstep sid e a evs c -> ins evs = arrives a /\ outs evs <= msize (e_ords e) /\ csize c = msize (e_ords e) + ins evs - outs evs.
Proof.
  intros Hh. destruct Hh as [o0 o' Hsym Hval|i q0 o0 u e' q1 o' Q' Ho Hid' Hsym Hq' He' Hords Hlog Hpr Hp
    |mit i p0 q0 o0 u e' o' evs' Q' Ho Hid' Hsym Hq' He' Hords Hlog Hpr Hp|i ni p0 q0 o0 u e' o' Q' evs' Ho Hid' Hsym Hq' Hni Hty He' Hords Hlog Hpr Hp
    |i o0 u e' Q' evs' Ho Hid' Hsym He' Hords Hlog Hpr Hp|a i p0 q0 o0 u e' q1 o' Q' evs' Ha Ho Hid' Hsym Hq' He' Hords Hlog Hpr Hp]; unfold csize; cbn [fst snd].
  - cbn. pose proof (msize_pos (e_ords e)). unfold emit. cbn. lia.
  - cbn [ins outs]. destruct (ins_lim o0 sid u) as [-> ->]. destruct (red_counts o') as [-> ->]. pose proof (msize_some _ _ _ Ho). cbn [arrives].
    assert (e_ords e !! o_id o' = Some o0) by (unfold o'; cbn; by rewrite Hid'). rewrite Hords, (msize_reduced _ o0) by done. destruct (_ =? 0); lia.
  - unfold evs'. rewrite ins_app, outs_app. destruct (ins_lim o0 sid u) as [-> ->]. pose proof (msize_some _ _ _ Ho).
    rewrite Hords, (msize_delete _ _ o0) by done. destruct mit; cbn [arrives]; destruct (0 <? o_leaves o'); cbn; lia.
  - unfold evs'. rewrite ins_app, outs_app. destruct (ins_lim o0 sid u) as [-> ->]. pose proof (msize_some _ _ _ Ho).
    rewrite Hords, (msize_delete _ _ o0) by done. cbn. lia.
  - unfold evs'. rewrite ins_app, outs_app. destruct (ins_lim o0 sid u) as [-> ->]. pose proof (msize_some _ _ _ Ho).
    rewrite Hords, (msize_delete _ _ o0) by done. cbn. lia.
  - unfold evs'. cbn [ins outs in1 out1]. rewrite ins_app, outs_app. destruct (ins_lim o0 sid u) as [-> ->]. pose proof (msize_some _ _ _ Ho).
    cbn [ins outs]. destruct (red_counts o') as [-> ->].
    assert (e_ords e !! o_id o' = Some o0) by (unfold o'; cbn; by rewrite Hid'). rewrite Hords, (msize_reduced _ o0) by done.
    assert (arrives a = 0) as -> by (by destruct Ha as [[-> _] | ->]). destruct (_ =? 0); lia.
Qed.
(** Never more departures than orders: the running number of orders, from [v] on, does not fall below zero. *)
Definition steady (v : Z) (l : list event) : Prop := forall pre post, l = pre ++ post -> 0 <= v + ins pre - outs pre.
Lemma steady_few v l : outs l <= v -> steady v l.
Proof. intros H pre post ->. rewrite outs_app in H. pose proof (ins_pos pre). pose proof (outs_pos post). lia. Qed.
Lemma steady_app v a b : steady v a -> steady (v + ins a - outs a) b -> steady v (a ++ b).
Proof.
  intros Ha Hb pre post E. apply app_eq_inv in E as [(k & -> & ->)|(k & -> & ->)].
  - exact (Ha pre k eq_refl).
  - rewrite ins_app, outs_app. pose proof (Hb k post eq_refl). lia.
Qed.
Definition arrives_part (x : option op) : Z := match x with Some a => arrives a | None => 0 end.
Lemma seg_counts A s x evs s' : inv s -> seg A s x evs s' -> ins evs = arrives_part x /\ msize (st_ords s') = msize (st_ords s) + ins evs - outs evs /\ steady (msize (st_ords s)) evs.
Proof.
  intros Hinv Hseg. inversion Hseg as [a0 sid b0 hevs c uevs e' Hord Hb Htg Hh Hc Hfr Hfr' Hu|sid b0 uevs e' Hb Hfr' Hu]; subst; cbn [st_ords put_eng].
  - destruct (hstep_counts _ _ _ _ _ Hh) as (H1 & H2 & H3). destruct (usteps_counts _ _ _ _ _ Hu) as (H4 & H5 & H6). cbn in H2, H3.
    unfold csize in H6 at 1. cbn in H6. rewrite ins_app, outs_app. split; [cbn; lia|]. split; [lia|]. apply steady_app; apply steady_few; lia.
  - destruct (usteps_counts _ _ _ _ _ Hu) as (H4 & H5 & H6). unfold csize in H5, H6. cbn in H5, H6. split; [cbn; lia|]. split; [lia|]. apply steady_few. lia.
Qed.
Lemma segs_counts A s l evs s' : segs A s l evs s' -> ins evs = sumZ (map arrives_part l) /\ msize (st_ords s') = msize (st_ords s) + ins evs - outs evs /\ steady (msize (st_ords s)) evs.
Proof.
  induction 1 as [s|s a evs s1 l evs' s' Hi _ Hseg _ _ (H1 & H2 & H3)].
  - cbn. split; [done|]. split; [lia|]. apply steady_few. cbn. apply msize_pos.
  - destruct (seg_counts _ _ _ _ _ Hi Hseg) as (K1 & K2 & K3). rewrite ins_app, outs_app. cbn [map sumZ]. split; [|split].
    + unfold sumZ in *. cbn. lia.
    + lia.
    + apply steady_app; [done|]. rewrite <- K2. done.
Qed.

(** ** The calls *)
Lemma msize_total (m : gmap Z order) : map_ok m -> msize m <= total m.
Proof.
  intros Hm. assert (H : forall i o, m !! i = Some o -> 1 <= o_leaves o). { intros i o Hi. destruct (mo_live _ Hm _ _ Hi). lia. }
  clear Hm. revert H. induction m as [|i x m Hi IH] using map_ind; intros H.
  - rewrite total_empty. unfold msize. rewrite map_size_empty. lia.
  - rewrite total_insert by done. unfold msize in *. rewrite map_size_insert_None by done.
    assert (1 <= o_leaves x) by (apply (H i); by rewrite lookup_insert).
    assert (forall j o, m !! j = Some o -> 1 <= o_leaves o). { intros j o Hj. apply (H j). rewrite lookup_insert_ne; [done|]. intros ->. congruence. }
    specialize (IH H1). lia.
Qed.
Lemma msize_inv s : inv s -> msize (st_ords s) < TWO64.
Proof. intros Hi. pose proof (msize_total _ (iv_map _ Hi)). pose proof (mo_total _ (iv_map _ Hi)). lia. Qed.
(** The running number of orders stays at or below [k]. *)
Definition under (k v : Z) (l : list event) : Prop := forall pre post, l = pre ++ post -> v + ins pre - outs pre <= k.
Lemma under_app k v a b : under k v a -> under k (v + ins a - outs a) b -> under k v (a ++ b).
Proof.
  intros Ha Hb pre post E. apply app_eq_inv in E as [(x & -> & ->)|(x & -> & ->)].
  - exact (Ha pre x eq_refl).
  - rewrite ins_app, outs_app. pose proof (Hb x post eq_refl). lia.
Qed.
Lemma under_few k v l : v + ins l <= k -> under k v l.
Proof. intros H pre post ->. rewrite ins_app in H. pose proof (ins_pos post). pose proof (outs_pos pre). lia. Qed.
Lemma under_more k k' v l : under k v l -> k <= k' -> under k' v l.
Proof. intros H Hk pre post E. pose proof (H pre post E). lia. Qed.
Definition climbs (a : op) : Z := match a with AddOrder _ => 1 | _ => 0 end.
Lemma hstep_under sid e a evs c v : hstep sid e a evs c -> order_op a = true -> under (v + climbs a) v evs.
Proof.
  intros Hh Hord. pose proof (hstep_counts _ _ _ _ _ Hh) as (H1 & _ & _).
  assert (arrives a = climbs a \/ exists i ni p q, a = ReplaceOrder i ni p q) as [E|(i & ni & p & q & ->)].
  { destruct a; try (by left); try done. right. eauto. }
  - apply under_few. lia.
  - inversion Hh as [|?|mm|i0 ni0 p0 q0 o0 u e' o' Q' evs' Ho Hid' Hsym Hq' Hni Hty He' Hords Hlog Hpr Hp| |aa ? ? ? ? ? ? ? ? ? ? Haa]; subst.
    all: try (by destruct mm); try (by destruct Haa as [[? _]|?]).
    unfold evs'. cbn [climbs]. apply under_app.
    { apply under_few. destruct (ins_lim o0 (o_sym o0) u) as [-> _]. lia. }
    destruct (ins_lim o0 (o_sym o0) u) as [-> ->].
    intros pre post E. destruct pre as [|x [|y [|]]]; cbn in E; try done.
    + cbn. lia.
    + injection E as <- _. cbn. lia.
    + injection E as <- <- _. cbn. lia.
Qed.
(** Notifications that are not about symbols or books. *)
Definition kev (ev : event) : Prop := match ev with EAddSymbol _ | EDeleteSymbol _ | EAddBook _ | EDeleteBook _ => False | _ => True end.
Lemma kev_lev sid u : Forall kev (lev_evs sid u).
Proof. unfold lev_evs, lev_ev. destruct (u_type u); by repeat constructor. Qed.
Lemma kev_lev1 sid u : kev (lev_ev sid u).
Proof. unfold lev_ev. by destruct (u_type u). Qed.
Lemma kev_lim o sid u : Forall kev (lim_evs o sid u).
Proof. unfold lim_evs. destruct (is_limit o); [apply kev_lev|done]. Qed.
Lemma kev_red o : kev (red_ev o).
Proof. unfold red_ev. by destruct (_ =? 0). Qed.
Ltac kevs := repeat first [exact I|apply kev_red|apply kev_lev1|apply kev_lev|apply kev_lim|apply Forall_nil_2|apply Forall_cons; split|apply Forall_app; split].
Lemma ustep_kev sid A c evs c' : ustep sid A c evs c' -> Forall kev evs.
Proof.
  intros Hu. destruct Hu as [e f r p q u e' Q Hr Hs Ht Hq Hx He' Hords Hlog Hpr Hp
    |e f r p u e' Q Hr Hs Ht Hx He' Hords Hlog Hpr Hp|e o p q Hq Hw Hfa|e o p Hty Hb|e o Hty Hre
    |e o u e' Hfr Hlv Hty Htif He' Hords Hlog Hpr Hp|e o Hmv|e o u e' Ho Hs Hty Hre He' Hords Hlog Hpr Hp
    |e o u1 b1 u2 e' o' Ho Hs Htr Hne He' Hords Hlog Hpr Hp1 Hp2|e s|e].
  all: kevs.
Qed.
Lemma hstep_kev sid e a evs c : hstep sid e a evs c -> Forall kev evs.
Proof.
  intros Hh. destruct Hh as [o0 o' Hsym Hval|i q0 o0 u e' q1 o' Q' Ho Hid' Hsym Hq' He' Hords Hlog Hpr Hp
    |mit i p0 q0 o0 u e' o' evs' Q' Ho Hid' Hsym Hq' He' Hords Hlog Hpr Hp|i ni p0 q0 o0 u e' o' Q' evs' Ho Hid' Hsym Hq' Hni Hty He' Hords Hlog Hpr Hp
    |i o0 u e' Q' evs' Ho Hid' Hsym He' Hords Hlog Hpr Hp|a i p0 q0 o0 u e' q1 o' Q' evs' Ha Ho Hid' Hsym Hq' He' Hords Hlog Hpr Hp].
  all: try unfold evs'; try destruct (0 <? _).
  all: kevs.
Qed.
Lemma usteps_kev sid A c evs c' : usteps sid A c evs c' -> Forall kev evs.
Proof. induction 1 as [c|c evs c1 evs' c' Hu _ IH]; [done|]. apply Forall_app. split; [by eapply ustep_kev|done]. Qed.
Lemma seg_kev A s x evs s' : seg A s x evs s' -> Forall kev evs.
Proof.
  intros Hseg. inversion Hseg as [a0 sid b0 hevs c uevs e' Hord Hb Htg Hh Hc Hfr Hfr' Hu|sid b0 uevs e' Hb Hfr' Hu]; subst.
  - apply Forall_app. split; [by eapply hstep_kev|by eapply usteps_kev].
  - by eapply usteps_kev.
Qed.

(** One call about orders. *)
Definition fine (v : Z) (l : list event) : Prop := steady v l /\ under (TWO64 - 1) v l.
Lemma fine_app v a b : fine v a -> fine (v + ins a - outs a) b -> fine v (a ++ b).
Proof. intros [? ?] [? ?]. split; [by apply steady_app|by apply under_app]. Qed.
Lemma fine_nil v : 0 <= v < TWO64 -> fine v [].
Proof. intros Hv. split; [apply steady_few; cbn; lia|apply under_few; cbn; lia]. Qed.
Record good (s : state) (evs : list event) (s' : state) (k : Z) : Prop := {
  gd_log : st_log s' = st_log s ++ evs;
  gd_size : msize (st_ords s') = msize (st_ords s) + ins evs - outs evs;
  gd_fine : fine (msize (st_ords s)) evs;
  gd_under : under (msize (st_ords s) + k) (msize (st_ords s)) evs;
  gd_kev : Forall kev evs;
}.
Lemma good_none s k : inv s -> 0 <= k -> good s [] s k.
Proof.
  intros Hi Hk. constructor; [by rewrite app_nil_r|cbn; lia|apply fine_nil; pose proof (msize_inv _ Hi); pose proof (msize_pos (st_ords s)); lia|apply under_few; cbn; lia|done].
Qed.
Lemma good_app s a s1 b s2 k k' : good s a s1 k -> good s1 b s2 k' -> 0 <= k -> 0 <= k' -> ins a - outs a + k' <= Z.max k k' -> good s (a ++ b) s2 (Z.max k k').
Proof.
  intros [L1 S1 F1 U1 K1] [L2 S2 F2 U2 K2] Hk Hk' Hab. constructor.
  - by rewrite L2, L1, app_assoc.
  - rewrite ins_app, outs_app. lia.
  - apply fine_app; [done|]. rewrite <- S1. done.
  - apply under_app; [eapply under_more; [done|lia]|]. rewrite <- S1. eapply under_more; [done|]. lia.
  - by apply Forall_app.
Qed.
Lemma usteps_under sid A c evs c' v : usteps sid A c evs c' -> under v v evs.
Proof. intros Hu. apply under_few. destruct (usteps_counts _ _ _ _ _ Hu). lia. Qed.
Lemma seg_good A s x evs s' : inv s -> inv s' -> (forall a, x = Some a -> op_ok s a) -> seg A s x evs s' ->
  good s evs s' (match x with Some a => climbs a | None => 0 end) /\ ins evs = arrives_part x.
Proof.
  intros Hinv Hinv' Hop Hseg. pose proof (seg_counts _ _ _ _ _ Hinv Hseg) as (H1 & H2 & H3). split; [|done].
  assert (Hlog : st_log s' = st_log s ++ evs).
  { assert (Hs : segs A s [x] (evs ++ []) s') by (eapply sg_cons; try done; constructor). by rewrite (segs_log _ _ _ _ _ Hs), app_nil_r. }
  assert (Hu : under (msize (st_ords s) + match x with Some a => climbs a | None => 0 end) (msize (st_ords s)) evs).
  { inversion Hseg as [a0 sid b0 hevs c uevs e' Hord Hb Htg Hh Hc Hfr Hfr' Hu|sid b0 uevs e' Hb Hfr' Hu]; subst.
    - apply under_app; [by eapply hstep_under|]. apply under_few. destruct (usteps_counts _ _ _ _ _ Hu) as (-> & _).
      pose proof (hstep_under _ _ _ _ _ (msize (st_ords s)) Hh Hord hevs [] ltac:(by rewrite app_nil_r)) as Hx. lia.
    - apply under_few. destruct (usteps_counts _ _ _ _ _ Hu) as (-> & _). lia. }
  constructor; try done; [|by eapply seg_kev].
  split; [done|]. eapply under_more; [done|].
  inversion Hseg as [a0 sid b0 hevs c uevs e' Hord Hb Htg Hh Hc Hfr Hfr' Hu'|sid b0 uevs e' Hb Hfr' Hu']; subst; [|pose proof (msize_inv _ Hinv); lia].
  pose proof (msize_inv _ Hinv). destruct (climbs a0) eqn:Ec; try (destruct a0; done); [lia|]. destruct a0; try done. injection Ec as <-.
  destruct (Hop _ eq_refl) as [Hrg Htot].
  inversion Hh as [|?|mm| | |aa ? ? ? ? ? ? ? ? ? ? Haa]; subst; try (by destruct mm); try (by destruct Haa as [[? _]|?]).
  match goal with Hv : validate ?o = OK |- _ => destruct (validate_ok o Hv Hrg) as (_ & Hl & _) end.
  pose proof (msize_total _ (iv_map _ Hinv)). lia.
Qed.
Lemma outcome_good s a s' er : inv s -> op_ok s a -> order_op a = true -> outcome s a s' er ->
  exists evs, good s evs s' (climbs a) /\ 0 <= ins evs <= arrives a.
Proof.
  intros Hinv Hop Hord Ho. destruct (outcome_seg True s a s' er Hinv Hop Hord Ho ltac:(by left)) as [(-> & _)|(evs & Hseg & Hinv')].
  - exists []. split; [apply good_none; [done|by destruct a]|]. cbn. by destruct a.
  - assert (Hop' : forall x, Some a = Some x -> op_ok s x) by (by intros x [= <-]).
    exists evs. destruct (seg_good _ _ _ _ _ Hinv Hinv' Hop' Hseg) as [Hg Hi]. split; [done|]. cbn in Hi. pose proof (ins_pos evs). lia.
Qed.
Lemma segs_good A s l evs s' : segs A s l evs s' -> inv s -> Forall (fun x => x = None) l -> good s evs s' 0 /\ ins evs = 0.
Proof.
  induction 1 as [s|s a evs s1 l evs' s' Hi Hop Hseg Hi1 _ IH]; intros Hinv Hall; [split; [by apply good_none|done]|].
  apply Forall_cons in Hall as [-> Hall]. destruct (IH Hi1 Hall) as [G2 I2]. destruct (seg_good _ _ _ _ _ Hi Hi1 Hop Hseg) as [G1 I1].
  rewrite ins_app. cbn in I1. split; [|lia]. apply (good_app _ _ _ _ _ 0 0 G1 G2); try done. pose proof (outs_pos evs). lia.
Qed.
Lemma call_good s a s' er evs : reach s -> op_ok s a -> call s a s' er evs -> registry_op a = false -> good s evs s' 1.
Proof.
  intros Hr Hop Hc Hreg. destruct (call_result _ _ _ _ _ Hr Hop Hc) as (Hinv & Hres & Hinv'). destruct Hc as [_ Hlog].
  assert (exists evs', good s evs' s' 1) as (evs' & Hg).
  2: { pose proof (gd_log _ _ _ _ Hg) as Hl. rewrite Hlog in Hl. apply app_inv_head in Hl. by subst. }
  assert (Hup : forall x y z k, good x y z k -> k <= 1 -> good x y z 1).
  { intros x y z k [] Hk. constructor; try done. eapply under_more; [done|lia]. }
  inversion Hres as [? ? ? Hord Ho|i o ? H1 H2 Ho|i o s1 ? ? Ho1 Hi1 Hop1 Ho2|? Hm|? Hm| | | | | | | | | |]; subst; try done.
  - destruct (outcome_good _ _ _ _ Hinv Hop Hord Ho) as (evs' & Hg & _). exists evs'. apply (Hup _ _ _ _ Hg). by destruct a.
  - exists []. by apply good_none.
  - assert (Hop0 : op_ok s (DeleteOrder i)) by (by destruct Hop).
    destruct (outcome_good _ _ _ _ Hinv Hop0 eq_refl Ho1) as (e1 & G1 & I1). destruct (outcome_good _ _ _ _ Hi1 Hop1 eq_refl Ho2) as (e2 & G2 & I2).
    cbn in I1. exists (e1 ++ e2). apply (good_app _ _ _ _ _ 0 1 G1 G2); try done. pose proof (outs_pos e1). lia.
  - destruct (mrun_segs True s s' Hm Hinv ltac:(by left)) as (l & evs' & Hs & Hall). exists evs'.
    destruct (segs_good _ _ _ _ _ Hs Hinv Hall) as [G _]. by apply (Hup _ _ _ 0 G).
  - destruct (mrun_segs True _ s' Hm (inv_matching true s Hinv) ltac:(by left)) as (l & evs' & Hs & Hall). exists evs'.
    destruct (segs_good _ _ _ _ _ Hs (inv_matching true s Hinv) Hall) as [G _]. apply (Hup _ _ _ 0); [|done]. by destruct G.
  - exists []. assert (G : good s [] s 1) by (by apply good_none). by destruct G.
Qed.

(** ** The counters *)
Lemma u64_id x : 0 <= x < TWO64 -> u64 x = x.
Proof. intros H. unfold u64. by rewrite Z.mod_small. Qed.
Lemma tell_all_app t a b : tell_all t (a ++ b) = tell_all (tell_all t a) b.
Proof. apply fold_left_app. Qed.
(** The counters of symbols and books. *)
Definition reg_view (t : tally) : Z * Z * Z * Z := (t_symbols t, t_max_symbols t, t_order_books t, t_max_order_books t).
Lemma tell_kev ns t : Forall kev (map fst ns) -> reg_view (tell_all t ns) = reg_view t.
Proof.
  revert t. induction ns as [|[ev b] ns IH]; intros t Hk; [done|]. cbn in Hk. apply Forall_cons in Hk as [He Hk]. cbn. fold (tell_all (tell t (ev, b)) ns).
  rewrite IH by done. by destruct t, ev.
Qed.
Lemma in_out ev : (in1 ev = 1 /\ out1 ev = 0) \/ (in1 ev = 0 /\ out1 ev = 1) \/ (in1 ev = 0 /\ out1 ev = 0).
Proof. destruct ev; cbn; lia. Qed.
Lemma tell_orders ns : forall t v k, fine v (map fst ns) -> under k v (map fst ns) -> t_orders t = v -> v <= t_max_orders t ->
  let t' := tell_all t ns in
  t_orders t' = v + ins (map fst ns) - outs (map fst ns) /\ t_orders t' <= t_max_orders t' /\ t_max_orders t <= t_max_orders t' <= Z.max (t_max_orders t) k.
Proof.
  induction ns as [|[ev b] ns IH]; intros t v k [Hs Hu] Hk Ht Hm; [cbn; lia|]. cbn. fold (tell_all (tell t (ev, b)) ns).
  pose proof (Hs [ev] (map fst ns) eq_refl) as Hs1. pose proof (Hu [ev] (map fst ns) eq_refl) as Hu1. pose proof (Hk [ev] (map fst ns) eq_refl) as Hk1. cbn in Hs1, Hu1, Hk1.
  set (w := v + in1 ev - out1 ev).
  assert (Ht1 : t_orders (tell t (ev, b)) = w /\ w <= t_max_orders (tell t (ev, b)) /\ t_max_orders t <= t_max_orders (tell t (ev, b)) <= Z.max (t_max_orders t) k).
  { unfold w. destruct t, ev; cbn in *; subst; unfold inc, dec; rewrite ?u64_id by (unfold TWO64 in *; lia); lia. }
  destruct Ht1 as (E1 & E2 & E3).
  assert (Hf : fine w (map fst ns)).
  { split; intros pre post E; [pose proof (Hs (ev :: pre) post) as H|pose proof (Hu (ev :: pre) post) as H]; cbn in H; rewrite E in H; specialize (H eq_refl); unfold w; lia. }
  assert (Hk' : under k w (map fst ns)).
  { intros pre post E. pose proof (Hk (ev :: pre) post) as H. cbn in H. rewrite E in H. specialize (H eq_refl). unfold w. lia. }
  destruct (IH _ w k Hf Hk' E1 E2) as (I1 & I2 & I3). cbn in *. split; [unfold w in *; lia|]. split; [done|]. lia.
Qed.
Lemma tell_flow ns : forall t, t_add t = u64 (t_delete t + t_orders t) -> let t' := tell_all t ns in t_add t' = u64 (t_delete t' + t_orders t').
Proof.
  induction ns as [|[ev b] ns IH]; intros t Ht; [done|]. cbn. fold (tell_all (tell t (ev, b)) ns). apply IH.
  destruct t, ev; cbn in *; try done; subst; unfold inc, dec, u64, TWO64.
  - rewrite Zplus_mod_idemp_l, Zplus_mod_idemp_r. f_equal. lia.
  - rewrite Zplus_mod_idemp_l, Zplus_mod_idemp_r. f_equal. lia.
Qed.
(** ** Numbers *)
Lemma number_fun P n n' : number P n -> number P n' -> n = n'.
Proof.
  intros (l & Hl & <- & Hp) (l' & Hl' & <- & Hp'). f_equal. apply Permutation_length. apply NoDup_Permutation; [done|done|]. intros x. by rewrite Hp, Hp'.
Qed.
Lemma number_iff P Q n : number P n -> (forall j, P j <-> Q j) -> number Q n.
Proof. intros (l & Hl & Hn & Hp) H. exists l. split; [done|]. split; [done|]. intros j. by rewrite Hp. Qed.
Lemma number_none P : (forall j, ~ P j) -> number P 0.
Proof. intros H. exists []. split; [constructor|]. split; [done|]. intros j. split; [intros Hj; by apply elem_of_nil in Hj|intros Hj; by destruct (H j)]. Qed.
Lemma number_more P Q n i : number P n -> ~ P i -> (forall j, Q j <-> j = i \/ P j) -> number Q (n + 1).
Proof.
  intros (l & Hl & Hn & Hp) Hi H. exists (i :: l). split; [constructor; [by rewrite Hp|done]|]. split; [cbn; lia|]. intros j. rewrite elem_of_cons, H, Hp. done.
Qed.
Lemma number_less P Q n i : number P n -> P i -> (forall j, Q j <-> j <> i /\ P j) -> number Q (n - 1).
Proof.
  intros (l & Hl & Hn & Hp) Hi H. apply Hp in Hi. apply elem_of_Permutation in Hi as [l' Hp']. exists l'.
  rewrite Hp' in Hl. apply NoDup_cons in Hl as [Hi Hl]. split; [done|]. split; [apply Permutation_length in Hp'; cbn in Hp'; lia|].
  intros j. rewrite H, <- Hp, Hp', elem_of_cons. naive_solver.
Qed.
Lemma number_few P n b : number P n -> (forall j, P j -> 0 <= j < b) -> 0 <= b -> n <= b.
Proof.
  intros (l & Hl & <- & Hp) Hb H0. assert (length l <= Z.to_nat b)%nat; [|lia]. rewrite <- (seqZ_length 0 b). apply submseteq_length, NoDup_submseteq; [done|].
  intros x Hx. apply elem_of_seqZ. apply Hp, Hb in Hx. lia.
Qed.
Lemma number_orders s : inv s -> number (live_orders s) (msize (st_ords s)).
Proof.
  intros Hi. exists (map fst (map_to_list (st_ords s))). split; [apply NoDup_fst_map_to_list|]. split; [rewrite map_length; unfold msize; done|].
  intros j. unfold live_orders. rewrite get_order_inv by done. rewrite elem_of_list_fmap. split.
  - intros ([i o] & -> & H). apply elem_of_map_to_list in H. cbn. by rewrite H.
  - intros H. destruct (st_ords s !! j) as [o|] eqn:E; [|done]. exists (j, o). split; [done|]. by apply elem_of_map_to_list.
Qed.
(** ** One call *)
Record facts (s : state) (t : tally) : Prop := {
  fc_orders : t_orders t = msize (st_ords s);
  fc_syms : number (known_symbols s) (t_symbols t);
  fc_books : number (open_books s) (t_order_books t);
  fc_syms_few : forall j, known_symbols s j -> 0 <= j < TWO32 - 1;
  fc_books_few : forall j, open_books s j -> 0 <= j < TWO32 - 1;
  fc_max : t_orders t <= t_max_orders t;
  fc_max_syms : t_symbols t <= t_max_symbols t;
  fc_max_books : t_order_books t <= t_max_order_books t;
}.
Record moves (s : state) (t : tally) (s' : state) (t' : tally) : Prop := {
  mv_facts : facts s' t';
  mv_max : t_max_orders t <= t_max_orders t' <= Z.max (t_max_orders t) (t_orders t + 1);
  mv_syms : t_max_symbols t' = Z.max (t_max_symbols t) (t_symbols t');
  mv_books : t_max_order_books t' = Z.max (t_max_order_books t) (t_order_books t');
}.
Lemma number_pos P n : number P n -> 0 <= n.
Proof. intros (l & _ & <- & _). lia. Qed.
Lemma known_inv s j : known_symbols s j <-> exists x, get_symbol j s = Some x.
Proof. unfold known_symbols. destruct (get_symbol j s); naive_solver. Qed.
Lemma open_inv s j : open_books s j <-> exists x, get_book j s = Some x.
Proof. unfold open_books. destruct (get_book j s); naive_solver. Qed.
Lemma moves_same s t s' : facts s t -> st_ords s' = st_ords s -> (forall j, known_symbols s' j <-> known_symbols s j) -> (forall j, open_books s' j <-> open_books s j) -> moves s t s' t.
Proof.
  intros [] Ho Hs Hb. constructor; [constructor|..]; try lia; try (by rewrite Ho).
  - eapply number_iff; [done|]. intros j. by rewrite Hs.
  - eapply number_iff; [done|]. intros j. by rewrite Hb.
  - intros j. rewrite Hs. auto.
  - intros j. rewrite Hb. auto.
Qed.
Lemma call_moves s a s' er evs ns t : reach s -> op_ok s a -> call s a s' er evs -> told ns evs -> facts s t -> moves s t s' (tell_all t ns).
Proof.
  intros Hr Hop Hc Hns Hf. destruct (registry_op a) eqn:Hreg.
  - pose proof (C30_registry s a s' er evs Hr Hop Hc) as HC. destruct (call_result _ _ _ _ _ Hr Hop Hc) as (_ & Hres & _).
    destruct (result_registry _ _ _ _ Hres Hreg) as (Ho & _ & _). clear Hres Hc. unfold told in Hns.
    pose proof (number_few _ _ (TWO32 - 1) (fc_syms _ _ Hf) (fc_syms_few _ _ Hf) ltac:(done)) as Hfew.
    pose proof (number_few _ _ (TWO32 - 1) (fc_books _ _ Hf) (fc_books_few _ _ Hf) ltac:(done)) as Hfewb.
    pose proof (number_pos _ _ (fc_syms _ _ Hf)) as Hp0. pose proof (number_pos _ _ (fc_books _ _ Hf)) as Hp1.
    assert (Hup : forall n, 0 <= n <= TWO32 - 1 -> inc n = n + 1) by (intros n Hn; unfold inc; apply u64_id; unfold TWO32, TWO64 in *; lia).
    assert (Hdn : forall n, 0 < n <= TWO32 - 1 -> dec n = n - 1) by (intros n Hn; unfold dec; apply u64_id; unfold TWO32, TWO64 in *; lia).
    destruct a as [sy|i|sy|i|o|i q|i p q|i p q|i ni p q|i o|i|i q|i p q| | |]; try done.
    + destruct HC as (Hb & Hord & HC). assert (Hb' : forall j, open_books s' j <-> open_books s j) by (intros j; unfold open_books; by rewrite Hb).
      destruct (get_symbol (sy_id sy) s) as [x|] eqn:Es; destruct HC as (_ & -> & HC).
      { apply map_eq_nil in Hns as ->. apply moves_same; try done. intros j. unfold known_symbols. by rewrite HC. }
      destruct HC as [Hnew Hold]. destruct ns as [|[ev b] [|]]; try done. injection Hns as ->.
      assert (Hk : forall j, known_symbols s' j <-> j = sy_id sy \/ known_symbols s j).
      { intros j. rewrite !known_inv. destruct (decide (j = sy_id sy)) as [->|Hne]; [rewrite Hnew; naive_solver|rewrite Hold by done; naive_solver]. }
      assert (Hno : ~ known_symbols s (sy_id sy)) by (rewrite known_inv, Es; naive_solver).
      pose proof (number_more _ _ _ _ (fc_syms _ _ Hf) Hno Hk) as Hnum. pose proof (Hup (t_symbols t) ltac:(lia)) as Hx. destruct Hf as [F1 F2 F3 F4 F5 F6 F7 F8], t. cbn in *. rewrite Hx.
      constructor; [constructor|..]; cbn; try lia; try done; try (by rewrite Ho).
      * eapply number_iff; [done|]. intros j. by rewrite Hb'.
      * intros j. rewrite Hk. intros [->|Hj]; [done|auto].
      * intros j. rewrite Hb'. auto.
    + destruct HC as (Hb & Hord & HC). assert (Hb' : forall j, open_books s' j <-> open_books s j) by (intros j; unfold open_books; by rewrite Hb).
      destruct (get_symbol i s) as [x|] eqn:Es; destruct HC as (_ & -> & HC).
      2: { apply map_eq_nil in Hns as ->. apply moves_same; try done. intros j. unfold known_symbols. by rewrite HC. }
      destruct HC as [Hnew Hold]. destruct ns as [|[ev b] [|]]; try done. injection Hns as ->.
      assert (Hk : forall j, known_symbols s' j <-> j <> i /\ known_symbols s j).
      { intros j. rewrite !known_inv. destruct (decide (j = i)) as [->|Hne]; [rewrite Hnew; naive_solver|rewrite Hold by done; naive_solver]. }
      assert (Hno : known_symbols s i) by (rewrite known_inv, Es; naive_solver).
      pose proof (number_less _ _ _ _ (fc_syms _ _ Hf) Hno Hk) as Hnum. pose proof (number_pos _ _ Hnum) as Hp2. pose proof (Hdn (t_symbols t) ltac:(lia)) as Hx.
      destruct Hf as [F1 F2 F3 F4 F5 F6 F7 F8], t. cbn in *. rewrite Hx.
      constructor; [constructor|..]; cbn; try lia; try done; try (by rewrite Ho).
      * eapply number_iff; [done|]. intros j. by rewrite Hb'.
      * intros j. rewrite Hk. intros [_ Hj]; auto.
      * intros j. rewrite Hb'. auto.
    + destruct HC as (Hb & Hord & HC). assert (Hb' : forall j, known_symbols s' j <-> known_symbols s j) by (intros j; unfold known_symbols; by rewrite Hb).
      destruct (get_symbol (sy_id sy) s) as [x|] eqn:Es.
      2: { destruct HC as (_ & -> & HC). apply map_eq_nil in Hns as ->. apply moves_same; try done. intros j. unfold open_books. by rewrite HC. }
      destruct (get_book (sy_id sy) s) as [y|] eqn:Eb; destruct HC as (_ & -> & HC).
      { apply map_eq_nil in Hns as ->. apply moves_same; try done. intros j. unfold open_books. by rewrite HC. }
      destruct HC as [Hnew Hold]. destruct ns as [|[ev b] [|]]; try done. injection Hns as ->.
      assert (Hk : forall j, open_books s' j <-> j = sy_id sy \/ open_books s j).
      { intros j. rewrite !open_inv. destruct (decide (j = sy_id sy)) as [->|Hne]; [rewrite Hnew; naive_solver|rewrite Hold by done; naive_solver]. }
      assert (Hno : ~ open_books s (sy_id sy)) by (rewrite open_inv, Eb; naive_solver).
      pose proof (number_more _ _ _ _ (fc_books _ _ Hf) Hno Hk) as Hnum. pose proof (Hup (t_order_books t) ltac:(lia)) as Hx. destruct Hf as [F1 F2 F3 F4 F5 F6 F7 F8], t. cbn in *. rewrite Hx.
      constructor; [constructor|..]; cbn; try lia; try done; try (by rewrite Ho).
      * eapply number_iff; [done|]. intros j. by rewrite Hb'.
      * intros j. rewrite Hb'. auto.
      * intros j. rewrite Hk. intros [->|Hj]; [done|auto].
    + destruct HC as (Hb & Hord & HC). assert (Hb' : forall j, known_symbols s' j <-> known_symbols s j) by (intros j; unfold known_symbols; by rewrite Hb).
      destruct (get_book i s) as [x|] eqn:Es; destruct HC as (_ & -> & HC).
      2: { apply map_eq_nil in Hns as ->. apply moves_same; try done. intros j. unfold open_books. by rewrite HC. }
      destruct HC as [Hnew Hold]. destruct ns as [|[ev b] [|]]; try done. injection Hns as ->.
      assert (Hk : forall j, open_books s' j <-> j <> i /\ open_books s j).
      { intros j. rewrite !open_inv. destruct (decide (j = i)) as [->|Hne]; [rewrite Hnew; naive_solver|rewrite Hold by done; naive_solver]. }
      assert (Hno : open_books s i) by (rewrite open_inv, Es; naive_solver).
      pose proof (number_less _ _ _ _ (fc_books _ _ Hf) Hno Hk) as Hnum. pose proof (number_pos _ _ Hnum) as Hp2. pose proof (Hdn (t_order_books t) ltac:(lia)) as Hx.
      destruct Hf as [F1 F2 F3 F4 F5 F6 F7 F8], t. cbn in *. rewrite Hx.
      constructor; [constructor|..]; cbn; try lia; try done; try (by rewrite Ho).
      * eapply number_iff; [done|]. intros j. by rewrite Hb'.
      * intros j. rewrite Hb'. auto.
      * intros j. rewrite Hk. intros [_ Hj]; auto.
  - destruct (call_good _ _ _ _ _ Hr Hop Hc Hreg) as [G1 G2 G3 G4 G5]. destruct Hf as [F1 F2 F3 F4 F5 F6 F7 F8].
    unfold told in Hns. subst evs.
    destruct (tell_orders ns t (msize (st_ords s)) (msize (st_ords s) + 1) G3 G4 F1 ltac:(lia)) as (T1 & T2 & T3).
    pose proof (tell_kev ns t G5) as Hv. unfold reg_view in Hv. injection Hv as V1 V2 V3 V4.
    assert (HC : (forall i, get_symbol i s' = get_symbol i s) /\ (forall i, get_book i s' = None <-> get_book i s = None)).
    { pose proof (C30_registry s a s' er (map fst ns) Hr Hop Hc) as HC. destruct a; try done; destruct HC as (? & ? & _); done. }
    destruct HC as [HC1 HC2]. assert (Hk : forall j, known_symbols s' j <-> known_symbols s j) by (intros j; unfold known_symbols; by rewrite HC1).
    assert (Hb : forall j, open_books s' j <-> open_books s j) by (intros j; unfold open_books; by rewrite HC2).
    constructor; [constructor|..]; rewrite ?V1, ?V2, ?V3, ?V4; try lia.
    + eapply number_iff; [done|]. intros j. by rewrite Hk.
    + eapply number_iff; [done|]. intros j. by rewrite Hb.
    + intros j. rewrite Hk. auto.
    + intros j. rewrite Hb. auto.
Qed.
Lemma facts_init : facts init no_tally.
Proof.
  assert (Hn : forall j, get_symbol j init = None /\ get_book j init = None) by (intros j; destruct (C30_empty j) as (? & ? & _); done).
  constructor; cbn; try lia; try done.
  - apply number_none. intros j H. apply H, Hn.
  - apply number_none. intros j H. apply H, Hn.
  - intros j H. destruct H. apply Hn.
  - intros j H. destruct H. apply Hn.
Qed.
Lemma told_app ns a b : told ns (a ++ b) -> exists n1 n2, ns = n1 ++ n2 /\ told n1 a /\ told n2 b.
Proof. intros H. apply map_eq_app in H as (n1 & n2 & -> & ? & ?). by exists n1, n2. Qed.
Lemma step_call s a s' er : reach s -> op_ok s a -> step s a = Ok (s', er) -> exists evs, call s a s' er evs.
Proof.
  intros Hr Hop Hst. assert (Hinv := reach_inv _ Hr). destruct (call_exists s a Hinv Hop) as (s1 & er1 & evs & Hst1 & Hl).
  exists evs. rewrite Hst in Hst1. injection Hst1 as <- <-. done.
Qed.
Lemma reach_facts s : reach s -> forall ns, told ns (st_log s) -> facts s (tell_all no_tally ns).
Proof.
  induction 1 as [|s a s' er Hr IH Hop Hst]; intros ns Hns.
  - apply map_eq_nil in Hns as ->. apply facts_init.
  - destruct (step_call _ _ _ _ Hr Hop Hst) as [evs Hc]. destruct Hc as [Hst' Hlog]. rewrite Hlog in Hns. apply told_app in Hns as (n1 & n2 & -> & H1 & H2).
    rewrite tell_all_app. by destruct (call_moves s a s' er evs n2 (tell_all no_tally n1) Hr Hop (conj Hst' Hlog) H2 (IH _ H1)).
Qed.

(** ** C65: the statistics are the true figures *)
Theorem C65_statistics s ns : reach s -> told ns (st_log s) ->
  let t := tell_all no_tally ns in
  number (live_orders s) (t_orders t) /\ number (known_symbols s) (t_symbols t) /\ number (open_books s) (t_order_books t) /\
  t_add t = u64 (t_delete t + t_orders t).
Proof.
  intros Hr Hns t. pose proof (reach_facts _ Hr ns Hns) as Hf. split; [|split; [apply Hf|split; [apply Hf|by apply tell_flow]]].
  unfold t. rewrite (fc_orders _ _ Hf). by apply number_orders, reach_inv.
Qed.
Print Assumptions C65_statistics.
(** At no notification does the running number of orders fall below zero or reach 2^64. *)
Theorem C65_no_wrap s pre post : reach s -> st_log s = pre ++ post -> 0 <= ins pre - outs pre < TWO64.
Proof.
  intros Hr. enough (H : fine 0 (st_log s) /\ msize (st_ords s) = ins (st_log s) - outs (st_log s)).
  { intros E. destruct H as [[H1 H2] _]. pose proof (H1 _ _ E). pose proof (H2 _ _ E). lia. }
  induction Hr as [|s a s' er Hr IH Hop Hst]; [split; [by apply fine_nil|done]|]. destruct IH as [IH1 IH2].
  destruct (step_call _ _ _ _ Hr Hop Hst) as [evs Hc]. pose proof Hc as [_ Hlog]. rewrite Hlog, ins_app, outs_app.
  destruct (registry_op a) eqn:Hreg.
  - destruct (call_result _ _ _ _ _ Hr Hop Hc) as (_ & Hres & _). destruct (result_registry _ _ _ _ Hres Hreg) as (-> & _ & evs' & Hl & _ & He).
    rewrite Hlog in Hl. apply app_inv_head in Hl as <-. pose proof (msize_inv _ (reach_inv _ Hr)). pose proof (msize_pos (st_ords s)).
    assert (ins evs = 0 /\ outs evs = 0) as [E1 E2]. { destruct He as [->|(ev & -> & Hev)]; [done|]. by destruct ev. }
    split; [|lia]. apply fine_app; [done|]. split; [apply steady_few; lia|apply under_few; lia].
  - destruct (call_good _ _ _ _ _ Hr Hop Hc Hreg) as [G1 G2 G3 G4 G5]. split; [|lia]. apply fine_app; [done|]. rewrite Z.add_0_l, <- IH2. done.
Qed.
Print Assumptions C65_no_wrap.
Lemma peak_reach K s n : peak K s n -> reach s.
Proof. induction 1; [constructor|by eapply reach_step]. Qed.
(** The largest number of symbols, of books and of orders after any call so far; the last also counts an order that arrives and leaves within one call. *)
Theorem C65_maxima s ns ks kb ko : told ns (st_log s) ->
  let t := tell_all no_tally ns in
  (peak known_symbols s ks -> t_max_symbols t = ks) /\ (peak open_books s kb -> t_max_order_books t = kb) /\
  (peak live_orders s ko -> ko <= t_max_orders t <= ko + 1).
Proof.
  intros Hns t. unfold t. clear t. split; [|split]; intros Hp; revert ns Hns; induction Hp as [|s a s' er n k Hp IH Hop Hst Hk]; intros ns Hns.
  all: try (apply map_eq_nil in Hns as ->; cbn; lia).
  all: pose proof (peak_reach _ _ _ Hp) as Hr; destruct (step_call _ _ _ _ Hr Hop Hst) as [evs Hc]; pose proof Hc as [_ Hlog];
    rewrite Hlog in Hns; apply told_app in Hns as (n1 & n2 & -> & H1 & H2); rewrite tell_all_app; specialize (IH _ H1);
    pose proof (reach_facts _ Hr n1 H1) as Hf; destruct (call_moves s a s' er evs n2 _ Hr Hop Hc H2 Hf) as [M1 M2 M3 M4].
  - rewrite M3, IH. by rewrite (number_fun _ _ _ (fc_syms _ _ M1) Hk).
  - rewrite M4, IH. by rewrite (number_fun _ _ _ (fc_books _ _ M1) Hk).
  - assert (t_orders (tell_all (tell_all no_tally n1) n2) = k) as E.
    { rewrite (fc_orders _ _ M1). apply (number_fun (live_orders s')); [|done]. apply number_orders, reach_inv. by eapply reach_step. }
    pose proof (fc_max _ _ M1). 
    assert (t_orders (tell_all no_tally n1) <= n); [|lia].
    rewrite (fc_orders _ _ Hf). inversion Hp; subst; [cbn [init st_ords]; unfold msize; rewrite map_size_empty; lia|].
    match goal with H : number (live_orders s) ?k |- _ => rewrite (number_fun _ _ _ (number_orders _ (reach_inv _ Hr)) H) end. lia.
Qed.
Print Assumptions C65_maxima.
(** Every history has its peak. *)
Lemma peak_exists s : reach s -> (exists n, peak known_symbols s n) /\ (exists n, peak open_books s n) /\ exists n, peak live_orders s n.
Proof.
  induction 1 as [|s a s' er Hr ([n1 H1] & [n2 H2] & [n3 H3]) Hop Hst]; [repeat split; exists 0; constructor|].
  assert (Hr' : reach s') by (by eapply reach_step). assert (exists ns, told ns (st_log s')) as [ns Hns].
  { exists (map (fun ev => (ev, new_book (mkSymbol 0 0))) (st_log s')). unfold told. rewrite map_map. cbn. apply map_id. }
  pose proof (reach_facts _ Hr' ns Hns) as Hf. split; [|split]; eexists; (eapply pk_step; [done|done|done|]).
  - apply (fc_syms _ _ Hf).
  - apply (fc_books _ _ Hf).
  - apply number_orders. by apply reach_inv.
Qed.

(** With books as in Spec21: every history gives the handler some notifications. *)
Definition dull : book := new_book (mkSymbol 0 0).
Definition with_books (l : list event) : list (event * book) := map (fun ev => (ev, dull)) l.
Lemma told_with l : told (with_books l) l.
Proof. unfold told, with_books. rewrite map_map. cbn. apply map_id. Qed.
(** Two symbols, two books, three orders; one is executed, a symbol is deleted, and a market order comes and goes. *)
Definition busy_day : list op :=
  [AddSymbol (mkSymbol 0 1); AddSymbol (mkSymbol 1 2); AddOrderBook (mkSymbol 0 1); AddOrderBook (mkSymbol 1 2); EnableMatching;
   AddOrder (LimitOrder 1 0 BUY 10 5 GTC MAX64); AddOrder (LimitOrder 2 0 BUY 9 5 GTC MAX64);
   AddOrder (MarketOrder 3 0 SELL 5 MAX64); DeleteOrderBook 1; DeleteSymbol 1].
Example C65_example : let s := hist busy_day in let t := tell_all no_tally (with_books (st_log s)) in
  reach s /\ (t_orders t, t_symbols t, t_order_books t) = (1, 1, 1) /\ (t_max_orders t, t_max_symbols t, t_max_order_books t) = (3, 2, 2) /\
  (t_add t, t_delete t) = (3, 2) /\ number (live_orders s) 1.
Proof.
  split; [apply hist_reach|]. split; [vm_compute; reflexivity|]. split; [vm_compute; reflexivity|]. split; [vm_compute; reflexivity|].
  destruct (C65_statistics (hist busy_day) (with_books (st_log (hist busy_day))) (hist_reach _) (told_with _)) as (H & _).
  assert (E : t_orders (tell_all no_tally (with_books (st_log (hist busy_day)))) = 1) by (vm_compute; reflexivity). rewrite E in H. exact H.
Qed.
(** The market order of that day counts towards the largest number of orders although it never rests: 3 where no call leaves more than 2. *)
Example C65_example_peak : exists n, peak live_orders (hist busy_day) n /\ n <= 3 <= n + 1.
Proof.
  destruct (peak_exists _ (hist_reach busy_day)) as (_ & _ & n & Hn). exists n. split; [done|].
  destruct (C65_maxima (hist busy_day) (with_books (st_log (hist busy_day))) 0 0 n (told_with _)) as (_ & _ & H).
  specialize (H Hn). assert (E : t_max_orders (tell_all no_tally (with_books (st_log (hist busy_day)))) = 3) by (vm_compute; reflexivity). rewrite E in H. lia.
Qed.
(** "Max order book orders" is not the largest number of orders at a level: levels that appear and vanish are not looked at. *)
Theorem C65_max_level_orders_refuted : exists s, reach s /\
  (exists b l, get_book 0 s = Some b /\ l ∈ s_lvls (b_bids b) /\ length (l_ids l) = 1%nat) /\
  forall ns, told ns (st_log s) -> t_max_level_orders (tell_all no_tally ns) = 0.
Proof.
  exists (hist [AddSymbol (mkSymbol 0 1); AddOrderBook (mkSymbol 0 1); AddOrder (LimitOrder 1 0 BUY 10 5 GTC MAX64)]).
  split; [apply hist_reach|]. split.
  - eexists _, _. split; [vm_compute; reflexivity|]. split; [left|reflexivity].
  - intros ns Hns. assert (H : forall t, t_max_level_orders t = 0 -> Forall (fun ev => match ev with EUpdateLevel _ _ _ => False | _ => True end) (map fst ns) ->
      t_max_level_orders (tell_all t ns) = 0).
    { clear. induction ns as [|[ev b] ns IH]; intros t Ht Hf; [done|]. cbn in Hf. apply Forall_cons in Hf as [He Hf]. apply IH; [|done]. by destruct t, ev. }
    apply H; [done|]. rewrite Hns. vm_compute. repeat constructor.
Qed.
Print Assumptions C65_max_level_orders_refuted.
