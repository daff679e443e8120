(** * StepsOk.v -- elementary actions preserve the invariant, the frame and the measures. *)
From Coq Require Import ZifyBool.
From stdpp Require Import fin_maps relations.
From Verif Require Import Types Book Engine LevelFacts BookInv EngInv EngPrim Steps.

(** ** Shrinking of the index *)
Record shrinks (sid : Z) (m m' : gmap Z order) : Prop := {
  sh_frame : frame sid m m';
  sh_size : (size m' <= size m)%nat;
  sh_stops : (nstops m' <= nstops m)%nat;
  sh_total : total m' <= total m;
  sh_dom : forall i, m !! i = None -> m' !! i = None;
}.
Lemma shrinks_refl sid m : shrinks sid m m.
Proof. constructor; done || apply frame_refl. Qed.
Lemma shrinks_trans sid a b c : shrinks sid a b -> shrinks sid b c -> shrinks sid a c.
Proof.
  intros [] []. constructor; try lia; eauto. by eapply frame_trans.
Qed.
Lemma shrinks_delete sid m i o : map_ok m -> m !! i = Some o -> o_sym o = sid -> shrinks sid m (delete i m).
Proof.
  intros Hm Hi Ho. constructor.
  - by eapply frame_delete.
  - rewrite (size_delete m i o Hi). lia.
  - rewrite (nstops_delete m i o Hi). lia.
  - rewrite (total_delete m i o Hi). destruct (mo_live _ Hm _ _ Hi). lia.
  - intros j Hj. apply lookup_delete_None. by right.
Qed.
Lemma shrinks_reduced sid m o o' : map_ok m -> m !! o_id o = Some o -> o_sym o = sid ->
  o_id o' = o_id o -> o_sym o' = o_sym o -> o_type o' = o_type o -> o_leaves o' <= o_leaves o ->
  shrinks sid m (reduced_map m o').
Proof.
  intros Hm Hi Ho E Es Et El. constructor.
  - eapply frame_reduced; try done. congruence.
  - by eapply size_reduced.
  - by eapply nstops_reduced.
  - erewrite total_reduced by done. lia.
  - intros j Hj. unfold reduced_map. rewrite E. destruct (_ =? 0).
    + apply lookup_delete_None. by right.
    + rewrite lookup_insert_ne; [done|]. congruence.
Qed.

(** ** exec_note only touches log and prices *)
Lemma exec_note_ok sid o p q e : eng_ok sid e -> eng_ok sid (exec_note o p q e).
Proof.
  intros [Hm Hb]. split; [done|]. cbn. eapply same_sides_ok; [|exact Hb].
  eapply same_sides_trans; [apply same_sides_last|apply same_sides_matching].
Qed.
Lemma emit_ok sid ev e : eng_ok sid e -> eng_ok sid (emit ev e).
Proof. done. Qed.
Lemma set_bk_ok sid b e : same_sides (e_bk e) b -> eng_ok sid e -> eng_ok sid (set_bk b e).
Proof. intros Hs [Hm Hb]. split; [done|]. by eapply same_sides_ok. Qed.

(** ** Chains *)
Lemma cxstep_ok t k price v e v' e' sid : cxstep t k price (v, e) (v', e') -> eng_ok sid e -> v < TWO64 ->
  eng_ok sid e' /\ shrinks sid (e_ords e) (e_ords e') /\ 0 <= v' < TWO64.
Proof.
  intros Hst He Hv. inversion Hst as [? ? p r ? Hv0 Hf Ha Ht Hex|? ? p r ? Hv0 Hf Ha Ht Hex]; subst.
  - destruct (front_facts sid e k p r He Hf) as (Hs & _ & _ & Hl & Hr).
    destruct (exec_delete_ok sid e r price (o_leaves r) He Hr Hs) as (u & e1 & Heq & Hok & Hords & _).
    rewrite Hex in Heq. injection Heq as <-. split; [done|]. split; [|apply u64_bounds].
    rewrite Hords. eapply shrinks_delete; [apply He|done|done].
  - destruct (front_facts sid e k p r He Hf) as (Hs & _ & _ & Hl & Hr).
    pose proof (lo_leaves _ _ Hl).
    destruct (exec_reduce_ok sid e r price (Z.min (o_leaves r) v) He Hr Hs ltac:(lia)) as (u & e1 & Heq & Hok & Hords & _).
    rewrite Hex in Heq. injection Heq as <-. split; [done|]. split; [|apply u64_bounds].
    rewrite Hords. eapply shrinks_reduced; try done. apply He. cbn. lia.
Qed.
Lemma cxsteps_ok t k price c c' sid : rtc (cxstep t k price) c c' -> eng_ok sid (snd c) -> 0 <= fst c < TWO64 ->
  eng_ok sid (snd c') /\ shrinks sid (e_ords (snd c)) (e_ords (snd c')) /\ 0 <= fst c' < TWO64.
Proof.
  induction 1 as [c|[v e] [v1 e1] c' Hst _ IH]; intros He Hv.
  { split; [done|]. split; [apply shrinks_refl|done]. }
  cbn in *. destruct (cxstep_ok _ _ _ _ _ _ _ _ Hst He ltac:(lia)) as (He1 & Hsh & Hv1).
  destruct (IH He1 Hv1) as (He' & Hsh' & Hv'). split; [done|]. split; [by eapply shrinks_trans|done].
Qed.

(** ** The in-flight order *)
Lemma fly_shrink sid m m' o : fly_ok sid m o -> total m' <= total m -> fly_ok sid m' o.
Proof. intros [] H. constructor; try done. lia. Qed.
Lemma fly_executed sid m m' o q : fly_ok sid m o -> total m' <= total m -> 0 < q <= o_leaves o ->
  fly_ok sid m' (executed q o).
Proof.
  intros [] H Hq. constructor; try done; cbn; try lia. apply u64_range_u64.
Qed.

Definition cweight (f : option order) : nat := match f with Some _ => 1 | None => 0 end.
Definition sweight (f : option order) : nat :=
  match f with Some o => if stop_type o then 1 else 0 | None => 0 end.

Lemma tstep_ok sid e o e' o' : tstep (e, o) (e', o') -> eng_ok sid e -> fly_ok sid (e_ords e) o ->
  eng_ok sid e' /\ fly_ok sid (e_ords e') o' /\ shrinks sid (e_ords e) (e_ords e').
Proof.
  intros Hst He Hfl. inversion Hst as [? ? p r e1 q Hf Harb Hfok Haon Hlv Hra Hex|? ? e1 Hfa Hlv Hch]; subst.
  - destruct (front_facts sid e _ p r He Hf) as (Hs & _ & _ & Hl & Hr).
    pose proof (lo_leaves _ _ Hl). 
    destruct (exec_reduce_ok sid e r p q He Hr Hs ltac:(unfold q; lia)) as (u & e1' & Heq & Hok & Hords & _).
    rewrite Hex in Heq. injection Heq as <-.
    assert (Hsh : shrinks sid (e_ords e) (e_ords e1)).
    { rewrite Hords. eapply shrinks_reduced; try done. apply He. cbn. unfold q. lia. }
    split; [by apply exec_note_ok|]. split; [|done].
    eapply fly_executed; [done|by destruct Hsh|unfold q; lia].
  - destruct (cxsteps_ok _ _ _ _ _ sid Hch He) as (Hok & Hsh & _).
    { cbn. pose proof (total_nonneg (e_ords e)). destruct Hfl. 
      assert (0 <= total (e_ords e)); [|lia]. apply H. intros i x Hx. destruct (mo_live _ (proj1 He) _ _ Hx). lia. }
    cbn in *. split; [by apply exec_note_ok|]. split; [|done].
    eapply fly_executed; [done|by destruct Hsh|lia].
Qed.
Lemma tsteps_ok sid c c' : rtc tstep c c' -> eng_ok sid (fst c) -> fly_ok sid (e_ords (fst c)) (snd c) ->
  eng_ok sid (fst c') /\ fly_ok sid (e_ords (fst c')) (snd c') /\ shrinks sid (e_ords (fst c)) (e_ords (fst c')).
Proof.
  induction 1 as [c|[e o] [e1 o1] c' Hst _ IH]; intros He Hf.
  { split; [done|]. split; [done|apply shrinks_refl]. }
  cbn in *. destruct (tstep_ok _ _ _ _ _ Hst He Hf) as (He1 & Hf1 & Hsh).
  destruct (IH He1 Hf1) as (He' & Hf' & Hsh'). split; [done|]. split; [done|by eapply shrinks_trans].
Qed.
(** What trading leaves unchanged in the in-flight order. *)
Definition same_kind (o o' : order) : Prop :=
  o_id o' = o_id o /\ o_sym o' = o_sym o /\ o_type o' = o_type o /\ o_side o' = o_side o /\
  o_price o' = o_price o /\ o_stop o' = o_stop o /\ o_qty o' = o_qty o /\ o_tif o' = o_tif o /\
  o_maxvis o' = o_maxvis o /\ o_slip o' = o_slip o /\ o_tdist o' = o_tdist o /\ o_tstep o' = o_tstep o.
Lemma same_kind_refl o : same_kind o o.
Proof. by repeat split. Qed.
Lemma same_kind_trans a b c : same_kind a b -> same_kind b c -> same_kind a c.
Proof.
  intros (?&?&?&?&?&?&?&?&?&?&?&?) (?&?&?&?&?&?&?&?&?&?&?&?). repeat split; congruence.
Qed.
Lemma tstep_kind e o e' o' : tstep (e, o) (e', o') -> same_kind o o'.
Proof. intros Hst. inversion Hst; subst; by repeat split. Qed.
Lemma tsteps_kind c c' : rtc tstep c c' -> same_kind (snd c) (snd c').
Proof.
  induction 1 as [c|[e o] [e1 o1] c' Hst _ IH]; [apply same_kind_refl|].
  eapply same_kind_trans; [by eapply tstep_kind|done].
Qed.

(** ** Trailing price range *)
Lemma calc_trailing_range o b : u64_range (o_stop o) -> u64_range (calc_trailing o b).
Proof.
  intros H. unfold calc_trailing.
  destruct (o_tdist o <? 0), (o_side o);
    repeat match goal with |- u64_range (if ?c then _ else _) => destruct c end;
    try done; try apply u64_range_u64; unfold u64_range, MAX64; lia.
Qed.
Lemma retrail_place new o : is_trailing o = true ->
  o_id (retrail new o) = o_id o /\ o_sym (retrail new o) = o_sym o /\ o_type (retrail new o) = o_type o /\
  o_side (retrail new o) = o_side o /\ o_stop (retrail new o) = new /\ o_leaves (retrail new o) = o_leaves o.
Proof. unfold is_trailing, is_trailing_stop, is_trailing_stop_limit, retrail. destruct (o_type o) eqn:E; cbn; done. Qed.
Lemma retrail_live i new o : is_trailing o = true -> u64_range new -> live_ok i o -> live_ok i (retrail new o).
Proof.
  intros Ht Hn []. unfold is_trailing, is_trailing_stop, is_trailing_stop_limit, retrail in *.
  destruct (o_type o) eqn:E; cbn in *; try done; constructor; cbn; try done; try (by rewrite E);
    try apply u64_range_u64.
Qed.

Lemma drop_eng_ok sid e o e1 : eng_ok sid e -> e_ords e !! o_id o = Some o -> o_sym o = sid ->
  eng_sub_delete o e = Ok e1 -> eng_ok sid (drop_id (o_id o) e1) /\ shrinks sid (e_ords e) (e_ords (drop_id (o_id o) e1)).
Proof.
  intros He Ho Hs Heq. destruct (eng_del_ok sid e o He Ho Hs) as (u & e1' & Heq' & Hords & Hok & _).
  rewrite Heq in Heq'. injection Heq' as <-. cbn. unfold eng_ok. cbn. rewrite Hords.
  split; [split; [apply map_ok_delete, He|done]|]. eapply shrinks_delete; [apply He|done|done].
Qed.
Lemma converted_fly sid m o : fly_ok sid m o -> fly_ok sid m (converted o).
Proof.
  intros Hf. unfold converted. destruct (o_type o) eqn:E; try done; destruct Hf;
  (constructor; try done; try (cbn; unfold u64_range, MAX64; lia);
   intros [Ht|Ht]; cbn in Ht; discriminate).
Qed.
Lemma live_fly sid m o : live_ok (o_id o) o -> o_sym o = sid -> total m + o_leaves o < TWO64 -> fly_ok sid m o.
Proof. intros [] ? ?. constructor; try done; lia. Qed.
Lemma fly_live sid m o : fly_ok sid m o -> 0 < o_leaves o -> o_type o <> MARKET ->
  (o_type o = LIMIT -> immediate o = false) -> live_ok (o_id o) o.
Proof.
  intros [] Hl Ht Hi. constructor; try done.
  intros E. apply Hi in E. unfold immediate, is_ioc, is_fok in E.
  destruct (o_tif o); auto; cbn in E; discriminate.
Qed.
Lemma stop_type_converted o : stop_type o = true -> stop_type (converted o) = false.
Proof.
  unfold stop_type, is_limit, is_market, converted. destruct (o_type o) eqn:E; cbn; try done; by rewrite ?E.
Qed.
Lemma market_price_range o p : u64_range (o_slip o) -> u64_range p -> u64_range (market_price o p).
Proof.
  unfold u64_range, market_price. intros. destruct (o_side o).
  - destruct (Z.ltb_spec (MAX64 - o_slip o) p); unfold MAX64 in *; lia.
  - destruct (Z.ltb_spec p (o_slip o)); unfold MAX64 in *; lia.
Qed.
Lemma best_range sid e k p : eng_ok sid e -> best k e = Some p -> u64_range p.
Proof.
  intros He Hb. destruct (best_some _ _ _ _ _ (proj2 He) Hb) as [Hq _].
  destruct (queue (e_bk e) k p) as [|i ids] eqn:E; [done|].
  destruct (queue_facts sid e k p i He) as (r & _ & _ & _ & _ & <- & Hl). { rewrite E. left. }
  unfold okey. destruct (o_type r); apply Hl.
Qed.

Record mono (sid : Z) (c c' : cfg) : Prop := {
  mn_ok : cfg_ok sid c';
  mn_frame : frame sid (e_ords (fst c)) (e_ords (fst c'));
  mn_size : (size (e_ords (fst c')) + cweight (snd c') <= size (e_ords (fst c)) + cweight (snd c))%nat;
  mn_stops : (nstops (e_ords (fst c')) + sweight (snd c') <= nstops (e_ords (fst c)) + sweight (snd c))%nat;
}.
Lemma mono_trans sid a b c : mono sid a b -> mono sid b c -> mono sid a c.
Proof. intros [] []. constructor; try done; try lia. by eapply frame_trans. Qed.
Lemma mono_refl sid c : cfg_ok sid c -> mono sid c c.
Proof. intros. constructor; try done. Qed.
Lemma mono_shrink sid e e' f f' : shrinks sid (e_ords e) (e_ords e') -> cfg_ok sid (e', f') ->
  cweight f' = cweight f -> sweight f' = sweight f -> mono sid (e, f) (e', f').
Proof. intros [] Hok Hc Hs. constructor; cbn; try done; lia. Qed.

Lemma mstep_ok {F W} sid c c' : mstep F W c c' -> cfg_ok sid c -> mono sid c c'.
Proof.
  intros Hst [He Hf].
  inversion Hst as [e o e' o' Ht|e o p Hty Hb|e o Hty Hre|e o Hfr Hlv Hty Htif|e o Hmv
    |e b a bp ap x r e' Hbb Hba Hcr Hqb Hb Hqa Ha Hnb Hna Hxr Hle (e1 & Hx & Hr)
    |e b a bp ap x k1 k2 v v1 e1 v2 e' Hbb Hba Hcr Hqb Hb Hqa Ha Hax Hv Hk Hc1 Hc2
    |e o e1 Ho Hs Hty Hre Hdel|e o e1 o' Ho Hs Htr Hne Hdel|e s]; subst; cbn in He, Hf.
  - destruct (tstep_ok _ _ _ _ _ Ht He Hf) as (He' & Hf' & Hsh).
    apply mono_shrink; try done. unfold sweight, stop_type, is_limit, is_market.
    pose proof (tstep_kind _ _ _ _ Ht) as (_ & _ & -> & _). done.
  - apply mono_shrink; [apply shrinks_refl| |done|done]. split; [done|]. cbn.
    pose proof (best_range _ _ _ _ He Hb). destruct Hf. constructor; try done. by apply market_price_range.
  - constructor; cbn; [|done|lia|].
    + split; [done|]. by apply converted_fly.
    + rewrite stop_type_converted by done. lia.
  - pose proof (fly_live _ _ _ Hf Hlv Hty Htif) as Hlive.
    destruct (eng_add_ok sid e o He Hfr Hlive) as (u & e' & Heq & Hok & Hords & _); [apply Hf|apply Hf|].
    rewrite Heq. constructor; cbn; rewrite ?Hords.
    + done.
    + apply frame_insert; [done|apply Hf].
    + rewrite map_size_insert_None by done. lia.
    + rewrite nstops_insert by done. unfold stop_type, is_market. rewrite bool_decide_eq_false_2 by done.
      destruct (is_limit o); cbn; lia.
  - constructor; cbn; [done|done|lia|lia].
  - assert (Hxe : exists kx px, o_id x ∈ queue (e_bk e) kx px) by (destruct Hxr as [[-> ->]|[-> ->]]; eauto).
    assert (Hre : exists kx px, o_id r ∈ queue (e_bk e) kx px) by (destruct Hxr as [[-> ->]|[-> ->]]; eauto).
    assert (Hxm : e_ords e !! o_id x = Some x) by (destruct Hxr as [[-> ->]|[-> ->]]; done).
    assert (Hrm : e_ords e !! o_id r = Some r) by (destruct Hxr as [[-> ->]|[-> ->]]; done).
    destruct Hxe as (kx & px & Hqx), Hre as (kr & pr & Hqr).
    destruct (queue_facts _ _ _ _ _ He Hqx) as (x' & Hx' & _ & Hsx & _). assert (x' = x) by congruence. subst x'.
    destruct (queue_facts _ _ _ _ _ He Hqr) as (r' & Hr' & _ & Hsr & _). assert (r' = r) by congruence. subst r'.
    assert (Hne : o_id r <> o_id x).
    { destruct (queue_facts _ _ _ _ _ He Hqb) as (b' & Hb' & _ & _ & Hkb & _).
      destruct (queue_facts _ _ _ _ _ He Hqa) as (a' & Ha' & _ & _ & Hka & _).
      destruct Hxr as [[-> ->]|[-> ->]]; intros E; congruence. }
    destruct (exec_delete_ok sid e x (o_price x) (o_leaves x) He Hxm Hsx) as (u & e1' & Heq & Hok & Hords & _).
    rewrite Hx in Heq. injection Heq as <-.
    assert (Hrm1 : e_ords e1 !! o_id r = Some r). { rewrite Hords, lookup_delete_ne; done. }
    pose proof (lo_leaves _ _ (mo_live _ (proj1 He) _ _ Hxm)).
    destruct (exec_reduce_ok sid e1 r (o_price x) (o_leaves x) Hok Hrm1 Hsr ltac:(lia)) as (u2 & e2' & Heq2 & Hok2 & Hords2 & _).
    rewrite Hr in Heq2. injection Heq2 as <-.
    apply mono_shrink; try done. eapply shrinks_trans.
    + eapply shrinks_delete; [apply He|exact Hxm|done].
    + rewrite <- Hords, Hords2. eapply shrinks_reduced; try done. apply Hok. cbn. lia.
  - destruct (cxsteps_ok _ _ _ _ _ sid Hc1 He) as (He1 & Hsh1 & _); [cbn; lia|].
    destruct (cxsteps_ok _ _ _ _ _ sid Hc2 He1) as (He2 & Hsh2 & _); [cbn; lia|].
    cbn in *. apply mono_shrink; try done. by eapply shrinks_trans.
  - assert (Hsid : sid_of (e_bk e) = sid) by (eapply bk_id, He). rewrite Hsid in Hs.
    destruct (drop_eng_ok sid e o e1 He Ho Hs Hdel) as [He1 Hsh].
    destruct (eng_del_ok sid e o He Ho Hs) as (u & e1' & Heq' & Hords & _).
    rewrite Hdel in Heq'. injection Heq' as <-.
    pose proof (mo_live _ (proj1 He) _ _ Ho) as Hl.
    constructor; cbn.
    + split; [done|]. cbn. apply converted_fly. apply live_fly; [done|done|].
      rewrite Hords. pose proof (mo_total _ (proj1 He)) as Ht. rewrite (total_delete _ _ _ Ho) in Ht. lia.
    + apply Hsh.
    + rewrite Hords. rewrite (size_delete _ _ _ Ho). lia.
    + rewrite Hords, stop_type_converted by done. rewrite (nstops_delete _ _ _ Ho).
      unfold stop_type in Hty. destruct (is_limit o); [done|]. lia.
  - assert (Hsid : sid_of (e_bk e) = sid) by (eapply bk_id, He). rewrite Hsid in Hs.
    destruct (drop_eng_ok sid e o e1 He Ho Hs Hdel) as [He1 Hsh].
    destruct (eng_del_ok sid e o He Ho Hs) as (u & e1' & Heq' & Hords & _).
    rewrite Hdel in Heq'. injection Heq' as <-.
    pose proof (mo_live _ (proj1 He) _ _ Ho) as Hl.
    destruct (retrail_place (calc_trailing o (e_bk e)) o Htr) as (Ei & Es & Et & Esd & Est & El).
    fold o' in Ei, Es, Et, Esd, Est, El.
    assert (Hput : put o' (emit (EUpdateOrder o') e1) = put o' (drop_id (o_id o) (emit (EUpdateOrder o') e1))).
    { unfold put, drop_id, set_ords; cbn. f_equal. rewrite Ei. by rewrite insert_delete_insert. }
    rewrite Hput.
    assert (Htot : total (delete (o_id o) (e_ords e)) + o_leaves o < TWO64).
    { pose proof (mo_total _ (proj1 He)) as Ht. rewrite (total_delete _ _ _ Ho) in Ht. lia. }
    destruct (eng_add_ok sid (drop_id (o_id o) (emit (EUpdateOrder o') e1)) o') as (u2 & e2 & Heq2 & Hok2 & Hords2 & _).
    { done. }
    { cbn. rewrite Ei. apply lookup_delete. }
    { rewrite Ei. apply retrail_live; [done| |done]. apply calc_trailing_range, Hl. }
    { cbn. by rewrite Hords, El. }
    { congruence. }
    rewrite Heq2. cbn in Hords2. rewrite Ei, insert_delete_insert, Hords in Hords2.
    constructor; cbn; rewrite ?Hords2.
    + done.
    + eapply frame_update; [done|done|congruence].
    + rewrite map_size_insert_Some by eauto. lia.
    + erewrite nstops_update by done. lia.
  - apply mono_shrink; [apply shrinks_refl| |done|done]. split; [|done]. cbn.
    apply set_bk_ok; [|done]. destruct s; apply same_sides_prices.
Qed.
Lemma msteps_ok {F W} sid c c' : rtc (mstep F W) c c' -> cfg_ok sid c -> mono sid c c'.
Proof.
  induction 1 as [c|a b c Hst _ IH]; intros Hc; [by apply mono_refl|].
  pose proof (mstep_ok _ _ _ Hst Hc) as Hm. eapply mono_trans; [done|]. apply IH, Hm.
Qed.
