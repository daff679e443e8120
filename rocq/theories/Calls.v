(** * Calls.v -- every API call as head actions and micro actions on books; invariants of calls. *)
From Coq Require Import ZifyBool.
From stdpp Require Import fin_maps relations.
From Verif Require Import Types Book Engine Manager LevelFacts BookInv EngInv EngPrim Steps StepsOk Refine1 Refine2 Refine3 Refine4 Api Validate StateInv Micro Reach.

(** ** Segments: the work done on one book *)
Inductive seg (A : mode) (s : state) : option op -> list event -> state -> Prop :=
| seg_op a sid b hevs c uevs e' :
    order_op a = true -> get_book sid s = Some b -> target s a = Some sid -> hstep sid (eng_of b s) a hevs c ->
    cfg_ok sid c -> frame sid (st_ords s) (e_ords (fst c)) -> frame sid (st_ords s) (e_ords e') ->
    usteps sid A c uevs (e', None) ->
    seg A s (Some a) (hevs ++ uevs) (put_eng sid e' s)
| seg_match sid b uevs e' :
    get_book sid s = Some b -> frame sid (st_ords s) (e_ords e') -> usteps sid A (eng_of b s, None) uevs (e', None) ->
    seg A s None uevs (put_eng sid e' s).
Inductive segs (A : mode) : state -> list (option op) -> list event -> state -> Prop :=
| sg_nil s : segs A s [] [] s
| sg_cons s a evs s1 l evs' s' : inv s -> (forall x, a = Some x -> op_ok s x) -> seg A s a evs s1 -> inv s1 -> segs A s1 l evs' s' -> segs A s (a :: l) (evs ++ evs') s'.

(** The calls a call is made of; [None]: matching of one book. *)
Definition part_of (a : op) (x : option op) : Prop :=
  match a, x with
  | (EnableMatching | Match), None => True
  | ReplaceWith i o, Some x => x = DeleteOrder i \/ x = AddOrder o
  | (AddSymbol _ | DeleteSymbol _ | AddOrderBook _ | DeleteOrderBook _ | DisableMatching), _ => False
  | _, Some x => x = a
  | _, None => False
  end.
Definition start_of (s : state) (a : op) : state :=
  match a with EnableMatching => set_matching true s | DisableMatching => set_matching false s | _ => s end.
Definition registry_op (a : op) : bool :=
  match a with AddSymbol _ | DeleteSymbol _ | AddOrderBook _ | DeleteOrderBook _ => true | _ => false end.

(** ** Order predicates over calls *)
Definition sall (Q : order -> Prop) (s : state) : Prop := forall i o, st_ords s !! i = Some o -> Q o.
Definition op_keeps (Q : order -> Prop) (a : op) : Prop :=
  match a with
  | AddOrder o => validate o = OK -> order_range o -> Q o
  | ModifyOrder _ p q => u64_range p -> forall o, Q o -> live_ok (o_id o) o -> 0 < q <= MAX64 -> Q (modified false p q o)
  | MitigateOrder _ p q => u64_range p -> forall o, Q o -> live_ok (o_id o) o -> 0 < q <= MAX64 -> Q (modified true p q o)
  | ReplaceOrder _ ni p q => u64_range p -> u64_range ni -> forall o, Q o -> live_ok (o_id o) o -> 0 < q <= MAX64 -> Q (replaced ni p q o)
  | ReplaceWith _ o => validate o = OK -> order_range o -> Q o
  | _ => True
  end.

Lemma hstep_q sid Q s b a evs c : closed Q -> op_keeps Q a -> op_ok s a -> eng_ok sid (eng_of b s) ->
  hstep sid (eng_of b s) a evs c -> sall Q s -> all_q sid Q c /\ Forall (ev_q Q) evs.
Proof.
  intros HQ Hk Hop He Hh Hs. pose proof (proj1 He) as Hm.
  inversion Hh as [o o' Hsym Hval|i q0 o u e' q o' Q' Ho Hid Hsym Hq He' Hords Hlog Hpr Hp
    |mit i p q o u e' o' evs' Q' Ho Hid Hsym Hq He' Hords Hlog Hpr Hp
    |i ni p q o u e' o' Q' evs' Ho Hid Hsym Hq Hni Hty He' Hords Hlog Hpr Hp
    |i o u e' Q' evs' Ho Hid Hsym He' Hords Hlog Hpr Hp
    |a' i price q0 o u e' q o' Q' evs' Ha Ho Hid Hsym Hq He' Hords Hlog Hpr Hp]; subst; cbn in Ho || idtac; unfold all_q; cbn [fst snd].
  - cbn in Hk. destruct Hop as [Hrg _]. assert (HQo : Q o) by auto.
    assert (HQo' : Q o').
    { unfold o', placed. destruct (o_type o) eqn:Et; try done; apply (cl_trail _ HQ); try done;
      unfold is_trailing, is_trailing_stop, is_trailing_stop_limit; rewrite Et; done. }
    split; [|by repeat constructor]. split; [|by intros x [= <-]]. intros i x Hi _. by eapply Hs.
  - pose proof (mo_live _ Hm _ _ Ho) as Hl. assert (HQo : Q o) by (by eapply Hs).
    assert (HQ' : Q o'). { apply (cl_red _ HQ); [done|]. destruct Hl. lia. }
    split.
    + split; [|done]. intros i x Hi _. rewrite Hords in Hi. unfold reduced_map in Hi. destruct (_ =? 0).
      * apply lookup_delete_Some in Hi as [_ Hi]. by eapply Hs.
      * apply lookup_insert_Some in Hi as [[_ <-]|[_ Hi]]; [done|by eapply Hs].
    + constructor; [by apply red_ev_q|apply lim_evs_q].
  - pose proof (mo_live _ Hm _ _ Ho) as Hl. assert (HQo : Q o) by (by eapply Hs).
    assert (HQ' : Q o'). { destruct mit; cbn in Hk; destruct Hop as (_ & ? & Hu & _); apply Hk; try done; unfold u64_range in Hu; lia. }
    split.
    + split; [|by intros x [= <-]]. intros i x Hi _. rewrite Hords in Hi. apply lookup_delete_Some in Hi as [_ Hi]. by eapply Hs.
    + apply Forall_app. split; [apply lim_evs_q|]. destruct (0 <? _); by repeat constructor.
  - pose proof (mo_live _ Hm _ _ Ho) as Hl. assert (HQo : Q o) by (by eapply Hs).
    assert (HQ' : Q o'). { cbn in Hk. destruct Hop as (_ & ? & ? & Hu & _). apply Hk; try done; unfold u64_range in Hu; lia. }
    split.
    + split; [|by intros x [= <-]]. intros i x Hi _. rewrite Hords in Hi. apply lookup_delete_Some in Hi as [_ Hi]. by eapply Hs.
    + apply Forall_app. split; [apply lim_evs_q|]. by repeat constructor.
  - split.
    + split; [|done]. intros i x Hi _. rewrite Hords in Hi. apply lookup_delete_Some in Hi as [_ Hi]. by eapply Hs.
    + apply Forall_app. split; [apply lim_evs_q|]. by repeat constructor.
  - pose proof (mo_live _ Hm _ _ Ho) as Hl. assert (HQo : Q o) by (by eapply Hs).
    assert (HQ' : Q o'). { apply (cl_exec _ HQ); [done| |apply Hl]. destruct Hl. lia. }
    split.
    + split; [|done]. intros i x Hi _. rewrite Hords in Hi. unfold reduced_map in Hi. destruct (_ =? 0).
      * apply lookup_delete_Some in Hi as [_ Hi]. by eapply Hs.
      * apply lookup_insert_Some in Hi as [[_ <-]|[_ Hi]]; [done|by eapply Hs].
    + constructor; [done|]. apply Forall_app. split; [apply lim_evs_q|]. constructor; [by apply red_ev_q|done].
Qed.

Lemma frame_sall sid Q (m m' : gmap Z order) : frame sid m m' -> (forall i o, m !! i = Some o -> Q o) ->
  (forall i o, m' !! i = Some o -> o_sym o = sid -> Q o) -> forall i o, m' !! i = Some o -> Q o.
Proof.
  intros Hf Hm Hm' i o Hi. destruct (decide (o_sym o = sid)) as [Hs|Hs]; [by eapply Hm'|].
  apply (Hf i o Hs) in Hi. by eapply Hm.
Qed.

Definition opt_keeps (Q : order -> Prop) (x : option op) : Prop := match x with Some a => op_keeps Q a | None => True end.
Lemma seg_q A Q s x evs s' : closed Q -> inv s -> (forall a, x = Some a -> op_ok s a) -> seg A s x evs s' -> opt_keeps Q x -> sall Q s ->
  sall Q s' /\ Forall (ev_q Q) evs.
Proof.
  intros HQ Hinv Hop Hseg Hk Hs. inversion Hseg as [a sid b hevs c uevs e' Hord Hb Htg Hh Hc Hfr Hfr' Hu|sid b uevs e' Hb Hfr' Hu]; subst.
  - destruct (hstep_q sid Q s b a hevs c HQ Hk (Hop _ eq_refl) (inv_eng _ _ _ Hinv Hb) Hh Hs) as [Hc1 He1].
    destruct (usteps_q _ _ _ _ _ _ HQ Hu Hc Hc1) as [[Hm' _] He2]. cbn in Hm'. split; [|by apply Forall_app].
    exact (frame_sall sid Q _ _ Hfr' Hs Hm').
  - destruct (usteps_q _ _ _ _ _ _ HQ Hu (conj (inv_eng _ _ _ Hinv Hb) I)) as [[Hm' _] He2].
    { split; [|done]. intros i o Hi _. by eapply Hs. }
    split; [|done]. exact (frame_sall sid Q _ _ Hfr' Hs Hm').
Qed.
Lemma segs_q A Q s l evs s' : closed Q -> segs A s l evs s' -> Forall (opt_keeps Q) l -> sall Q s ->
  sall Q s' /\ Forall (ev_q Q) evs.
Proof.
  intros HQ. induction 1 as [s|s a evs s1 l evs' s' Hinv Hop Hseg Hinv1 _ IH]; intros Hl Hs; [done|].
  apply Forall_cons in Hl as [Ha Hl]. destruct (seg_q _ _ _ _ _ _ HQ Hinv Hop Hseg Ha Hs) as [Hs1 He1].
  destruct (IH Hl Hs1) as [Hs' He']. split; [done|]. by apply Forall_app.
Qed.
Lemma segs_log A s l evs s' : segs A s l evs s' -> st_log s' = st_log s ++ evs.
Proof.
  induction 1 as [s|s a evs s1 l evs' s' Hinv Hop Hseg Hinv1 _ IH]; [by rewrite app_nil_r|].
  rewrite IH, app_assoc. f_equal. inversion Hseg as [a' sid b hevs c uevs e' Hord Hb Htg Hh Hc Hfr Hfr' Hu|sid b uevs e' Hb Hfr' Hu]; subst.
  - cbn. destruct (usteps_ok _ _ _ _ _ Hu Hc) as [_ E]. cbn in E. rewrite E, (hstep_log _ _ _ _ _ Hh). by rewrite <- app_assoc.
  - cbn. destruct (usteps_ok _ _ _ _ _ Hu (conj (inv_eng _ _ _ Hinv Hb) I)) as [_ E]. exact E.
Qed.

(** ** Calls are segments *)
Lemma closed_tif : closed (fun o => o_tif o <> AON).
Proof.
  constructor; intros o; cbn; intros; try done.
  - unfold converted, to_market, to_limit. destruct (o_type o); cbn; try done; destruct (is_fok _); done.
  - unfold retrail. by destruct (o_type o).
Qed.
Lemma aon_keeps a : adds_no_aon a -> op_keeps (fun o => o_tif o <> AON) a.
Proof.
  unfold adds_no_aon. destruct a; cbn; intros H; try done; intros; try (by eapply H); unfold modified; cbn; try done.
Qed.
Lemma no_aon_of sid s b : no_live_aon s -> no_aon sid (eng_of b s, None).
Proof. intros H. split; [|done]. intros i o Hi _. unfold is_aon. apply bool_decide_eq_false_2. by eapply H. Qed.
Lemma all_q_aon sid c : all_q sid (fun o => o_tif o <> AON) c -> no_aon sid c.
Proof. intros [H1 H2]. split; [intros i o Hi Hs|intros o Ho]; unfold is_aon; apply bool_decide_eq_false_2; eauto. Qed.

Lemma hstep_qsub sid e a evs c : hstep sid e a evs c -> qsub (e_bk e) (e_bk (fst c)).
Proof.
  intros Hh. inversion Hh as [o o' Hsym Hval|i q0 o u e' q o' Q' Ho Hid Hsym Hq He' Hords Hlog Hpr Hp
    |mit i p q o u e' o' evs' Q' Ho Hid Hsym Hq He' Hords Hlog Hpr Hp
    |i ni p q o u e' o' Q' evs' Ho Hid Hsym Hq Hni Hty He' Hords Hlog Hpr Hp
    |i o u e' Q' evs' Ho Hid Hsym He' Hords Hlog Hpr Hp
    |a' i price q0 o u e' q o' Q' evs' Ha Ho Hid Hsym Hq He' Hords Hlog Hpr Hp]; subst; cbn [fst]; [apply qsub_refl|..];
  (eapply qsub_prim; [exact Hp|]); unfold Q'; try apply filter_ne; destruct (_ =? _); [apply filter_ne|done|apply filter_ne|done].
Qed.

(** States in which runs of mode [A] may start, and the calls that keep them so. *)
Definition quietly (A : mode) (s : state) : Prop :=
  (md_aon A \/ no_live_aon s) /\ (md_pair A \/ no_live_aon s /\ all_uncrossed s /\ ~ md_off A).
Definition keeps_quiet (A : mode) (a : op) : Prop := (md_aon A /\ md_pair A) \/ adds_no_aon a.
Record permits (A : mode) (s : state) (a : op) : Prop := {
  pm_quiet : quietly A s;
  pm_add : keeps_quiet A a;
  pm_off : st_match s = false -> md_off A;
  pm_stop : mod_stop s a -> md_stop A;
}.
Lemma permits_wide (A : Prop) s a : (A \/ (no_live_aon s /\ adds_no_aon a)) -> permits (wide A) s a.
Proof. intros H. constructor; cbn; try done; [split; cbn; naive_solver|unfold keeps_quiet; cbn; naive_solver]. Qed.
Lemma quietly_wide (A : Prop) s : (A \/ no_live_aon s) -> quietly (wide A) s.
Proof. intros H. split; cbn; naive_solver. Qed.

Lemma hstep_allows A sid s b a hevs c : inv s -> get_book sid s = Some b -> op_ok s a -> hstep sid (eng_of b s) a hevs c -> cfg_ok sid c ->
  quietly A s -> keeps_quiet A a -> allows A sid c.
Proof.
  intros Hinv Hb Hop Hh Hc [Hq1 Hq2] Hk.
  assert (Hna : no_live_aon s -> adds_no_aon a -> no_aon sid c).
  { intros Hno Hadd. apply all_q_aon.
    by destruct (hstep_q sid (fun o => o_tif o <> AON) s b a hevs c closed_tif (aon_keeps a Hadd) Hop (inv_eng _ _ _ Hinv Hb) Hh Hno). }
  destruct Hk as [[H1 H2]|Hadd]; [split; by left|]. split.
  - destruct Hq1; [by left|right; auto].
  - destruct Hq2 as [?|(Hno & Hun & Hoff)]; [by left|right]. split; [|done]. split; [auto|].
    eapply uncrossed_qsub; [exact (proj2 (inv_eng _ _ _ Hinv Hb))|exact (proj2 (proj1 Hc))|exact (hstep_qsub _ _ _ _ _ Hh)|]. by eapply Hun.
Qed.
Lemma match_allows A sid s b : inv s -> get_book sid s = Some b -> quietly A s -> allows A sid (eng_of b s, None).
Proof.
  intros Hinv Hb [Hq1 Hq2]. split.
  - destruct Hq1; [by left|right]. by apply no_aon_of.
  - destruct Hq2 as [?|(Hno & Hun & Hoff)]; [by left|right]. split; [|done]. split; [by apply no_aon_of|]. by eapply Hun.
Qed.
Lemma seg_quietly A s x evs s' : inv s -> (forall a, x = Some a -> op_ok s a /\ keeps_quiet A a) -> seg A s x evs s' -> quietly A s -> quietly A s'.
Proof.
  intros Hinv Hop Hseg Hq.
  assert (Hkq : match x with Some a => keeps_quiet A a | None => True end) by (destruct x as [a|]; [by apply Hop|done]).
  destruct Hq as [Hq1 Hq2]. split.
  - destruct Hq1 as [?|Hno]; [by left|]. destruct x as [a|].
    + destruct Hkq as [[? ?]|Hadd]; [by left|right].
      destruct (fun P => seg_q A _ _ _ _ _ closed_tif Hinv P Hseg) as [H _]; [by intros a' Ha; apply Hop| |exact Hno|exact H]. cbn. by apply aon_keeps.
    + right. destruct (fun P => seg_q A _ _ _ _ _ closed_tif Hinv P Hseg) as [H _]; [by intros a' Ha; apply Hop|done|exact Hno|exact H].
  - destruct Hq2 as [?|(Hno & Hun & Hoff)]; [by left|].
    assert (md_pair A \/ match x with Some a => adds_no_aon a | None => True end) as [?|Hadd]; [|by left|].
    { destruct x as [a|]; [|by right]. destruct Hkq as [[? ?]|?]; auto. }
    assert (Hno' : no_live_aon s').
    { destruct (fun P => seg_q A _ _ _ _ _ closed_tif Hinv P Hseg) as [H _]; [by intros a Ha; apply Hop| |exact Hno|exact H].
      destruct x as [a|]; [|done]. by apply aon_keeps. }
    right. split; [done|]. split; [|done].
    inversion Hseg as [a sid b hevs c uevs e' Hord Hb Htg Hh Hc Hfr Hfr' Hu|sid b uevs e' Hb Hfr' Hu]; subst; intros i b' Hb';
      rewrite (get_book_put _ _ _ _ _ Hb) in Hb'; destruct (decide _) as [Esid|]; try (by eapply Hun); injection Hb' as <-.
    + destruct (Hop _ eq_refl) as [Hop' _].
      assert (Hcm : calm sid c).
      { split.
        - apply all_q_aon. by destruct (hstep_q sid (fun o => o_tif o <> AON) s b a hevs c closed_tif (aon_keeps a Hadd) Hop' (inv_eng _ _ _ Hinv Hb) Hh Hno).
        - eapply uncrossed_qsub; [exact (proj2 (inv_eng _ _ _ Hinv Hb))|exact (proj2 (proj1 Hc))|exact (hstep_qsub _ _ _ _ _ Hh)|]. by eapply Hun. }
      apply (usteps_calm _ _ _ _ _ Hu Hc Hoff Hcm).
    + assert (Hcm : calm sid (eng_of b s, None)). { split; [by apply no_aon_of|]. by eapply Hun. }
      apply (usteps_calm _ _ _ _ _ Hu (conj (inv_eng _ _ _ Hinv Hb) I) Hoff Hcm).
Qed.

Lemma outcome_seg_m (A : mode) s a s' er : inv s -> op_ok s a -> order_op a = true -> outcome s a s' er -> permits A s a ->
  (s' = s /\ er <> OK /\ er <> ORDER_DUPLICATE) \/ exists evs, seg A s (Some a) evs s' /\ inv s'.
Proof.
  intros Hinv Hop Hord Ho [Hpq Hpk Hpo Hps]. pose proof (outcome_inv _ _ _ _ Hinv Ho) as Hinv'.
  inversion Ho as [|sid b c e' ? Hb Htg Hhd Hc Hfr Hend]; subst; [by left|right].
  destruct (head_hstep s sid b a c Hinv Hb Htg Hhd) as [hevs Hh].
  pose proof (hstep_allows A sid s b a hevs c Hinv Hb Hop Hh Hc Hpq Hpk) as Hal.
  destruct (ending_micro _ _ _ A _ _ _ Hend Hc Hal Hpo Hps) as [uevs Hu].
  eexists. split; [|done]. eapply seg_op; try done. eapply frame_trans; [done|]. by eapply ending_frame.
Qed.
Lemma outcome_seg (A : Prop) s a s' er : inv s -> op_ok s a -> order_op a = true -> outcome s a s' er ->
  (A \/ (no_live_aon s /\ adds_no_aon a)) ->
  (s' = s /\ er <> OK /\ er <> ORDER_DUPLICATE) \/ exists evs, seg (wide A) s (Some a) evs s' /\ inv s'.
Proof. intros ? ? ? ? ?. eapply outcome_seg_m; try done. by apply permits_wide. Qed.
Lemma outcome_segs_m (A : mode) s a s' er : inv s -> op_ok s a -> order_op a = true -> outcome s a s' er -> permits A s a ->
  exists l evs, segs A s l evs s' /\ Forall (fun x => x = Some a) l /\ (er = OK \/ er = ORDER_DUPLICATE -> l = [Some a]).
Proof.
  intros Hinv Hop Hord Ho HA. destruct (outcome_seg_m A s a s' er Hinv Hop Hord Ho HA) as [(-> & H1 & H2)|(evs & Hseg & Hi)].
  - exists [], []. split; [constructor|]. split; [done|]. naive_solver.
  - exists [Some a], (evs ++ []). split; [|split; [by constructor|done]].
    eapply sg_cons; try done; [by intros x [= <-]|]. constructor.
Qed.
Lemma outcome_segs (A : Prop) s a s' er : inv s -> op_ok s a -> order_op a = true -> outcome s a s' er ->
  (A \/ (no_live_aon s /\ adds_no_aon a)) ->
  exists l evs, segs (wide A) s l evs s' /\ Forall (fun x => x = Some a) l /\ (er = OK \/ er = ORDER_DUPLICATE -> l = [Some a]).
Proof. intros ? ? ? ? ?. eapply outcome_segs_m; try done. by apply permits_wide. Qed.
Lemma segs_app A s l1 e1 s1 l2 e2 s2 : segs A s l1 e1 s1 -> segs A s1 l2 e2 s2 -> segs A s (l1 ++ l2) (e1 ++ e2) s2.
Proof. induction 1; intros Hx; [done|]. rewrite <- app_assoc. cbn. eapply sg_cons; eauto. Qed.
Lemma segs_quietly A s l evs s' : segs A s l evs s' -> (forall a, Some a ∈ l -> keeps_quiet A a) -> quietly A s -> quietly A s'.
Proof.
  induction 1 as [s|s a evs s1 l evs' s' Hinv Hop Hseg Hinv1 _ IH]; intros Hl Hq; [done|]. apply IH.
  - intros x Hx. apply Hl. by right.
  - eapply (seg_quietly A s a evs s1); try done. intros x Hx. split; [auto|]. apply Hl. rewrite Hx. left.
Qed.

Lemma mrun_segs_m (A : mode) s s' : mrun s s' -> inv s -> quietly A s -> exists l evs, segs A s l evs s' /\ Forall (fun x => x = None) l.
Proof.
  induction 1 as [s|s sid b e' s' Hb Hr He' _ _ IH]; intros Hinv HA.
  { exists [], []. split; [constructor|done]. }
  pose proof (inv_eng _ _ _ Hinv Hb) as He.
  destruct (msteps_micro sid A (eng_of b s, None) (e', None)) as [evs Hu].
  { eapply (msteps_mono False False); [done|done|exact Hr]. } { done. } { by eapply match_allows. }
  assert (Hfr : frame sid (st_ords s) (e_ords e')) by (by destruct (msteps_ok sid _ _ Hr (conj He I))).
  assert (Hinv1 : inv (put_eng sid e' s)) by (by eapply put_inv).
  assert (Hseg : seg A s None evs (put_eng sid e' s)) by (by eapply seg_match).
  destruct (IH Hinv1) as (l & evs' & Hl & Hall).
  { eapply (seg_quietly A s None evs); try done. }
  exists (None :: l), (evs ++ evs'). split; [|by constructor]. by eapply sg_cons.
Qed.
Lemma mrun_segs (A : Prop) s s' : mrun s s' -> inv s -> (A \/ no_live_aon s) -> exists l evs, segs (wide A) s l evs s' /\ Forall (fun x => x = None) l.
Proof. intros ? ? ?. eapply mrun_segs_m; try done. by apply quietly_wide. Qed.

Lemma inv_matching m s : inv s -> inv (set_matching m s).
Proof. intros [H1 H2 H3 H4]. by constructor. Qed.

Theorem result_segs_m (A : mode) s a s' er : inv s -> op_ok s a -> result s a s' er -> registry_op a = false -> permits A s a ->
  exists l evs, segs A (start_of s a) l evs s' /\ Forall (part_of a) l /\ st_log s' = st_log s ++ evs.
Proof.
  intros Hinv Hop Hr Hreg HA.
  assert (exists l evs, segs A (start_of s a) l evs s' /\ Forall (part_of a) l) as (l & evs & Hs & Hl).
  2: { exists l, evs. split; [done|]. split; [done|]. rewrite (segs_log _ _ _ _ _ Hs). f_equal. by destruct a. }
  inversion Hr as [? ? ? Hord Ho|i o ? H1 H2 Ho|i o s1 ? ? Ho1 Hi1 Hop1 Ho2|? Hm|? Hm| | | | | | | | | |]; subst; try done.
  - destruct (outcome_segs_m A s a s' er Hinv Hop Hord Ho HA) as (l & evs & Hs & Hl & _). exists l, evs.
    split; [by destruct a|]. eapply Forall_impl; [done|]. intros x ->. by destruct a.
  - exists [], []. split; [constructor|done].
  - destruct HA as [Hpq Hpk Hpo Hps].
    assert (HA1 : permits A s (DeleteOrder i)) . { constructor; [done| |done|by intros (? & ? & ? & ? & [?|?] & _)]. right. intros ? [=]. }
    assert (Hop0 : op_ok s (DeleteOrder i)) by (by destruct Hop).
    assert (Hkq : keeps_quiet A (AddOrder o)) by (destruct Hpk as [?|Hadd]; [by left|right]; intros x Hx; by apply Hadd).
    destruct (outcome_segs_m A s (DeleteOrder i) s1 OK Hinv Hop0 eq_refl Ho1 HA1) as (l1 & ev1 & Hs1 & Hl1 & _).
    destruct (outcome_segs_m A s1 (AddOrder o) s' er Hi1 Hop1 eq_refl Ho2) as (l2 & ev2 & Hs2 & Hl2 & _).
    { constructor; [| | |by intros (? & ? & ? & ? & [?|?] & _)]; [|done|].
      - eapply segs_quietly; [exact Hs1| |done]. intros x Hx. rewrite Forall_forall in Hl1. specialize (Hl1 _ Hx). injection Hl1 as ->. apply (pm_add _ _ _ HA1).
      - assert (st_match s1 = st_match s) as ->; [by inversion Ho1|done]. }
    exists (l1 ++ l2), (ev1 ++ ev2). split; [by eapply segs_app|]. apply Forall_app.
    split; (eapply Forall_impl; [done|]); intros x ->; cbn; auto.
  - destruct (mrun_segs_m A s s' Hm Hinv (pm_quiet _ _ _ HA)) as (l & evs & Hs & Hl). exists l, evs. split; [done|].
    eapply Forall_impl; [done|]. by intros x ->.
  - destruct (mrun_segs_m A _ s' Hm (inv_matching true s Hinv) (pm_quiet _ _ _ HA)) as (l & evs & Hs & Hl). exists l, evs. split; [done|].
    eapply Forall_impl; [done|]. by intros x ->.
  - exists [], []. split; [constructor|done].
Qed.
Theorem result_segs (A : Prop) s a s' er : inv s -> op_ok s a -> result s a s' er -> registry_op a = false ->
  (A \/ (no_live_aon s /\ adds_no_aon a)) ->
  exists l evs, segs (wide A) (start_of s a) l evs s' /\ Forall (part_of a) l /\ st_log s' = st_log s ++ evs.
Proof. intros ? ? ? ? ?. eapply result_segs_m; try done. by apply permits_wide. Qed.

(** Registry calls: index untouched, one registry notification at most. *)
Lemma result_registry s a s' er : result s a s' er -> registry_op a = true ->
  st_ords s' = st_ords s /\ st_match s' = st_match s /\
  exists evs, st_log s' = st_log s ++ evs /\ (er <> OK -> evs = []) /\
    (evs = [] \/ exists ev, evs = [ev] /\ match ev with EAddSymbol _ | EDeleteSymbol _ | EAddBook _ | EDeleteBook _ => True | _ => False end).
Proof.
  intros Hr Hreg. inversion Hr; subst; try done; try (by destruct a); cbn; (split; [done|]; split; [done|]).
  all: try (exists []; rewrite app_nil_r; split; [done|]; split; [done|]; by left).
  all: eexists; split; [reflexivity|]; split; [done|]; right; eexists; by split.
Qed.

(** ** The consequence used most: order predicates are invariants and hold in notifications. *)
Lemma parts_keep Q a l : op_keeps Q a -> Forall (part_of a) l -> Forall (opt_keeps Q) l.
Proof.
  intros Hk. intros Hl0. eapply Forall_impl; [exact Hl0|]. intros [x|]; [|done]. destruct a; cbn; intros H; try done; try (by subst).
  by destruct H as [-> | ->].
Qed.
Theorem call_q Q s a s' er evs : closed Q -> op_keeps Q a -> inv s -> op_ok s a -> call s a s' er evs -> sall Q s ->
  sall Q s' /\ Forall (ev_q Q) evs.
Proof.
  intros HQ Hk Hinv Hop [Hst Hlog] Hs. pose proof (step_result _ _ _ _ Hinv Hop Hst) as Hr.
  destruct (registry_op a) eqn:Hreg.
  - destruct (result_registry _ _ _ _ Hr Hreg) as (Hm & _ & evs' & Hl & _ & He). rewrite Hlog in Hl. apply app_inv_head in Hl. subst evs'.
    split. { unfold sall. by rewrite Hm. }
    destruct He as [->|(ev & -> & Hev)]; [done|]. constructor; [|done]. by destruct ev.
  - destruct (result_segs True s a s' er Hinv Hop Hr Hreg ltac:(by left)) as (l & evs' & Hsg & Hl & Hlog').
    rewrite Hlog in Hlog'. apply app_inv_head in Hlog'. subst evs'.
    eapply segs_q; [done|done|by eapply parts_keep|]. unfold sall in *. by destruct a.
Qed.
Theorem reach_with_q Q (P : op -> Prop) s : closed Q -> (forall a, P a -> op_keeps Q a) -> reach_with P s -> sall Q s.
Proof.
  intros HQ HP. induction 1 as [|s a s' er Hr IH Hop HPa Hst]; [by intros i o Hi; cbn in Hi; rewrite lookup_empty in Hi|].
  assert (Hinv : inv s). { apply reach_inv. clear -Hr. induction Hr; [constructor|by eapply reach_step]. }
  assert (exists evs, st_log s' = st_log s ++ evs) as [evs Hlog].
  { pose proof (step_result _ _ _ _ Hinv Hop Hst) as Hres. destruct (registry_op a) eqn:Hreg.
    - destruct (result_registry _ _ _ _ Hres Hreg) as (_ & _ & evs & Hl & _). eauto.
    - destruct (result_segs True s a s' er Hinv Hop Hres Hreg ltac:(by left)) as (l & evs & _ & _ & Hl). eauto. }
  by destruct (call_q Q s a s' er evs HQ (HP a HPa) Hinv Hop (conj Hst Hlog) IH).
Qed.
Lemma reach_with_reach P s : reach_with P s -> reach s.
Proof. induction 1; [constructor|by eapply reach_step]. Qed.
Lemma call_exists s a : inv s -> op_ok s a -> exists s' er evs, call s a s' er evs.
Proof.
  intros Hinv Hop. destruct (step_ok s a Hinv Hop) as (s' & er & Hst & Hres & _). exists s', er.
  destruct (registry_op a) eqn:Hreg.
  - destruct (result_registry _ _ _ _ Hres Hreg) as (_ & _ & evs & Hl & _). by exists evs.
  - destruct (result_segs True s a s' er Hinv Hop Hres Hreg ltac:(by left)) as (l & evs & _ & _ & Hl). by exists evs.
Qed.
