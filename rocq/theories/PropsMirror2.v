(** * PropsMirror2.v -- a client that keeps the orders from notifications: C28. *)
From Coq Require Import ZifyBool.
From stdpp Require Import fin_maps relations.
From Verif Require Import Types Book Engine Manager Factory Validate LevelFacts BookInv EngInv EngPrim Steps StepsOk Refine3 Refine4 Api StateInv Micro Reach Calls Witness PropsState PropsSettle CallFacts Spec Spec2 Spec3.

Lemma listen_app c a c1 b : listen_all c a = Some c1 -> listen_all c (a ++ b) = listen_all c1 b.
Proof. revert c. induction a as [|ev a IH]; intros c H; cbn in *; [by injection H as ->|]. destruct (listen c ev); [|done]. cbn in *. by apply IH. Qed.
Lemma listen_lev c sid u evs : listen_all c (lev_evs sid u ++ evs) = listen_all c evs.
Proof. unfold lev_evs, lev_ev. by destruct (u_type u). Qed.
Lemma listen_lim c o sid u evs : listen_all c (lim_evs o sid u ++ evs) = listen_all c evs.
Proof. unfold lim_evs. destruct (is_limit o); [apply listen_lev|done]. Qed.
Lemma listen_lim0 c o sid u : listen_all c (lim_evs o sid u) = Some c.
Proof. rewrite <- (app_nil_r (lim_evs o sid u)). by rewrite listen_lim. Qed.
Lemma listen_lev0 c sid u : listen_all c (lev_evs sid u) = Some c.
Proof. rewrite <- (app_nil_r (lev_evs sid u)). by rewrite listen_lev. Qed.

Lemma listen_step c ev c1 evs : listen c ev = Some c1 -> listen_all c (ev :: evs) = listen_all c1 evs.
Proof. intros H. cbn [listen_all]. by rewrite H. Qed.

(** The client's copy of the order in flight. *)
Definition same_flight (x o : order) : Prop := x = o \/ (o_type o = MARKET /\ set_price (o_price o) x = o) \/ o_leaves o = 0.
Definition client (c : gmap Z order) (x : cfg) : Prop :=
  match snd x with
  | None => c = e_ords (fst x)
  | Some o => e_ords (fst x) !! o_id o = None /\ exists y, same_flight y o /\ c = <[o_id o := y]> (e_ords (fst x))
  end.
Definition also (f : option (Z * order)) (m : gmap Z order) : gmap Z order := match f with Some (i, y) => <[i := y]> m | None => m end.
Lemma also_lookup f m i : (forall j y, f = Some (j, y) -> j <> i) -> also f m !! i = m !! i.
Proof. intros H. destruct f as [[j y]|]; [|done]. cbn. rewrite lookup_insert_ne; [done|by eapply H]. Qed.
Lemma also_insert f m i r : (forall j y, f = Some (j, y) -> j <> i) -> <[i:=r]> (also f m) = also f (<[i:=r]> m).
Proof. intros H. destruct f as [[j y]|]; [|done]. cbn. rewrite insert_commute; [done|]. intros ->. by eapply H. Qed.
Lemma also_delete f m i : (forall j y, f = Some (j, y) -> j <> i) -> delete i (also f m) = also f (delete i m).
Proof. intros H. destruct f as [[j y]|]; [|done]. cbn. rewrite delete_insert_ne; [done|]. intros ->. by eapply H. Qed.
Lemma listen_execute c r p q : c !! o_id r = Some r -> listen c (EExecute r p q) = Some (<[o_id r := executed q r]> c).
Proof. intros H. cbn [listen]. rewrite H. cbn [mbind option_bind]. rewrite decide_True by (by left). done. Qed.
Lemma listen_red c r evs : c !! o_id r <> None -> listen_all c (red_ev r :: evs) = listen_all (reduced_map c r) evs.
Proof.
  intros H. unfold red_ev, reduced_map. destruct (_ =? 0); cbn [listen_all listen]; destruct (c !! o_id r); done.
Qed.
Lemma reduced_insert m i r : i = o_id r -> forall x, reduced_map (<[i:=x]> m) r = reduced_map m r.
Proof. intros -> x. unfold reduced_map. destruct (_ =? 0); [apply delete_insert_delete|apply insert_insert]. Qed.
Lemma also_reduced f m r : (forall j y, f = Some (j, y) -> j <> o_id r) -> reduced_map (also f m) r = also f (reduced_map m r).
Proof. intros H. unfold reduced_map. destruct (_ =? 0); [by apply also_delete|by apply also_insert]. Qed.

Lemma client_also c e f : client c (e, f) ->
  exists g, c = also g (e_ords e) /\ match f, g with
    | None, None => True
    | Some o, Some (i, y) => i = o_id o /\ e_ords e !! o_id o = None /\ same_flight y o
    | _, _ => False end.
Proof.
  unfold client. cbn. destruct f as [o|]; [|intros ->; by exists None].
  intros (Hn & y & Hy & ->). by exists (Some (o_id o, y)).
Qed.
Lemma also_client c e f g : c = also g (e_ords e) ->
  match f, g with
    | None, None => True
    | Some o, Some (i, y) => i = o_id o /\ e_ords e !! o_id o = None /\ same_flight y o
    | _, _ => False end -> client c (e, f).
Proof. intros -> H. unfold client. cbn. destruct f as [o|], g as [[i y]|]; try done. destruct H as (-> & H1 & H2). split; [done|]. by exists y. Qed.

Lemma ustep_listen sid A c x evs x' : cfg_ok sid x -> ustep sid A x evs x' -> client c x ->
  exists c', listen_all c evs = Some c' /\ client c' x'.
Proof.
  intros [He Hf] Hu Hc. pose proof He as [Hm Hb].
  inversion Hu as [e f r p q u e' Q' Hr Hs Ht Hq0 Hx He' Hords Hlog Hpr Hp
    |e f r p u e' Q' Hr Hs Ht Hx He' Hords Hlog Hpr Hp|e o p q Hq0 Hw Hfa|e o p Hty Hbst|e o Hty Hre
    |e o u e' Hfr Hlv Hty Htif He' Hords Hlog Hpr Hp|e o Hmv|e o u e' Ho Hs Hty Hre He' Hords Hlog Hpr Hp
    |e o u1 b1 u2 e' o' Ho Hs Htr Hne He' Hords Hlog Hpr Hp1 Hp2|e s|e]; subst x x' evs; cbn [fst snd] in *.
  - destruct (client_also _ _ _ Hc) as (g & -> & Hg).
    assert (Hgr : forall j y, g = Some (j, y) -> j <> o_id r).
    { intros j y ->. destruct f as [o|]; [|done]. destruct Hg as (-> & Hn & _). intros E. rewrite E in Hn. congruence. }
    exists (also g (e_ords e')). split.
    + rewrite (listen_step _ _ _ _ (listen_execute _ r p q ltac:(by rewrite also_lookup))). rewrite listen_red by (cbn; by rewrite lookup_insert).
      rewrite listen_lev0, reduced_insert, also_reduced, Hords by done. done.
    + eapply also_client; [done|]. destruct f as [o|], g as [[i y]|]; try done. destruct Hg as (-> & Hn & Hy). split; [done|]. split; [|done].
      rewrite Hords. unfold reduced_map. pose proof (Hgr _ _ eq_refl). cbn. destruct (_ =? 0); [by rewrite lookup_delete_ne|by rewrite lookup_insert_ne].
  - destruct (client_also _ _ _ Hc) as (g & -> & Hg).
    assert (Hgr : forall j y, g = Some (j, y) -> j <> o_id r).
    { intros j y ->. destruct f as [o|]; [|done]. destruct Hg as (-> & Hn & _). intros E. rewrite E in Hn. congruence. }
    exists (also g (e_ords e')). split.
    + rewrite (listen_step _ _ _ _ (listen_execute _ r p (o_leaves r) ltac:(by rewrite also_lookup))).
      rewrite listen_lev. cbn [listen_all listen]. cbn. rewrite lookup_insert. cbn. rewrite delete_insert_delete, also_delete, Hords by done. done.
    + eapply also_client; [done|]. destruct f as [o|], g as [[i y]|]; try done. destruct Hg as (-> & Hn & Hy). split; [done|]. split; [|done].
      rewrite Hords. pose proof (Hgr _ _ eq_refl). by rewrite lookup_delete_ne.
  - unfold client in Hc. cbn in Hc. destruct Hc as (Hn & y & Hy & ->). exists (<[o_id o := executed q o]> (e_ords e)). split.
    + cbn [listen_all listen]. rewrite lookup_insert. cbn [mbind option_bind]. rewrite decide_True.
      2: { destruct Hy as [Hy|[Hy|Hy]]; [by left|by right|lia]. }
      cbn. by rewrite insert_insert.
    + unfold client. cbn. split; [done|]. eexists. split; [by left|done].
  - unfold client in Hc. cbn in Hc. destruct Hc as (Hn & y & Hy & ->). exists (<[o_id o := y]> (e_ords e)). split; [done|].
    unfold client. cbn. split; [done|]. exists y. split; [|done]. destruct Hy as [->|[[_ Hy]|Hy]]; [| |by right; right]; right; left.
    + split; [exact Hty|done].
    + split; [exact Hty|]. cbn [o_price set_price]. transitivity (set_price (market_price o p) (set_price (o_price o) y)); [done|by rewrite Hy].
  - unfold client in Hc. cbn in Hc. destruct Hc as (Hn & y & Hy & ->).
    assert (Ei : o_id (converted o) = o_id o). { unfold converted, to_market, to_limit. destruct (o_type o); cbn; try done; by destruct (is_fok _). }
    exists (<[o_id o := converted o]> (e_ords e)). split.
    + cbn [listen_all listen]. rewrite Ei, lookup_insert. cbn. by rewrite insert_insert.
    + unfold client. cbn. rewrite Ei. split; [done|]. eexists. split; [by left|done].
  - unfold client in Hc. cbn in Hc. destruct Hc as (Hn & y & Hy & ->). rewrite listen_lim0.
    eexists. split; [done|]. unfold client. cbn. rewrite Hords. destruct Hy as [->|[[? _]|?]]; [done|done|lia].
  - unfold client in Hc. cbn in Hc. destruct Hc as (Hn & y & Hy & ->). eexists. split.
    + cbn [listen_all listen]. rewrite lookup_insert. cbn. done.
    + unfold client. cbn. by rewrite delete_insert.
  - unfold client in Hc. cbn in Hc. subst c.
    assert (Ei : o_id (converted o) = o_id o). { unfold converted, to_market, to_limit. destruct (o_type o); cbn; try done; by destruct (is_fok _). }
    eexists. split.
    + cbn [listen_all listen]. rewrite Ei, Ho. cbn. done.
    + unfold client. cbn. rewrite Hords, Ei. split; [apply lookup_delete|]. eexists. split; [by left|]. by rewrite insert_delete_insert.
  - unfold client in Hc. cbn in Hc. subst c.
    destruct (retrail_place (calc_trailing o (e_bk e)) o Htr) as (Ei & _). fold o' in Ei.
    eexists. split.
    + cbn [listen_all listen]. rewrite Ei, Ho. cbn. done.
    + unfold client. cbn. by rewrite Hords.
  - exists c. split; [done|]. done.
  - exists c. split; [done|]. done.
Qed.
Lemma usteps_listen sid A x evs x' : usteps sid A x evs x' -> cfg_ok sid x -> forall c, client c x ->
  exists c', listen_all c evs = Some c' /\ client c' x'.
Proof.
  revert x evs x'. apply (usteps_ind_ok sid A (fun x evs x' => forall c, client c x -> exists c', listen_all c evs = Some c' /\ client c' x')).
  - intros x c Hc. by exists c.
  - intros x evs x1 evs' x' Hx Hu _ IH c Hc. destruct (ustep_listen _ _ _ _ _ _ Hx Hu Hc) as (c1 & H1 & Hc1).
    destruct (IH c1 Hc1) as (c' & H2 & Hc'). exists c'. split; [|done]. by rewrite (listen_app _ _ _ _ H1).
Qed.
Lemma placed_id o b : o_id (placed o b) = o_id o.
Proof. apply placed_same. Qed.
Lemma hstep_listen sid e a evs x : eng_ok sid e -> hstep sid e a evs x ->
  (forall i, introduces a i -> e_ords e !! i = None \/ refers a = Some i) ->
  exists c', listen_all (e_ords e) evs = Some c' /\ client c' x.
Proof.
  intros He Hh Hfresh. pose proof He as [Hm Hb].
  inversion Hh as [o o' Hsym Hval|i q0 o u e' q o' Q' Ho Hid Hsym Hq He' Hords Hlog Hpr Hp
    |mit i p q o u e' o' evs' Q' Ho Hid Hsym Hq He' Hords Hlog Hpr Hp Ea
    |i ni p q o u e' o' Q' evs' Ho Hid Hsym Hq Hni Hty He' Hords Hlog Hpr Hp
    |i o u e' Q' evs' Ho Hid Hsym He' Hords Hlog Hpr Hp
    |a' i price q0 o u e' q o' Q' evs' Ha Ho Hid Hsym Hq He' Hords Hlog Hpr Hp]; subst a x evs; unfold client; cbn [fst snd].
  - assert (Hn : e_ords e !! o_id o = None) by (by destruct (Hfresh (o_id o) eq_refl)).
    pose proof (placed_id o (e_bk e)) as Ei. fold o' in Ei.
    eexists. split; [cbn; rewrite Ei, Hn; cbn; done|]. cbn. rewrite Ei. split; [done|]. eexists. split; [by left|done].
  - subst i. eexists. split; [|reflexivity]. rewrite listen_red by (cbn; congruence). by rewrite listen_lim0, Hords.
  - subst i. assert (Ei : o_id o' = o_id o). { unfold o', modified. by destruct mit. }
    unfold evs'. rewrite listen_lim. destruct (Z.ltb_spec 0 (o_leaves o')) as [Hl|Hl].
    + eexists. split; [cbn; rewrite Ei, Ho; cbn; done|]. rewrite Hords, Ei. split; [apply lookup_delete|].
      eexists. split; [by left|]. by rewrite insert_delete_insert.
    + eexists. split; [done|]. rewrite Hords, Ei. split; [apply lookup_delete|].
      exists o. split; [|rewrite insert_delete_insert; by rewrite insert_id].
      right; right. unfold o', modified in *. pose proof (lo_leaves _ _ (mo_live _ Hm _ _ Ho)). destruct mit; cbn in *; [|lia].
      destruct (_ <? _) eqn:E in Hl |- *; lia.
  - unfold evs'. rewrite listen_lim.
    assert (Hn : delete (o_id o) (e_ords e) !! ni = None).
    { destruct (Hfresh ni eq_refl) as [H|H]; [by apply lookup_delete_None; right|]. cbn in H. injection H as <-. apply lookup_delete_None. left. done. }
    assert (Ei : o_id o' = ni) by done. subst i.
    eexists. split; [cbn [listen_all listen]; rewrite Ho; cbn [mbind option_bind]; rewrite Ei, Hn; cbn; done|].
    rewrite Hords, Ei. split; [done|]. eexists. split; [by left|done].
  - subst i. unfold evs'. rewrite listen_lim. eexists. split; [cbn; rewrite Ho; cbn; done|]. done.
  - subst i. unfold evs'. rewrite (listen_step _ _ _ _ (listen_execute _ o price q Ho)). rewrite listen_lim.
    rewrite listen_red by (cbn; by rewrite lookup_insert). eexists. split; [done|]. by rewrite reduced_insert, Hords.
Qed.
Lemma seg_listen A s x evs s' : inv s -> seg A s x evs s' -> (forall a i, x = Some a -> introduces a i -> st_ords s !! i = None \/ refers a = Some i) ->
  listen_all (st_ords s) evs = Some (st_ords s').
Proof.
  intros Hinv Hseg Hfresh.
  inversion Hseg as [a sid b hevs x1 uevs e' Hord Hb Htg Hh Hx1 Hfr Hfr' Hu|sid b uevs e' Hb Hfr' Hu]; subst.
  - destruct (hstep_listen sid _ _ _ _ (inv_eng _ _ _ Hinv Hb) Hh) as (c1 & H1 & Hc1); [by intros i Hi; apply (Hfresh a)|]. cbn in H1.
    destruct (usteps_listen sid A _ _ _ Hu Hx1 c1 Hc1) as (c' & H2 & Hc'). rewrite (listen_app _ _ _ _ H1), H2. unfold client in Hc'. cbn in Hc'. by subst.
  - destruct (usteps_listen sid A _ _ _ Hu (conj (inv_eng _ _ _ Hinv Hb) I) (st_ords s)) as (c' & H2 & Hc'); [done|].
    rewrite H2. unfold client in Hc'. cbn in Hc'. by subst.
Qed.
Lemma segs_listen A s l evs s' : segs A s l evs s' -> Forall (fun x => x = None) l -> listen_all (st_ords s) evs = Some (st_ords s').
Proof.
  induction 1 as [s|s a evs s1 l evs' s' Hinv Hop Hseg Hinv1 _ IH]; intros Hl; [done|]. apply Forall_cons in Hl as [-> Hl].
  rewrite (listen_app _ _ _ _ (seg_listen _ _ _ _ _ Hinv Hseg ltac:(done))). by apply IH.
Qed.
(** No order id appears from nowhere. *)
Lemma usteps_ids sid A x evs x' : usteps sid A x evs x' -> cfg_ok sid x -> forall j, e_ords (fst x) !! j = None ->
  (forall o, snd x = Some o -> o_id o <> j) -> e_ords (fst x') !! j = None /\ (forall o, snd x' = Some o -> o_id o <> j).
Proof.
  revert x evs x'. apply (usteps_ind_ok sid A (fun x evs x' => forall j, e_ords (fst x) !! j = None ->
  (forall o, snd x = Some o -> o_id o <> j) -> e_ords (fst x') !! j = None /\ (forall o, snd x' = Some o -> o_id o <> j))); [done|].
  intros x evs x1 evs' x' Hx Hu _ IH j Hj Hf. apply IH; clear IH x' evs';
  inversion Hu as [e f r p q u e' Q' Hr Hs Ht Hq0 Hxc He' Hords Hlog Hpr Hp
    |e f r p u e' Q' Hr Hs Ht Hxc He' Hords Hlog Hpr Hp|e o p q Hq0 Hw Hfa|e o p Hty Hbst|e o Hty Hre
    |e o u e' Hfr Hlv Hty Htif He' Hords Hlog Hpr Hp|e o Hmv|e o u e' Ho Hs Hty Hre He' Hords Hlog Hpr Hp
    |e o u1 b1 u2 e' o' Ho Hs Htr Hne He' Hords Hlog Hpr Hp1 Hp2|e s|e]; subst x x1 evs; cbn [fst snd] in *; try done.
  - rewrite Hords. unfold reduced_map. cbn. destruct (_ =? 0); [by rewrite lookup_delete_None; right|]. rewrite lookup_insert_ne; [done|congruence].
  - rewrite Hords. by rewrite lookup_delete_None; right.
  - rewrite Hords. rewrite lookup_insert_ne; [done|by apply Hf].
  - rewrite Hords. by rewrite lookup_delete_None; right.
  - rewrite Hords. rewrite lookup_insert_ne; [done|congruence].
  - intros x [= <-]. cbn. by apply Hf.
  - intros x [= <-]. cbn. by apply Hf.
  - intros x [= <-]. assert (o_id (converted o) = o_id o) as ->; [|by apply Hf]. unfold converted, to_market, to_limit. destruct (o_type o); cbn; try done; by destruct (is_fok _).
  - intros x [= <-]. assert (o_id (converted o) = o_id o) as ->. { unfold converted, to_market, to_limit. destruct (o_type o); cbn; try done; by destruct (is_fok _). } congruence.
Qed.
Lemma seg_delete_ids A s i evs s' j : inv s -> seg A s (Some (DeleteOrder i)) evs s' -> st_ords s !! j = None \/ j = i -> st_ords s' !! j = None.
Proof.
  intros Hinv Hseg Hj. inversion Hseg as [a sid b hevs x1 uevs e' Hord Hb Htg Hh Hx1 Hfr Hfr' Hu|]; subst.
  inversion Hh as [| |mit ? p q o u e1 o' evs' Q' Ho Hid Hsym Hq He' Hords Hlog Hpr Hp Ea| |? o u e1 Q' evs' Ho Hid Hsym He' Hords Hlog Hpr Hp|a' ? price q0 o u e1 q o' Q' evs' Ha Ho Hid Hsym Hq He' Hords Hlog Hpr Hp]; subst.
  { by destruct mit. } 2: { by destruct Ha as [[? _]|?]. }
  apply (usteps_ids _ _ _ _ _ Hu Hx1 j); [|done]. cbn. rewrite Hords. apply lookup_delete_None. cbn. naive_solver.
Qed.

(** ** C28 *)
Theorem C28_orders_mirrored_partial s a s' er evs c : reach s -> op_ok s a -> fresh_ids s a -> call s a s' er evs ->
  (forall i, c !! i = get_order i s) -> exists c', listen_all c evs = Some c' /\ forall i, c' !! i = get_order i s'.
Proof.
  intros Hr Hop Hfr Hc Hm. destruct (call_result _ _ _ _ _ Hr Hop Hc) as (Hinv & Hres & Hinv').
  assert (c = st_ords s) as ->. { apply map_eq. intros i. by rewrite Hm, get_order_inv. }
  exists (st_ords s'). split; [|intros i; by rewrite get_order_inv].
  destruct Hc as [Hst Hlog].
  assert (Hfr' : forall x i, introduces x i -> introduces a i -> st_ords s !! i = None \/ refers a = Some i).
  { intros x i _ Hi. destruct (Hfr i Hi) as [H|H]; [|by right]. left. by rewrite <- get_order_inv. }
  destruct (registry_op a) eqn:Hreg.
  { destruct (result_registry _ _ _ _ Hres Hreg) as (Eo & _ & evs' & Hl & _ & He). rewrite Hlog in Hl. apply app_inv_head in Hl. subst evs'.
    rewrite Eo. destruct He as [->|(ev & -> & Hev)]; [done|]. by destruct ev. }
  assert (Hone : forall x y s1 er1 s0 ev1, inv s0 -> op_ok s0 x -> order_op x = true -> outcome s0 x s1 er1 -> st_log s1 = st_log s0 ++ ev1 ->
    (forall i, introduces x i -> st_ords s0 !! i = None \/ refers x = Some i) -> y = x -> listen_all (st_ords s0) ev1 = Some (st_ords s1)).
  { intros x y s1 er1 s0 ev1 Hi0 Hop0 Ho0 Hout Hl0 Hf0 _. destruct (outcome_seg True s0 x s1 er1 Hi0 Hop0 Ho0 Hout ltac:(by left)) as [(-> & _)|(evs' & Hseg & Hi1)].
    - apply log_same in Hl0 as ->. done.
    - assert (evs' = ev1) as <-.
      { pose proof (segs_log (wide True) s0 [Some x] (evs' ++ []) s1) as H. rewrite app_nil_r, Hl0 in H.
        apply (app_inv_head (st_log s0)). symmetry. apply H. rewrite <- (app_nil_r evs'). eapply sg_cons; try done; [by intros z [= <-]|constructor]. }
      eapply seg_listen; [done|done|]. intros b i [= <-]. by apply Hf0. }
  inversion Hres as [? ? ? Hord Ho|i o ? H1 H2 Ho|i o s1 ? ? Ho1 Hi1 Hop1 Ho2|? Hmr|? Hmr| | | | | | | | | |]; subst; try done.
  - eapply (Hone a a); try done. intros i Hi. by eapply Hfr'.
  - apply log_same in Hlog as ->. done.
  - destruct Hop as (Hop0 & _).
    destruct (outcome_seg True s (DeleteOrder i) s1 OK Hinv Hop0 eq_refl Ho1 ltac:(by left)) as [(_ & ? & _)|(ev1 & Hseg1 & _)]; [done|].
    assert (Hlog1 : st_log s1 = st_log s ++ ev1).
    { pose proof (segs_log (wide True) s [Some (DeleteOrder i)] (ev1 ++ []) s1) as H. rewrite app_nil_r in H. apply H. rewrite <- (app_nil_r ev1). eapply sg_cons; try done; [by intros z [= <-]|constructor]. }
    pose proof (Hone (DeleteOrder i) (DeleteOrder i) s1 OK s ev1 Hinv Hop0 eq_refl Ho1 Hlog1 ltac:(done) eq_refl) as L1.
    assert (exists ev2, st_log s' = st_log s1 ++ ev2) as [ev2 Hlog2].
    { destruct (outcome_segs True s1 (AddOrder o) s' er Hi1 Hop1 eq_refl Ho2 ltac:(by left)) as (l & ev2 & Hs2 & _). exists ev2. by eapply segs_log. }
    assert (evs = ev1 ++ ev2) as ->. { apply (app_inv_head (st_log s)). by rewrite <- Hlog, Hlog2, Hlog1, <- app_assoc. }
    rewrite (listen_app _ _ _ _ L1). eapply (Hone (AddOrder o) (AddOrder o)); try done.
    intros j Hj. cbn in Hj. left. apply (seg_delete_ids _ _ _ _ _ j Hinv Hseg1). destruct (Hfr j Hj) as [H|H].
    + left. by rewrite <- get_order_inv. + right. by injection H as <-.
  - destruct (mrun_segs True s s' Hmr Hinv ltac:(by left)) as (l & evs' & Hs & Hl).
    assert (evs' = evs) as <-. { pose proof (segs_log _ _ _ _ _ Hs) as H. rewrite Hlog in H. by apply app_inv_head in H. }
    by eapply segs_listen.
  - destruct (mrun_segs True _ s' Hmr (inv_matching true s Hinv) ltac:(by left)) as (l & evs' & Hs & Hl).
    assert (evs' = evs) as <-. { pose proof (segs_log _ _ _ _ _ Hs) as H. rewrite Hlog in H. by apply app_inv_head in H. }
    by pose proof (segs_listen _ _ _ _ _ Hs Hl).
  - cbn in Hlog. apply log_same in Hlog as ->. done.
Qed.
Print Assumptions C28_orders_mirrored_partial.
Lemma reach_if_reach P s : reach_if P s -> reach s.
Proof. induction 1; [constructor|by eapply reach_step]. Qed.
Theorem C28_history_partial s : reach_if fresh_ids s ->
  exists c, listen_all ∅ (st_log s) = Some c /\ forall i, c !! i = get_order i s.
Proof.
  induction 1 as [|s a s' er Hr IH Hop Hfr Hst].
  - exists ∅. split; [done|]. intros i. unfold get_order. destruct (i =? 0); done.
  - destruct IH as (c & H1 & Hc). pose proof (reach_if_reach _ _ Hr) as Hr'. pose proof (reach_inv _ Hr') as Hinv.
    destruct (call_exists s a Hinv Hop) as (s1 & er1 & evs & Hst1 & Hlog). rewrite Hst in Hst1. injection Hst1 as <- <-.
    destruct (C28_orders_mirrored_partial s a s' er evs c Hr' Hop Hfr (conj Hst Hlog) Hc) as (c' & H2 & Hc'). exists c'. split; [|done].
    rewrite Hlog. by rewrite (listen_app _ _ _ _ H1).
Qed.
Print Assumptions C28_history_partial.

(** Market, stop, trailing, iceberg, All-Or-None orders; partial fills, replacement, activation. *)
Definition ex_mirror2 : list op := setup ++ [EnableMatching; BL 1 90 10; BL 2 95 20; SL 4 105 7; AddOrder (StopOrder 5 0 BUY 120 3 GTC MAX64);
  AddOrder (MarketOrder 6 0 SELL 25 MAX64); ReplaceOrder 1 9 91 12; MitigateOrder 4 104 9; LIM BUY 10 104 3 GTC; DeleteOrder 9; BL 1 80 5].
Lemma fresh_history ops : forall s s', reach_if fresh_ids s ->
  (fix go s ops := match ops with
     | [] => Some s
     | a :: ops => if op_okb s a && match a with
          | AddOrder o => bool_decide (get_order (o_id o) s = None)
          | ReplaceWith i o => bool_decide (get_order (o_id o) s = None) || (o_id o =? i)
          | ReplaceOrder i ni _ _ => bool_decide (get_order ni s = None) || (ni =? i)
          | _ => true end
        then match step s a with Ok (s', _) => go s' ops | _ => None end else None
     end) s ops = Some s' -> reach_if fresh_ids s'.
Proof.
  induction ops as [|a ops IH]; intros s s' Hr H; [by injection H as <-|].
  match type of H with (if ?x then _ else _) = _ => destruct x eqn:E end; [|done].
  apply andb_prop in E as [E1 E2]. apply op_okb_ok in E1.
  destruct (step s a) as [[s1 er]| |] eqn:Es; [|done|done]. eapply IH; [|done]. eapply ri_step; [done|done| |done].
  intros i Hi. destruct a; try done; cbn in Hi; subst.
  - left. by apply bool_decide_eq_true in E2.
  - apply orb_prop in E2 as [E2|E2]; [left; by apply bool_decide_eq_true in E2|right; cbn; f_equal; lia].
  - apply orb_prop in E2 as [E2|E2]; [left; by apply bool_decide_eq_true in E2|right; cbn; f_equal; lia].
Qed.
Example C28_example : let s := hist ex_mirror2 in reach_if fresh_ids s /\ size (st_ords s) = 3%nat /\ length (execs (st_log s)) = 6%nat.
Proof. split; [|by vm_compute]. apply (fresh_history ex_mirror2 init); [constructor|vm_compute; reflexivity]. Qed.
(** A duplicate id: the client is told that an order is added under the id of a live one, and then
    that the live one is gone. *)
Theorem C28_duplicate_refuted : exists s a s' evs, reach s /\ op_ok s a /\ call s a s' ORDER_DUPLICATE evs /\
  listen_all (st_ords s) evs = None /\ (exists o, get_order 2 s' = Some o /\ EDeleteOrder (set_price 40 o) ∈ evs).
Proof.
  set (ops := setup ++ [BL 2 50 5]). exists (hist ops), (BL 2 40 5), (after (hist ops) (BL 2 40 5)), (news (hist ops) (BL 2 40 5)).
  split; [apply hist_reach|]. split; [by apply op_okb_ok; vm_compute|]. split; [by apply (hist_call ops (BL 2 40 5)); vm_compute|].
  split; [by vm_compute|]. exists (LimitOrder 2 0 BUY 50 5 GTC MAX64). vm_compute. split; [done|]. right. by left.
Qed.
Print Assumptions C28_duplicate_refuted.
