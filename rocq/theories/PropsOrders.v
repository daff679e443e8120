(** * PropsOrders.v -- quantities of orders and their executions: C14, C15, C23, C24. *)
From Coq Require Import ZifyBool.
From stdpp Require Import fin_maps relations.
From Verif Require Import Types Book Engine Manager Factory Validate LevelFacts BookInv EngInv EngPrim Steps StepsOk Refine3 Refine4 Api StateInv Micro Reach Calls Trades Witness PropsState PropsSettle CallFacts PropsTrades Spec Spec2.

(** Events of a call, from its head actions and its micro actions. *)
Lemma call_events (J : cfg -> Prop) (E : event -> Prop) s a s' er evs : reach s -> op_ok s a -> call s a s' er evs -> registry_op a = false ->
  (forall e, J (e, None)) ->
  (forall sid x e hevs c, part_of a (Some x) -> eng_ok sid e -> hstep sid e x hevs c -> Forall E hevs /\ J c) ->
  (forall sid c evs c', cfg_ok sid c -> J c -> ustep sid (wide True) c evs c' -> J c' /\ Forall E evs) -> Forall E evs.
Proof.
  intros Hr Hop Hc Hreg Hn Hh Hu. destruct (call_segs s a s' er evs Hr Hop Hc Hreg) as (l & Hs & Hl). clear Hr Hop Hc.
  induction Hs as [s0|s0 x evs s1 l evs' s' Hinv Hopx Hseg Hinv1 _ IH]; [done|]. apply Forall_cons in Hl as [Hx Hl].
  apply Forall_app. split; [|by apply IH]. clear IH.
  inversion Hseg as [a' sid b hevs c uevs e' Hord Hb Htg Hhs Hcf Hfr Hfr' Hus|sid b uevs e' Hb Hfr' Hus]; subst.
  - destruct (Hh sid a' _ hevs c Hx (inv_eng _ _ _ Hinv Hb) Hhs) as [H1 H2]. apply Forall_app. split; [done|].
    by destruct (usteps_forall sid (wide True) J E (Hu sid) _ _ _ Hus Hcf H2).
  - by destruct (usteps_forall sid (wide True) J E (Hu sid) _ _ _ Hus (conj (inv_eng _ _ _ Hinv Hb) I) (Hn _)).
Qed.

(** ** C15 *)
Definition whole_ev (t : otif) (ev : event) : Prop := match ev with EExecute o _ q => o_tif o = t -> q = o_leaves o | _ => True end.
Lemma lev_evs_whole t sid u : Forall (whole_ev t) (lev_evs sid u).
Proof. unfold lev_evs, lev_ev. destruct (u_type u); repeat constructor. Qed.
Lemma lim_evs_whole t o sid u : Forall (whole_ev t) (lim_evs o sid u).
Proof. unfold lim_evs. destruct (is_limit o); [apply lev_evs_whole|constructor]. Qed.
Lemma red_ev_whole t o : whole_ev t (red_ev o).
Proof. unfold red_ev. by destruct (_ =? 0). Qed.
Lemma hstep_whole t sid e x hevs c : is_execute x = false -> hstep sid e x hevs c -> Forall (whole_ev t) hevs.
Proof.
  intros Hex Hh. inversion Hh as [o o' Hsym Hval|i q0 o u e' q o' Q' Ho Hid Hsym Hq He' Hords Hlog Hpr Hp
    |mit i p q o u e' o' evs' Q' Ho Hid Hsym Hq He' Hords Hlog Hpr Hp
    |i ni p q o u e' o' Q' evs' Ho Hid Hsym Hq Hni Hty He' Hords Hlog Hpr Hp
    |i o u e' Q' evs' Ho Hid Hsym He' Hords Hlog Hpr Hp
    |a' i price q0 o u e' q o' Q' evs' Ha Ho Hid Hsym Hq He' Hords Hlog Hpr Hp]; subst.
  - by repeat constructor.
  - constructor; [apply red_ev_whole|apply lim_evs_whole].
  - unfold evs'. apply Forall_app. split; [apply lim_evs_whole|]. destruct (0 <? _); by repeat constructor.
  - unfold evs'. apply Forall_app. split; [apply lim_evs_whole|]. by repeat constructor.
  - unfold evs'. apply Forall_app. split; [apply lim_evs_whole|]. by repeat constructor.
  - by destruct Ha as [[-> _]| ->].
Qed.
Lemma part_execute a x : is_execute a = false -> part_of a (Some x) -> is_execute x = false.
Proof. intros Ha Hp. destruct a; cbn in Hp; try done; try (by subst); by destruct Hp as [-> | ->]. Qed.
Lemma ustep_whole t sid c evs c' : t = FOK \/ t = AON -> cfg_ok sid c -> ustep sid (wide True) c evs c' -> Forall (whole_ev t) evs.
Proof.
  intros Ht [He Hf] Hu. inversion Hu as [e f r p q u e' Q' Hr Hs Hty Hq0 Hx He' Hords Hlog Hpr Hp
    |e f r p u e' Q' Hr Hs Hty Hx He' Hords Hlog Hpr Hp|e o p q Hq0 Hw Hfa|e o p Hty Hb|e o Hty Hre
    |e o u e' Hfr Hlv Hty Htif He' Hords Hlog Hpr Hp|e o Hmv|e o u e' Ho Hs Hty Hre He' Hords Hlog Hpr Hp
    |e o u1 b1 u2 e' o' Ho Hs Htr Hne He' Hords Hlog Hpr Hp1 Hp2|e s|e]; subst; cbn [fst snd] in *; try (by repeat constructor).
  - constructor; [|constructor; [apply red_ev_whole|apply lev_evs_whole]]. cbn. intros Et.
    assert (Hra : t = AON). { pose proof (lo_rest _ _ (mo_live _ (proj1 He) _ _ Hr) Hty). destruct Ht as [-> | ->]; [|done]. rewrite Et in *. by destruct H. }
    subst t. assert (is_aon r = true) by (unfold is_aon; by rewrite Hra).
    inversion Hx as [o lvl X1 X2 X3 X4 X5 X6 X7 X8|o lvl X1 X2 X3 X4 X5|X1 X2|k lvl X1 X2 X3]; subst; try (by auto); congruence.
  - constructor; [done|]. apply Forall_app. split; [apply lev_evs_whole|by repeat constructor].
  - constructor; [|done]. cbn. intros Et. apply Hfa. unfold is_fok, is_aon. rewrite Et. destruct Ht as [-> | ->]; auto.
  - apply lim_evs_whole.
Qed.
Lemma call_whole t s a s' er evs : t = FOK \/ t = AON -> reach s -> op_ok s a -> call s a s' er evs -> is_execute a = false -> Forall (whole_ev t) evs.
Proof.
  intros Ht Hr Hop Hc Hex. destruct (registry_op a) eqn:Hreg.
  - destruct (call_result _ _ _ _ _ Hr Hop Hc) as (_ & Hres & _). destruct Hc as [_ Hlog].
    destruct (result_registry _ _ _ _ Hres Hreg) as (_ & _ & evs' & Hl & _ & He). rewrite Hlog in Hl. apply app_inv_head in Hl. subst evs'.
    destruct He as [->|(ev & -> & Hev)]; [done|]. constructor; [|done]. by destruct ev.
  - apply (call_events (fun _ => True) _ s a s' er evs); try done.
    + intros sid x e hevs c Hp _ Hh. split; [|done]. eapply hstep_whole; [|done]. by eapply part_execute.
    + intros. split; [done|]. by eapply ustep_whole.
Qed.
Theorem C15_aon_whole s a s' er evs : reach s -> op_ok s a -> call s a s' er evs -> is_execute a = false ->
  forall o p q, (o, p, q) ∈ execs evs -> o_tif o = AON -> q = o_leaves o.
Proof.
  intros Hr Hop Hc Hex o p q Hin. pose proof (call_whole AON s a s' er evs ltac:(by right) Hr Hop Hc Hex) as H.
  apply elem_of_list_omap in Hin as (ev & Hev & E). rewrite Forall_forall in H. specialize (H ev Hev).
  destruct ev; try done. injection E as -> -> ->. exact H.
Qed.
Print Assumptions C15_aon_whole.
Example C15_example : let s := hist (setup ++ [EnableMatching; LIM SELL 1 100 20 AON]) in
  reach s /\ map (fun x => (o_id (fst (fst x)), snd x)) (execs (news s (BL 2 100 30))) = [(1, 20); (2, 20)] /\
  execs (news s (BL 2 100 10)) = [].
Proof. split; [apply hist_reach|]. by vm_compute. Qed.

(** ** C14 *)
(** Every execution of a Fill-Or-Kill order by the engine is for its whole remaining quantity. *)
Lemma elem_execs o p q evs : (o, p, q) ∈ execs evs -> EExecute o p q ∈ evs.
Proof. intros Hin. apply elem_of_list_omap in Hin as (ev & Hev & E). destruct ev; try done. by injection E as -> -> ->. Qed.
Theorem C14_whole s a s' er evs : reach s -> op_ok s a -> call s a s' er evs -> is_execute a = false ->
  forall o p q, (o, p, q) ∈ execs evs -> o_tif o = FOK -> q = o_leaves o.
Proof.
  intros Hr Hop Hc Hex o p q Hin. pose proof (call_whole FOK s a s' er evs ltac:(by left) Hr Hop Hc Hex) as H.
  rewrite Forall_forall in H. exact (H _ (elem_execs _ _ _ _ Hin)).
Qed.
Print Assumptions C14_whole.

Section once.
Variable i : Z.
Variable sid : Z.
(** order [i] is Fill-Or-Kill and in at most one place *)
Definition fok_place (c : cfg) : Prop :=
  (forall o, e_ords (fst c) !! i = Some o -> o_sym o = sid -> o_tif o = FOK) /\
  (forall f, snd c = Some f -> o_id f = i -> o_tif f = FOK /\ e_ords (fst c) !! i = None).
Definition fok_gone (c : cfg) : Prop :=
  (forall o, e_ords (fst c) !! i = Some o -> o_sym o <> sid) /\
  (forall f, snd c = Some f -> o_id f = i -> o_leaves f = 0).
Lemma execs_of_app a b : execs_of i (a ++ b) = execs_of i a ++ execs_of i b.
Proof. unfold execs_of. by rewrite execs_app, filter_app. Qed.
Lemma execs_of_nil evs : execs evs = [] -> execs_of i evs = [].
Proof. unfold execs_of. by intros ->. Qed.
Lemma execs_of_one o p q evs : execs evs = [] -> execs_of i (EExecute o p q :: evs) = if decide (o_id o = i) then [(o, p, q)] else [].
Proof.
  intros H. unfold execs_of. change (EExecute o p q :: evs) with ([EExecute o p q] ++ evs). rewrite execs_app, H, app_nil_r. cbn.
  unfold filter, list_filter. cbn. by destruct (decide (o_id o = i)).
Qed.
Lemma ustep_once c evs c' : cfg_ok sid c -> ustep sid (wide True) c evs c' -> fok_place c ->
  fok_place c' /\ (fok_gone c -> fok_gone c' /\ execs_of i evs = []) /\
  (execs_of i evs = [] \/ (exists o p, execs_of i evs = [(o, p, o_leaves o)]) /\ fok_gone c').
Proof.
  intros [He Hf] Hu [P1 P2]. inversion Hu as [e f r p q u e' Q' Hr Hs Hty Hq0 Hx He' Hords Hlog Hpr Hp
    |e f r p u e' Q' Hr Hs Hty Hx He' Hords Hlog Hpr Hp|e o p q Hq0 Hw Hfa|e o p Hty Hb|e o Hty Hre
    |e o u e' Hfr Hlv Hty Htif He' Hords Hlog Hpr Hp|e o Hmv|e o u e' Ho Hs Hty Hre He' Hords Hlog Hpr Hp
    |e o u1 b1 u2 e' o' Ho Hs Htr Hne He' Hords Hlog Hpr Hp1 Hp2|e s|e]; subst; cbn [fst snd] in *; unfold fok_place, fok_gone; cbn [fst snd].
  - assert (Hni : o_id r <> i).
    { intros E. rewrite E in Hr. pose proof (P1 _ Hr Hs) as Ht. destruct (lo_rest _ _ (mo_live _ (proj1 He) _ _ Hr) Hty); congruence. }
    assert (Hsame : e_ords e' !! i = e_ords e !! i). { rewrite Hords. unfold reduced_map. cbn. destruct (_ =? 0); [by rewrite lookup_delete_ne|by rewrite lookup_insert_ne]. }
    assert (Hx0 : execs_of i (EExecute r p q :: red_ev (executed q r) :: lev_evs sid u) = []).
    { rewrite execs_of_one; [by rewrite decide_False|]. by rewrite execs_red_cons, execs_lev. }
    rewrite Hsame. auto.
  - assert (Hni : o_id r <> i).
    { intros E. rewrite E in Hr. pose proof (P1 _ Hr Hs) as Ht. destruct (lo_rest _ _ (mo_live _ (proj1 He) _ _ Hr) Hty); congruence. }
    assert (Hsame : e_ords e' !! i = e_ords e !! i). { rewrite Hords. by rewrite lookup_delete_ne. }
    assert (Hx0 : execs_of i (EExecute r p (o_leaves r) :: lev_evs sid u ++ [EDeleteOrder (exec_incr (o_leaves r) r)]) = []).
    { rewrite execs_of_one; [by rewrite decide_False|]. by rewrite execs_app, execs_lev. }
    rewrite Hsame. auto.
  - change (e_ords (exec_note o p q e)) with (e_ords e). rewrite execs_of_one by done.
    split; [split; [done|]|].
    { intros f [= <-] Hi. by apply (P2 o). }
    destruct (decide (o_id o = i)) as [Hi|Hi].
    + destruct (P2 o eq_refl Hi) as [Hk Hn]. assert (q = o_leaves o) as -> by (apply Hfa; left; unfold is_fok; by rewrite Hk).
      split.
      * intros [_ G]. specialize (G o eq_refl Hi). lia.
      * right. split; [by eexists _, _|]. split; [intros x Hx; congruence|]. intros f [= <-] _. cbn. lia.
    + split; [|by left]. intros [G1 G2]. split; [|done]. split; [done|]. by intros f [= <-] ?.
  - split; [split; [done|]|].
    { intros f [= <-] Hi. by apply (P2 o). }
    split; [|by left]. intros [G1 G2]. split; [|done]. split; [done|]. intros f [= <-] Hi. by apply (G2 o).
  - assert (Ec : o_id (converted o) = o_id o /\ o_leaves (converted o) = o_leaves o) by (unfold converted; by destruct (o_type o)).
    assert (Et : o_tif o = FOK -> o_tif (converted o) = FOK).
    { intros E. unfold converted, to_market, to_limit. destruct (o_type o); cbn; try done; unfold is_fok; cbn; by rewrite E. }
    split; [split; [done|]|].
    { intros f [= <-] Hi. rewrite (proj1 Ec) in Hi. destruct (P2 o eq_refl Hi). auto. }
    split; [|by left]. intros [G1 G2]. split; [|done]. split; [done|]. intros f [= <-] Hi. rewrite (proj2 Ec). apply G2; [done|]. by rewrite <- (proj1 Ec).
  - split; [split; [|done]|].
    { intros x Hx Hsx. rewrite Hords in Hx. apply lookup_insert_Some in Hx as [[Hi <-]|[_ Hx]]; [by apply (P2 o)|by apply P1]. }
    split; [|left; by apply execs_of_nil, execs_lim]. intros [G1 G2]. split; [|by apply execs_of_nil, execs_lim]. split; [|done].
    intros x Hx Hsx. rewrite Hords in Hx. apply lookup_insert_Some in Hx as [[Hi <-]|[_ Hx]]; [|by apply (G1 x Hx)]. specialize (G2 o eq_refl Hi). lia.
  - split; [split; [done|done]|]. split; [|by left]. intros [G1 G2]. done.
  - assert (Ec : o_id (converted o) = o_id o /\ o_leaves (converted o) = o_leaves o) by (unfold converted; by destruct (o_type o)).
    assert (Et : o_tif o = FOK -> o_tif (converted o) = FOK).
    { intros E. unfold converted, to_market, to_limit. destruct (o_type o); cbn; try done; unfold is_fok; cbn; by rewrite E. }
    split; [split|].
    { intros x Hx. rewrite Hords in Hx. apply lookup_delete_Some in Hx as [_ Hx]. by apply P1. }
    { intros f [= <-] Hi. rewrite (proj1 Ec) in Hi. split; [apply Et; apply P1; [by rewrite <- Hi|done]|]. rewrite Hords, Hi. apply lookup_delete. }
    split; [|by left]. intros [G1 G2]. split; [|done]. split.
    + intros x Hx. rewrite Hords in Hx. apply lookup_delete_Some in Hx as [_ Hx]. by apply G1.
    + intros f [= <-] Hi. rewrite (proj1 Ec) in Hi. rewrite Hi in Ho. by destruct (G1 _ Ho).
  - assert (Eo : o_sym o' = o_sym o /\ o_tif o' = o_tif o) by (unfold o', retrail; by destruct (o_type o)).
    split; [split; [|done]|].
    { intros x Hx Hsx. rewrite Hords in Hx. apply lookup_insert_Some in Hx as [[Hi <-]|[_ Hx]]; [|by apply P1].
      rewrite (proj2 Eo). apply P1; [by rewrite <- Hi|done]. }
    split; [|by left]. intros [G1 G2]. split; [|done]. split; [|done].
    intros x Hx. rewrite Hords in Hx. apply lookup_insert_Some in Hx as [[Hi <-]|[_ Hx]]; [|by apply G1].
    rewrite (proj1 Eo). apply G1. by rewrite <- Hi.
  - split; [done|]. split; [|by left]. done.
  - split; [done|]. split; [|by left]. done.
Qed.
Lemma usteps_once c evs c' : usteps sid (wide True) c evs c' -> cfg_ok sid c -> fok_place c ->
  (fok_gone c -> execs_of i evs = []) /\ (execs_of i evs = [] \/ exists o p, execs_of i evs = [(o, p, o_leaves o)]).
Proof.
  revert c evs c'. apply (usteps_ind_ok sid (wide True) (fun c evs c' => fok_place c -> (fok_gone c -> execs_of i evs = []) /\ (execs_of i evs = [] \/ exists o p, execs_of i evs = [(o, p, o_leaves o)]))).
  { intros c _. by split; [|left]. }
  intros c evs c1 evs' c' Hc Hu _ IH Hp. destruct (ustep_once _ _ _ Hc Hu Hp) as (Hp1 & Hg & Hx). destruct (IH Hp1) as [IH1 IH2].
  rewrite execs_of_app. split.
  - intros G. destruct (Hg G) as [G1 ->]. by rewrite IH1.
  - destruct Hx as [-> |[(o & p & ->) G1]]; [done|]. rewrite (IH1 G1). right. by eexists _, _.
Qed.
End once.
(** A Fill-Or-Kill order is reported executed at most once in a call, for all it has left; [i] is
    a new Fill-Or-Kill order with an unused id, or a live (stop) one. *)
Theorem C14_once s a s' er evs i : reach s -> op_ok s a -> call s a s' er evs -> order_call a = true -> is_execute a = false ->
  (exists o, a = AddOrder o /\ o_id o = i /\ o_tif o = FOK /\ get_order i s = None) \/
  (exists o, get_order i s = Some o /\ o_tif o = FOK /\ ~ introduces a i) ->
  execs_of i evs = [] \/ exists o p, execs_of i evs = [(o, p, o_leaves o)].
Proof.
  intros Hr Hop Hc Hoc Hex Hi. pose proof (reach_inv _ Hr) as Hinv. setoid_rewrite (get_order_inv _ _ Hinv) in Hi.
  destruct (order_call_seg s a s' er evs Hr Hop Hoc Hc) as [(-> & -> & _)|Hseg]; [by left|].
  inversion Hseg as [a' sid b hevs c uevs e' Hord Hb Htg Hh Hcf Hfr Hfr' Hu|]; subst.
  pose proof (inv_eng _ _ _ Hinv Hb) as He. 
  assert (Hpl : execs_of i hevs = [] /\ fok_place i sid c).
  { clear Hu Hcf Hfr Hfr' Hseg Hc. inversion Hh as [o o' Hsym Hval|j q0 o u e1 q o' Q' Ho Hid Hsym Hq He' Hords Hlog Hpr Hp
    |mit j p q o u e1 o' evs' Q' Ho Hid Hsym Hq He' Hords Hlog Hpr Hp
    |j ni p q o u e1 o' Q' evs' Ho Hid Hsym Hq Hni Hty He' Hords Hlog Hpr Hp
    |j o u e1 Q' evs' Ho Hid Hsym He' Hords Hlog Hpr Hp
    |a' j price q0 o u e1 q o' Q' evs' Ha Ho Hid Hsym Hq He' Hords Hlog Hpr Hp]; subst.
    - split; [done|]. destruct (placed_same o (e_bk (eng_of b s))) as (E1 & _ & _ & _ & E2 & E3). fold o' in E1, E2, E3.
      destruct Hi as [(o1 & [= <-] & <- & Ht & Hn)|(o1 & Ho1 & Ht & Hni)].
      + split; [intros x Hx; cbn in Hx; congruence|]. intros f [= <-] _. cbn. split; [congruence|done].
      + cbn in Hni. split; [intros x Hx; cbn in Hx; congruence|]. intros f [= <-] E. congruence.
    - destruct Hi as [(? & ? & _)|(o1 & Ho1 & Ht & Hni)]; [done|]. split; [apply execs_of_nil; by rewrite execs_red_cons, execs_lim|].
      split; [|done]. cbn. intros x Hx _. rewrite Hords in Hx. unfold reduced_map in Hx. destruct (_ =? 0).
      + apply lookup_delete_Some in Hx as [_ Hx]. cbn in Hx. congruence.
      + apply lookup_insert_Some in Hx as [[E <-]|[_ Hx]]; [|cbn in Hx; congruence]. cbn in E, Ho. subst i. cbn. congruence.
    - destruct Hi as [(? & ? & _)|(o1 & Ho1 & Ht & Hni)]; [by destruct mit|].
      assert (Eo : o_id o' = o_id o /\ o_tif o' = o_tif o) by (unfold o', modified; by destruct mit).
      split. { apply execs_of_nil. unfold evs'. rewrite execs_app, execs_lim. by destruct (0 <? _). }
      split; cbn.
      + intros x Hx _. rewrite Hords in Hx. apply lookup_delete_Some in Hx as [_ Hx]. cbn in Hx. congruence.
      + intros f [= <-] E. rewrite (proj1 Eo) in E. cbn in Ho. subst i. split; [rewrite (proj2 Eo); congruence|]. rewrite Hords. apply lookup_delete.
    - destruct Hi as [(? & ? & _)|(o1 & Ho1 & Ht & Hni')]; [done|]. cbn in Hni'.
      split. { apply execs_of_nil. unfold evs'. by rewrite execs_app, execs_lim. }
      split; cbn.
      + intros x Hx _. rewrite Hords in Hx. apply lookup_delete_Some in Hx as [_ Hx]. cbn in Hx. congruence.
      + intros f [= <-] E. done.
    - destruct Hi as [(? & ? & _)|(o1 & Ho1 & Ht & Hni')]; [done|].
      split. { apply execs_of_nil. unfold evs'. by rewrite execs_app, execs_lim. }
      split; [|done]. cbn. intros x Hx _. rewrite Hords in Hx. apply lookup_delete_Some in Hx as [_ Hx]. cbn in Hx. congruence.
    - by destruct Ha as [[-> _]| ->]. }
  rewrite execs_of_app, (proj1 Hpl). by apply (usteps_once i sid _ _ _ Hu Hcf), Hpl.
Qed.
Print Assumptions C14_once.

