(** * PropsFill.v -- orders are not over-filled: C23, C24. *)
From Coq Require Import ZifyBool.
From stdpp Require Import fin_maps relations.
From Verif Require Import Types Book Engine Manager Factory Validate LevelFacts BookInv EngInv EngPrim Steps StepsOk Refine1 Refine2 Refine3 Refine4 Api StateInv Micro Reach Calls Trades Settle Witness PropsState PropsSettle CallFacts PropsTrades PropsOrders Spec Spec2.

(** ** Every reported quantity is part of what the order has left *)
Definition part_ev (ev : event) : Prop := match ev with EExecute o _ q => 0 < q <= o_leaves o | _ => True end.
Lemma lev_evs_part sid u : Forall part_ev (lev_evs sid u).
Proof. unfold lev_evs, lev_ev. destruct (u_type u); repeat constructor. Qed.
Lemma lim_evs_part o sid u : Forall part_ev (lim_evs o sid u).
Proof. unfold lim_evs. destruct (is_limit o); [apply lev_evs_part|constructor]. Qed.
Lemma red_ev_part o : part_ev (red_ev o).
Proof. unfold red_ev. by destruct (_ =? 0). Qed.
Lemma hstep_part sid e x hevs c : eng_ok sid e -> hstep sid e x hevs c -> Forall part_ev hevs.
Proof.
  intros He Hh. inversion Hh as [o o' Hsym Hval|i q0 o u e' q o' Q' Ho Hid Hsym Hq He' Hords Hlog Hpr Hp
    |mit i p q o u e' o' evs' Q' Ho Hid Hsym Hq He' Hords Hlog Hpr Hp
    |i ni p q o u e' o' Q' evs' Ho Hid Hsym Hq Hni Hty He' Hords Hlog Hpr Hp
    |i o u e' Q' evs' Ho Hid Hsym He' Hords Hlog Hpr Hp
    |a' i price q0 o u e' q o' Q' evs' Ha Ho Hid Hsym Hq He' Hords Hlog Hpr Hp]; subst.
  - by repeat constructor.
  - constructor; [apply red_ev_part|apply lim_evs_part].
  - unfold evs'. apply Forall_app. split; [apply lim_evs_part|]. destruct (0 <? _); by repeat constructor.
  - unfold evs'. apply Forall_app. split; [apply lim_evs_part|]. by repeat constructor.
  - unfold evs'. apply Forall_app. split; [apply lim_evs_part|]. by repeat constructor.
  - unfold evs'. pose proof (lo_leaves _ _ (mo_live _ (proj1 He) _ _ Ho)). constructor; [cbn; unfold q; lia|]. apply Forall_app. split; [apply lim_evs_part|].
    constructor; [apply red_ev_part|done].
Qed.
Lemma ustep_part sid c evs c' : cfg_ok sid c -> ustep sid (wide True) c evs c' -> Forall part_ev evs.
Proof.
  intros [He Hf] Hu. inversion Hu as [e f r p q u e' Q' Hr Hs Hty Hq0 Hx He' Hords Hlog Hpr Hp
    |e f r p u e' Q' Hr Hs Hty Hx He' Hords Hlog Hpr Hp|e o p q Hq0 Hw Hfa|e o p Hty Hb|e o Hty Hre
    |e o u e' Hfr Hlv Hty Htif He' Hords Hlog Hpr Hp|e o Hmv|e o u e' Ho Hs Hty Hre He' Hords Hlog Hpr Hp
    |e o u1 b1 u2 e' o' Ho Hs Htr Hne He' Hords Hlog Hpr Hp1 Hp2|e s|e]; subst; cbn [fst snd] in *; try (by repeat constructor).
  - constructor; [done|]. constructor; [apply red_ev_part|apply lev_evs_part].
  - pose proof (lo_leaves _ _ (mo_live _ (proj1 He) _ _ Hr)). constructor; [cbn; lia|]. apply Forall_app. split; [apply lev_evs_part|by repeat constructor].
  - constructor; [done|constructor].
  - apply lim_evs_part.
Qed.
Lemma call_part s a s' er evs : reach s -> op_ok s a -> call s a s' er evs -> Forall part_ev evs.
Proof.
  intros Hr Hop Hc. destruct (registry_op a) eqn:Hreg.
  - destruct (call_result _ _ _ _ _ Hr Hop Hc) as (_ & Hres & _). destruct Hc as [_ Hlog].
    destruct (result_registry _ _ _ _ Hres Hreg) as (_ & _ & evs' & Hl & _ & He). rewrite Hlog in Hl. apply app_inv_head in Hl. subst evs'.
    destruct He as [->|(ev & -> & Hev)]; [done|]. constructor; [|done]. by destruct ev.
  - apply (call_events (fun _ => True) _ s a s' er evs); try done.
    + intros sid x e hevs c Hp He Hh. split; [|done]. by eapply hstep_part.
    + intros. split; [done|]. by eapply ustep_part.
Qed.

(** ** C23 *)
Definition room (o : order) : Prop := (0 < o_leaves o -> o_exec o + o_leaves o <= o_qty o) /\ 0 <= o_exec o /\ o_qty o <= MAX64.
Lemma closed_room : closed room.
Proof.
  unfold room. constructor; intros o; cbn.
  - intros q (?&?&?) ?. lia.
  - intros q (?&?&?) Hq Hr. unfold u64, u64_range, MAX64, TWO64 in *. rewrite Z.mod_small by lia. lia.
  - done.
  - intros (?&?&?) _. unfold converted, to_market, to_limit. destruct (o_type o); cbn; done.
  - intros n (?&?&?) _. unfold retrail. destruct (o_type o); cbn; done.
Qed.
Lemma careful_keeps a : careful a -> op_keeps room a.
Proof.
  intros [Hm Ha]. unfold op_keeps, room. destruct a; try done.
  - intros _ Hr. destruct Hr as (_&_&_&_&Hq&Hx&_). unfold u64_range in *. specialize (Ha o eq_refl). lia.
  - intros _ x (H1&H2&H3) _ Hq. unfold modified. cbn. destruct (Z.ltb_spec (o_exec x) q); cbn; lia.
  - intros _ _ x _ _ Hq. cbn. lia.
  - intros _ Hr. destruct Hr as (_&_&_&_&Hq&Hx&_). unfold u64_range in *. specialize (Ha o eq_refl). lia.
Qed.
(** For every live order ExecutedQuantity + LeavesQuantity <= Quantity ... *)
Theorem C23_live_partial s i o : reach_with careful s -> get_order i s = Some o -> o_exec o + o_leaves o <= o_qty o.
Proof.
  intros Hr Ho. pose proof (reach_inv _ (reach_with_reach _ _ Hr)) as Hinv. rewrite (get_order_inv _ _ Hinv) in Ho.
  pose proof (reach_with_q room careful s closed_room careful_keeps Hr i o Ho) as (H & _). apply H.
  apply (lo_leaves _ _ (mo_live _ (iv_map _ Hinv) _ _ Ho)).
Qed.
Print Assumptions C23_live_partial.
(** ... and every execution report fits into Quantity together with what was executed before.
    Missing: histories with ModifyOrder, for which the claim is false (below). *)
Theorem C23_report_partial s a s' er evs o p q : reach_with careful s -> op_ok s a -> careful a -> call s a s' er evs ->
  (o, p, q) ∈ execs evs -> 0 < q /\ q <= o_leaves o /\ o_exec o + q <= o_qty o.
Proof.
  intros Hr Hop Hca Hc Hin. apply elem_execs in Hin.
  pose proof (reach_with_reach _ _ Hr) as Hr'. pose proof (reach_inv _ Hr') as Hinv.
  pose proof (call_part s a s' er evs Hr' Hop Hc) as Hp. rewrite Forall_forall in Hp. specialize (Hp _ Hin). cbn in Hp.
  destruct (call_q room s a s' er evs closed_room (careful_keeps a Hca) Hinv Hop Hc (reach_with_q room careful s closed_room careful_keeps Hr)) as [_ H].
  rewrite Forall_forall in H. specialize (H _ Hin). cbn in H. destruct H as (H & _). lia.
Qed.
Print Assumptions C23_report_partial.
(** What every call respects, ModifyOrder or not: no report exceeds LeavesQuantity. *)
Theorem C23_leaves s a s' er evs o p q : reach s -> op_ok s a -> call s a s' er evs -> (o, p, q) ∈ execs evs -> 0 < q <= o_leaves o.
Proof.
  intros Hr Hop Hc Hin. apply elem_execs in Hin.
  pose proof (call_part s a s' er evs Hr Hop Hc) as Hp. rewrite Forall_forall in Hp. by specialize (Hp _ Hin).
Qed.
Print Assumptions C23_leaves.
(** ModifyOrder after a partial fill: Quantity 10, ExecutedQuantity 6, LeavesQuantity 10. *)
Theorem C23_modify_refuted : exists s o, reach s /\ get_order 1 s = Some o /\ o_qty o = 10 /\ o_exec o = 6 /\ o_leaves o = 10.
Proof.
  exists (hist (setup ++ [EnableMatching; BL 1 100 10; SL 2 100 6; ModifyOrder 1 100 10])). eexists.
  split; [apply hist_reach|]. vm_compute. done.
Qed.
Print Assumptions C23_modify_refuted.
Example C23_example : let s := hist (setup ++ [EnableMatching; BL 1 100 10; SL 2 100 6]) in
  reach_with careful s /\ (exists o, get_order 1 s = Some o /\ o_qty o = 10 /\ o_exec o = 6 /\ o_leaves o = 4) /\
  careful (SL 3 100 9) /\ map snd (execs (news s (SL 3 100 9))) = [4; 4].
Proof.
  split. { apply hist_reach_with. repeat (constructor; [split; [done|]; intros ? [= <-]; cbn; lia|]). constructor. }
  split; [eexists; vm_compute; done|]. split; [|by vm_compute]. split; [done|]. intros ? [= <-]. cbn. lia.
Qed.

(** ** C24 *)
Section mitigate.
Variables (i q : Z).
Definition held (o : order) : Prop := o_id o = i -> 0 < o_leaves o -> o_qty o = q /\ o_exec o + o_leaves o <= q /\ 0 <= o_exec o /\ q <= MAX64.
Lemma closed_held : closed held.
Proof.
  unfold held. constructor; intros o; cbn.
  - intros q0 H ? Hi Hp. destruct (H Hi) as (?&?&?&?); [lia|]. split; [done|]. lia.
  - intros q0 H Hq Hr Hi Hp. destruct (H Hi) as (?&?&?&?); [lia|]. split; [done|]. unfold u64, u64_range, MAX64, TWO64 in *. rewrite Z.mod_small by lia. lia.
  - done.
  - intros H _. unfold converted, to_market, to_limit. destruct (o_type o); cbn; done.
  - intros n H _. unfold retrail. destruct (o_type o); cbn; done.
Qed.
End mitigate.
(** MitigateOrder never leaves more live than asked for, whatever was executed before; and all that
    the call itself reports executed on the order stays within the new quantity. *)
Theorem C24_mitigate s i p q s' er evs : reach s -> op_ok s (MitigateOrder i p q) -> call s (MitigateOrder i p q) s' er evs -> er = OK ->
  (forall o, get_order i s' = Some o -> o_qty o = q /\ o_exec o + o_leaves o <= q) /\
  (forall o px x, (o, px, x) ∈ execs evs -> o_id o = i -> o_qty o = q /\ o_exec o + x <= q).
Proof.
  intros Hr Hop Hc ->. pose proof (reach_inv _ Hr) as Hinv. destruct (call_result _ _ _ _ _ Hr Hop Hc) as (_ & _ & Hinv').
  destruct (order_call_seg s _ s' OK evs Hr Hop eq_refl Hc) as [(_ & _ & Hn & _)|Hseg]; [by destruct Hn|].
  inversion Hseg as [a' sid b hevs c uevs e' Hord Hb Htg Hh Hcf Hfr Hfr' Hu|]; subst.
  pose proof (inv_eng _ _ _ Hinv Hb) as He.
  assert (Hall : all_q sid (held i q) c /\ execs hevs = []).
  { clear Hu Hcf Hfr Hfr' Hseg Hc Hinv'. inversion Hh as [o o' Hsym Hval|j q0 o u e1 q1 o' Q' Ho Hid Hsym Hq He' Hords Hlog Hpr Hp
    |mit j p0 q0 o u e1 o' evs' Q' Ho Hid Hsym Hq He' Hords Hlog Hpr Hp Ea
    |j ni p0 q0 o u e1 o' Q' evs' Ho Hid Hsym Hq Hni Hty He' Hords Hlog Hpr Hp
    |j o u e1 Q' evs' Ho Hid Hsym He' Hords Hlog Hpr Hp
    |a' j price q0 o u e1 q1 o' Q' evs' Ha Ho Hid Hsym Hq He' Hords Hlog Hpr Hp]; subst.
    2: { by destruct Ha as [[? _]|?]. }
    destruct mit; [|done]. injection Ea as E1 E2 E3. subst p0 q0. split; [split|].
    - intros j x Hx _ Hi. cbn in Hx. rewrite Hords in Hx. cbn in Hx. apply lookup_delete_Some in Hx as [Hne Hx].
      pose proof (lo_id _ _ (mo_live _ (iv_map _ Hinv) _ _ Hx)). congruence.
    - intros x [= <-]. intros _ Hpos. cbn in Ho, Hop. destruct Hop as (_ & _ & Hq2 & _).
      pose proof (lo_exec _ _ (mo_live _ (iv_map _ Hinv) _ _ Ho)) as Hx. unfold u64_range in *. unfold o', modified in *. cbn in Hpos |- *.
      destruct (Z.ltb_spec (o_exec o) q); lia.
    - unfold evs'. rewrite execs_app, execs_lim. by destruct (0 <? _). }
  destruct Hall as [Hall Hhe]. destruct (usteps_q sid (wide True) (held i q) _ _ _ (closed_held i q) Hu Hcf Hall) as [Hall' Hev].
  split.
  - intros o Ho. rewrite (get_order_inv _ _ Hinv') in Ho. pose proof (mo_live _ (iv_map _ Hinv') _ _ Ho) as Hl.
    assert (Hs : o_sym o = sid).
    { destruct (decide (o_sym o = sid)) as [|Hne]; [done|]. exfalso. cbn in Ho. destruct (Hfr' i o Hne) as [_ H2]. specialize (H2 Ho).
      cbn in Htg. rewrite H2 in Htg. cbn in Htg. congruence. }
    destruct (proj1 Hall' i o Ho Hs (lo_id _ _ Hl) (lo_leaves _ _ Hl)) as (H1&H2&_). done.
  - intros o px x Hin Hi. rewrite execs_app, Hhe in Hin. cbn in Hin. apply elem_execs in Hin.
    pose proof (call_part s _ _ OK _ Hr Hop Hc) as Hp. rewrite Forall_forall in Hp. specialize (Hp (EExecute o px x) ltac:(apply elem_of_app; by right)). cbn in Hp.
    rewrite Forall_forall in Hev. specialize (Hev _ Hin Hi). destruct Hev as (H1&H2&_); [lia|]. lia.
Qed.
Print Assumptions C24_mitigate.
(** ... and it removes the order when the new quantity is already executed. *)
Lemma closed_empty i : closed (fun o => o_id o = i -> o_leaves o <= 0).
Proof.
  constructor; intros o; cbn; try done.
  - intros q H Hq Hi. specialize (H Hi). lia.
  - intros q H Hq _ Hi. specialize (H Hi). lia.
  - intros H _. unfold converted, to_market, to_limit. destruct (o_type o); cbn; done.
  - intros n H _. unfold retrail. destruct (o_type o); cbn; done.
Qed.
Theorem C24_removed s i p q o s' er evs : reach s -> op_ok s (MitigateOrder i p q) -> call s (MitigateOrder i p q) s' er evs -> er = OK ->
  get_order i s = Some o -> q <= o_exec o -> get_order i s' = None /\ execs_of i evs = [].
Proof.
  intros Hr Hop Hc -> Hlive Hqx. pose proof (reach_inv _ Hr) as Hinv. destruct (call_result _ _ _ _ _ Hr Hop Hc) as (_ & _ & Hinv').
  rewrite (get_order_inv _ _ Hinv) in Hlive.
  destruct (order_call_seg s _ s' OK evs Hr Hop eq_refl Hc) as [(_ & _ & Hn & _)|Hseg]; [by destruct Hn|].
  inversion Hseg as [a' sid b hevs c uevs e' Hord Hb Htg Hh Hcf Hfr Hfr' Hu|]; subst.
  pose proof (inv_eng _ _ _ Hinv Hb) as He.
  assert (Hall : all_q sid (fun o => o_id o = i -> o_leaves o <= 0) c /\ execs hevs = []).
  { clear Hu Hcf Hfr Hfr' Hseg Hc Hinv'. inversion Hh as [x o' Hsym Hval|j q0 x u e1 q1 o' Q' Ho Hid Hsym Hq He' Hords Hlog Hpr Hp
    |mit j p0 q0 x u e1 o' evs' Q' Ho Hid Hsym Hq He' Hords Hlog Hpr Hp Ea
    |j ni p0 q0 x u e1 o' Q' evs' Ho Hid Hsym Hq Hni Hty He' Hords Hlog Hpr Hp
    |j x u e1 Q' evs' Ho Hid Hsym He' Hords Hlog Hpr Hp
    |a' j price q0 x u e1 q1 o' Q' evs' Ha Ho Hid Hsym Hq He' Hords Hlog Hpr Hp]; subst.
    2: { by destruct Ha as [[? _]|?]. }
    destruct mit; [|done]. injection Ea as E1 E2 E3. subst p0 q0. split; [split|].
    - intros j y Hy _ Hi. cbn in Hy. rewrite Hords in Hy. cbn in Hy. apply lookup_delete_Some in Hy as [Hne Hy].
      pose proof (lo_id _ _ (mo_live _ (iv_map _ Hinv) _ _ Hy)). congruence.
    - intros y [= <-]. intros _. cbn in Ho. assert (x = o) by congruence. subst x. unfold o', modified. cbn.
      destruct (Z.ltb_spec (o_exec o) q); lia.
    - unfold evs'. rewrite execs_app, execs_lim. by destruct (0 <? _). }
  destruct Hall as [Hall Hhe]. destruct (usteps_q sid (wide True) _ _ _ _ (closed_empty i) Hu Hcf Hall) as [Hall' Hev].
  split.
  - destruct (get_order i _) as [x|] eqn:Ho; [|done]. exfalso. rewrite (get_order_inv _ _ Hinv') in Ho. pose proof (mo_live _ (iv_map _ Hinv') _ _ Ho) as Hl.
    assert (Hs : o_sym x = sid).
    { destruct (decide (o_sym x = sid)) as [|Hne]; [done|]. exfalso. cbn in Ho. destruct (Hfr' i x Hne) as [_ H2]. specialize (H2 Ho).
      cbn in Htg. rewrite H2 in Htg. cbn in Htg. congruence. }
    pose proof (proj1 Hall' i x Ho Hs (lo_id _ _ Hl)). pose proof (lo_leaves _ _ Hl). lia.
  - unfold execs_of. rewrite execs_app, Hhe. cbn.
    assert (H : forall x, x ∈ execs uevs -> o_id (fst (fst x)) <> i); [|(induction (execs uevs) as [|x l IH]; [done|]; rewrite filter_cons_False; [apply IH; intros y Hy; apply H; by right|apply H; by left])].
    intros [[x px] y] Hin Hi. cbn in Hi. apply elem_execs in Hin.
    pose proof (call_part s _ _ OK _ Hr Hop Hc) as Hp. rewrite Forall_forall in Hp. specialize (Hp (EExecute x px y) ltac:(apply elem_of_app; by right)). cbn in Hp.
    rewrite Forall_forall in Hev. specialize (Hev _ Hin Hi). lia.
Qed.
Print Assumptions C24_removed.
Example C24_example : let s := hist (setup ++ [EnableMatching; BL 1 100 10; SL 2 100 6]) in
  reach s /\ ret s (MitigateOrder 1 100 8) = OK /\ (o_leaves <$> get_order 1 (after s (MitigateOrder 1 100 8))) = Some 2 /\
  get_order 1 (after s (MitigateOrder 1 100 6)) = None.
Proof. split; [apply hist_reach|]. by vm_compute. Qed.
