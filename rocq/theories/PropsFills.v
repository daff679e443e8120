(** * PropsFills.v -- fill accounting: C50; the matching switch: C51. *)
From Coq Require Import ZifyBool.
From stdpp Require Import fin_maps relations.
From Verif Require Import Types Book Engine Manager Factory Validate LevelFacts BookInv EngInv EngPrim Steps StepsOk Refine1 Refine2 Refine3 Refine4 Api StateInv Micro Reach Calls Trades Settle Witness PropsState PropsSettle CallFacts PropsTrades PropsOrders PropsFill PropsReject Spec Spec2 Spec3 Spec6 Spec9.

Lemma filled_app i a b : filled_for i (a ++ b) = filled_for i a + filled_for i b.
Proof.
  unfold filled_for, execs_of, execs, sum_qty. rewrite omap_app, filter_app, foldr_app.
  generalize (filter (λ x : order * Z * Z, o_id x.1.1 = i) (omap (λ ev : event, match ev with | EExecute o p q => Some (o, p, q) | _ => None end) a)) as l.
  generalize (filter (λ x : order * Z * Z, o_id x.1.1 = i) (omap (λ ev : event, match ev with | EExecute o p q => Some (o, p, q) | _ => None end) b)) as l'.
  intros l' l. induction l as [|x l IH]; cbn; lia.
Qed.
Definition no_exec (ev : event) : Prop := match ev with EExecute _ _ _ => False | _ => True end.
Lemma filled_none i evs : Forall no_exec evs -> filled_for i evs = 0.
Proof. induction 1 as [|ev evs H _ IH]; [done|]. by destruct ev. Qed.
Lemma filled_cons i ev evs : filled_for i (ev :: evs) = filled_for i [ev] + filled_for i evs.
Proof. apply (filled_app i [ev]). Qed.
Lemma filled_one i o p q : filled_for i [EExecute o p q] = if decide (o_id o = i) then q else 0.
Proof. unfold filled_for, execs_of. change (execs [EExecute o p q]) with [(o, p, q)]. rewrite filter_cons. cbn. destruct (decide _); cbn; lia. Qed.
Lemma lev_evs_none sid u : Forall no_exec (lev_evs sid u).
Proof. unfold lev_evs, lev_ev. destruct (u_type u); repeat constructor. Qed.
Lemma lim_evs_none o sid u : Forall no_exec (lim_evs o sid u).
Proof. unfold lim_evs. destruct (is_limit o); [apply lev_evs_none|constructor]. Qed.
Lemma red_ev_none o : no_exec (red_ev o).
Proof. unfold red_ev. by destruct (_ =? 0). Qed.

(** Account of one order over a stretch of execution. *)
Definition moved (o o' : order) (n : Z) : Prop :=
  same_order o o' /\ (exists k, o_exec o' = o_exec o + n - k * TWO64) /\ o_leaves o' = o_leaves o - n /\ (stays o -> stays o').
Definition acct (x : option order) (n : Z) (y : option order) : Prop :=
  0 <= n /\ match x, y with
  | Some o, Some o' => moved o o' n /\ 0 <= o_leaves o'
  | Some o, None => n <= o_leaves o /\ (stays o -> n = o_leaves o)
  | None, None => n = 0
  | None, Some _ => False
  end.
Lemma moved_refl o : moved o o 0.
Proof. split; [done|]. split; [exists 0; lia|]. split; [lia|done]. Qed.
Lemma moved_trans o1 o2 o3 n m : moved o1 o2 n -> moved o2 o3 m -> moved o1 o3 (n + m).
Proof.
  intros ((?&?&?&?&?&?) & (k & ?) & ? & Hs) ((?&?&?&?&?&?) & (k' & ?) & ? & Hs'). split; [repeat split; congruence|].
  split; [exists (k + k'); lia|]. split; [lia|]. auto.
Qed.
Lemma acct_trans x n y m z : acct x n y -> acct y m z -> acct x (n + m) z.
Proof.
  intros [H0 H] [H0' H']. split; [lia|]. destruct x as [o1|], y as [o2|], z as [o3|]; try done; try lia.
  - destruct H as [H _], H' as [H' Hp]. split; [by eapply moved_trans|done].
  - destruct H as [(_ & _ & HL & Hs) _], H' as [H1 H2]. split; [lia|]. intros Hk. specialize (H2 (Hs Hk)). lia.
  - destruct H as [H1 H2]. split; [lia|]. intros Hk. specialize (H2 Hk). lia.
Qed.

(** The order with id [i], in the index or in flight. *)
Definition cur (i : Z) (c : cfg) : option order :=
  match snd c with Some o => if decide (o_id o = i) then Some o else e_ords (fst c) !! i | None => e_ords (fst c) !! i end.
Definition apart (i : Z) (c : cfg) : Prop := forall o, snd c = Some o -> o_id o = i -> e_ords (fst c) !! i = None.

Lemma moved_exec q o : 0 < q <= o_leaves o -> moved o (executed q o) q.
Proof.
  intros Hq. split; [done|]. cbn. split; [|split; [done|tauto]].
  exists ((o_exec o + q) / TWO64). unfold u64. pose proof (Z.div_mod (o_exec o + q) TWO64 ltac:(done)). lia.
Qed.
Lemma moved_conv o : stop_type o = true -> moved o (converted o) 0.
Proof.
  intros Hs. unfold moved, same_order, stays, converted, to_market, to_limit, stop_type in *.
  destruct (o_type o) eqn:E; try done; cbn; (split; [done|]); (split; [exists 0; lia|]); (split; [lia|]); try tauto; intros [[H|[H|H]] _]; congruence.
Qed.
Lemma moved_trail n o : moved o (retrail n o) 0.
Proof.
  unfold moved, same_order, stays, retrail. destruct (o_type o) eqn:E; cbn; (split; [done|]); (split; [exists 0; lia|]); (split; [lia|]); try tauto; intros [[H|[H|H]] ?]; try congruence; rewrite ?E; tauto.
Qed.
Lemma acct_live o : 0 <= o_leaves o -> acct (Some o) 0 (Some o).
Proof. intros H. split; [lia|]. split; [apply moved_refl|done]. Qed.
Lemma acct_move o o' n : moved o o' n -> 0 <= n <= o_leaves o -> acct (Some o) n (Some o').
Proof. intros H Hn. split; [lia|]. split; [done|]. destruct H as (_ & _ & -> & _). lia. Qed.

Lemma acct_same sid i e : eng_ok sid e -> acct (e_ords e !! i) 0 (e_ords e !! i).
Proof.
  intros He. destruct (e_ords e !! i) as [o|] eqn:E; [|split; [lia|done]]. apply acct_live.
  pose proof (lo_leaves _ _ (mo_live _ (proj1 He) _ _ E)). lia.
Qed.
Lemma acct_cur sid i c : cfg_ok sid c -> acct (cur i c) 0 (cur i c).
Proof.
  destruct c as [e f]. intros [He Hf]. unfold cur. cbn in *. destruct f as [o|]; [|by eapply acct_same]. destruct (decide _); [|by eapply acct_same].
  apply acct_live. destruct Hf. lia.
Qed.

Lemma ustep_acct sid A i c evs c' : cfg_ok sid c -> apart i c -> ustep sid A c evs c' -> acct (cur i c) (filled_for i evs) (cur i c') /\ apart i c'.
Proof.
  intros Hok Hap Hu. pose proof (acct_cur sid i c Hok) as Hself. destruct (ustep_ok sid A _ _ _ Hu Hok) as [Hok' _].
  pose proof Hok as [He Hf]. pose proof (acct_cur sid i c' Hok') as Hself'.
  destruct Hu as [e f r p q u e' Q' Hr Hs Ht Hq0 Hx He' Hords Hlog Hpr Hp|e f r p u e' Q' Hr Hs Ht Hx He' Hords Hlog Hpr Hp|e o p q Hq0 Hw Hfa Hst Hna Hpo|e o p Hty Hb Hann|e o Hty Hre Htlv|e o u e' Hfr Hlv Hty Htif He' Hords Hlog Hpr Hp Hset|e o Hmv|e o u e' Ho Hs Hty Hre He' Hords Hlog Hpr Hp|e o u1 b1 u2 e' o' Ho Hs Htr Hne He' Hords Hlog Hpr Hp1 Hp2|e s|e];
    unfold cur, apart in *; cbn [fst snd] in *.
  - rewrite filled_cons, filled_one, (filled_none i (red_ev _ :: _)) by (constructor; [apply red_ev_none|apply lev_evs_none]). rewrite Z.add_0_r.
    assert (Hidx : o_id (executed q r) = o_id r) by done. unfold reduced_map in Hords. rewrite Hidx in Hords.
    destruct (decide (o_id r = i)) as [Hid|Hid].
    + assert (Hfo : match f with Some o => if decide (o_id o = i) then False else True | None => True end).
      { destruct f as [o|]; [|done]. destruct (decide _) as [E|]; [|done]. rewrite <- Hid in *. specialize (Hap o eq_refl E). congruence. }
      assert (cur_f : forall x y : option order, match f with Some o => if decide (o_id o = i) then x else y | None => y end = y).
      { intros x y. destruct f as [o|]; [|done]. by destruct (decide _). }
      assert (Hgoal : acct (Some r) q (e_ords e' !! i)).
      { rewrite Hords, <- Hid. destruct (o_leaves (executed q r) =? 0) eqn:E0.
        - rewrite lookup_delete. cbn in E0. split; [lia|]. split; [lia|]. intros _. lia.
        - rewrite lookup_insert. apply acct_move; [by apply moved_exec|lia]. }
      rewrite Hid in Hr. split.
      * destruct f as [o|]; [|by rewrite Hr]. destruct (decide _); [done|]. by rewrite Hr.
      * intros o -> Eo. by rewrite decide_True in Hfo.
    + assert (Hsame : e_ords e' !! i = e_ords e !! i). { rewrite Hords. destruct (_ =? 0); [by rewrite lookup_delete_ne|by rewrite lookup_insert_ne]. }
      rewrite Hsame. done.
  - rewrite filled_cons, filled_one, (filled_none i (_ ++ _)) by (apply Forall_app; split; [apply lev_evs_none|by repeat constructor]). rewrite Z.add_0_r.
    pose proof (lo_leaves _ _ (mo_live _ (proj1 He) _ _ Hr)) as Hlv.
    destruct (decide (o_id r = i)) as [Hid|Hid].
    + assert (Hfo : match f with Some o => if decide (o_id o = i) then False else True | None => True end).
      { destruct f as [o|]; [|done]. destruct (decide _) as [E|]; [|done]. rewrite <- Hid in *. specialize (Hap o eq_refl E). congruence. }
      assert (Hgoal : acct (Some r) (o_leaves r) (e_ords e' !! i)).
      { rewrite Hords, <- Hid, lookup_delete. split; [lia|]. split; [lia|]. done. }
      rewrite Hid in Hr. split.
      * destruct f as [o|]; [|by rewrite Hr]. destruct (decide _); [done|]. by rewrite Hr.
      * intros o -> Eo. by rewrite decide_True in Hfo.
    + assert (Hsame : e_ords e' !! i = e_ords e !! i) by (by rewrite Hords, lookup_delete_ne).
      rewrite Hsame. done.
  - rewrite filled_one. split; [|intros x [= <-] Hid; exact (Hap o eq_refl Hid)]. destruct (decide (o_id o = i)) as [Hid|Hid].
    + rewrite decide_True by done. apply acct_move; [by apply moved_exec|lia].
    + rewrite decide_False by done. done.
  - split; [|intros x [= <-] Hid; exact (Hap o eq_refl Hid)]. change (filled_for i []) with 0. destruct (decide (o_id o = i)) as [Hid|Hid].
    + rewrite decide_True by done. apply acct_move; [|cbn in Hf; destruct Hf; lia]. split; [done|]. cbn. split; [exists 0; lia|]. split; [lia|]. tauto.
    + rewrite decide_False by done. done.
  - rewrite filled_none by (by repeat constructor). pose proof (converted_id o) as E1. split; [|intros x [= <-] Hid; rewrite E1 in Hid; exact (Hap o eq_refl Hid)].
    rewrite E1. destruct (decide (o_id o = i)) as [Hid|Hid]; [|done]. apply acct_move; [by apply moved_conv|lia].
  - rewrite filled_none by apply lim_evs_none. split; [|done]. destruct (decide (o_id o = i)) as [Hid|Hid].
    + rewrite Hords, Hid, lookup_insert. done.
    + by rewrite Hords, lookup_insert_ne.
  - rewrite filled_none by (by repeat constructor). split; [|done]. destruct (decide (o_id o = i)) as [Hid|Hid]; [|done].
    change (e_ords (emit (EDeleteOrder o) e)) with (e_ords e). rewrite (Hap o eq_refl Hid). split; [lia|]. cbn in Hf. split; [destruct Hf; lia|]. intros [Hty Htf].
    destruct Hmv as [H|[H|[[H1 H2]|H]]]; [lia| | |].
    + destruct Hty as [?|[?|?]]; congruence.
    + exfalso. unfold immediate, is_ioc, is_fok in H2. destruct Htf as [E|E]; rewrite E in H2; done.
    + rewrite Hid in H. by rewrite (Hap o eq_refl Hid) in H.
  - rewrite filled_none by (by repeat constructor). pose proof (converted_id o) as E1. rewrite E1. pose proof (lo_leaves _ _ (mo_live _ (proj1 He) _ _ Ho)) as Hlv. split.
    + destruct (decide (o_id o = i)) as [Hid|Hid]; [|by rewrite Hords, lookup_delete_ne]. rewrite <- Hid, Ho. apply acct_move; [by apply moved_conv|lia].
    + intros x [= <-] Hid. rewrite E1 in Hid. by rewrite Hords, Hid, lookup_delete.
  - rewrite filled_none by (by repeat constructor). split; [|done]. rewrite Hords. pose proof (lo_leaves _ _ (mo_live _ (proj1 He) _ _ Ho)) as Hlv.
    destruct (decide (o_id o = i)) as [Hid|Hid]; [|by rewrite lookup_insert_ne]. rewrite <- Hid, Ho, lookup_insert. apply acct_move; [by apply moved_trail|lia].
  - done.
  - done.
Qed.

Lemma usteps_acct sid A i c evs c' : usteps sid A c evs c' -> cfg_ok sid c -> apart i c -> acct (cur i c) (filled_for i evs) (cur i c').
Proof.
  induction 1 as [c|c evs c1 evs' c' Hu _ IH]; intros Hok Hap.
  - change (filled_for i []) with 0. by eapply acct_cur.
  - destruct (ustep_ok sid A _ _ _ Hu Hok) as [Hok1 _]. destruct (ustep_acct sid A i _ _ _ Hok Hap Hu) as [H1 Hap1].
    rewrite filled_app. eapply acct_trans; [done|]. by apply IH.
Qed.

(** ** Heads *)
Definition xacct (x : option order) (n : Z) (y : option order) : Prop :=
  match x, y with Some o, Some o' => exists k, o_exec o' = o_exec o + n - k * TWO64 | None, Some _ => False | None, None => n = 0 | _, _ => True end.
Lemma acct_xacct x n y : acct x n y -> xacct x n y.
Proof. intros [_ H]. destruct x, y; try done. by destruct H as [(_ & H & _) _]. Qed.
Lemma xacct_trans x n y m z : xacct x n y -> xacct y m z -> xacct x (n + m) z.
Proof. destruct x, y, z; try done; cbn; [|lia]. intros [k ?] [k' ?]. exists (k + k'). lia. Qed.
Definition untouched (x : option op) (i : Z) : Prop :=
  match x with Some a => refers a <> Some i /\ ~ introduces a i | None => True end.
Definition unnew (x : option op) (i : Z) : Prop := match x with Some a => ~ introduces a i | None => True end.

Lemma hstep_untouched sid e a hevs c i : hstep sid e a hevs c -> untouched (Some a) i ->
  cur i c = e_ords e !! i /\ apart i c /\ filled_for i hevs = 0.
Proof.
  intros Hh [Hrf Hin]. destruct Hh as [o0 o' Hsym Hval|j q0 o0 u e' q1 o' Q' Ho Hid Hsym Hq He' Hords Hlog Hpr Hp|mit j p0 q0 o0 u e' o' evs' Q' Ho Hid Hsym Hq He' Hords Hlog Hpr Hp|j ni p0 q0 o0 u e' o' Q' evs' Ho Hid Hsym Hq Hni Hty He' Hords Hlog Hpr Hp|j o0 u e' Q' evs' Ho Hid Hsym He' Hords Hlog Hpr Hp|a2 j price q0 o0 u e' q1 o' Q' evs' Ha Ho Hid Hsym Hq He' Hords Hlog Hpr Hp];
    unfold cur, apart; cbn [fst snd].
  - assert (E : o_id o' = o_id o0) by apply placed_same. cbn in Hin. rewrite E, decide_False by done. split; [done|]. split; [intros x [= <-]; congruence|].
    apply filled_none. by repeat constructor.
  - assert (Hne : j <> i) by (cbn in Hrf; congruence). split; [|split; [done|]].
    + rewrite Hords. unfold reduced_map. assert (E : o_id o' = j) by done. rewrite E. destruct (_ =? 0); [by rewrite lookup_delete_ne|by rewrite lookup_insert_ne].
    + apply filled_none. constructor; [apply red_ev_none|apply lim_evs_none].
  - assert (Hne : j <> i) by (destruct mit; cbn in Hrf; congruence). assert (E : o_id o' = j) by (unfold o', modified; by destruct mit).
    rewrite E, decide_False by done. split; [by rewrite Hords, lookup_delete_ne|]. split; [intros x [= <-]; congruence|].
    apply filled_none. unfold evs'. apply Forall_app. split; [apply lim_evs_none|]. destruct (0 <? _); by repeat constructor.
  - assert (Hne : j <> i) by (cbn in Hrf; congruence). assert (E : o_id o' = ni) by done. cbn in Hin. rewrite E, decide_False by done.
    split; [by rewrite Hords, lookup_delete_ne|]. split; [intros x [= <-]; congruence|].
    apply filled_none. unfold evs'. apply Forall_app. split; [apply lim_evs_none|]. by repeat constructor.
  - assert (Hne : j <> i) by (cbn in Hrf; congruence). split; [by rewrite Hords, lookup_delete_ne|]. split; [done|].
    apply filled_none. unfold evs'. apply Forall_app. split; [apply lim_evs_none|]. by repeat constructor.
  - assert (Hne : j <> i) by (destruct Ha as [[-> _]| ->]; cbn in Hrf; congruence). split; [|split; [done|]].
    + rewrite Hords. unfold reduced_map. assert (E : o_id o' = j) by done. rewrite E. destruct (_ =? 0); [by rewrite lookup_delete_ne|by rewrite lookup_insert_ne].
    + unfold evs'. rewrite filled_cons, filled_one, decide_False by congruence.
      apply filled_none. apply Forall_app. split; [apply lim_evs_none|]. constructor; [apply red_ev_none|done].
Qed.

Lemma hstep_xacct sid e a hevs c i : eng_ok sid e -> hstep sid e a hevs c -> ~ introduces a i ->
  xacct (e_ords e !! i) (filled_for i hevs) (cur i c) /\ apart i c.
Proof.
  intros He Hh Hin. destruct (decide (refers a = Some i)) as [Hrf|Hrf].
  2:{ destruct (hstep_untouched sid e a hevs c i Hh (conj Hrf Hin)) as (-> & H & ->). split; [|done]. destruct (e_ords e !! i); [exists 0; lia|done]. }
  destruct Hh as [o0 o' Hsym Hval|j q0 o0 u e' q1 o' Q' Ho Hid Hsym Hq He' Hords Hlog Hpr Hp|mit j p0 q0 o0 u e' o' evs' Q' Ho Hid Hsym Hq He' Hords Hlog Hpr Hp|j ni p0 q0 o0 u e' o' Q' evs' Ho Hid Hsym Hq Hni Hty He' Hords Hlog Hpr Hp|j o0 u e' Q' evs' Ho Hid Hsym He' Hords Hlog Hpr Hp|a2 j price q0 o0 u e' q1 o' Q' evs' Ha Ho Hid Hsym Hq He' Hords Hlog Hpr Hp];
    unfold cur, apart; cbn [fst snd].
  - done.
  - assert (j = i) as -> by (cbn in Hrf; congruence). split; [|done]. rewrite filled_none by (constructor; [apply red_ev_none|apply lim_evs_none]).
    rewrite Ho, Hords. unfold reduced_map. assert (E : o_id o' = i) by done. rewrite E. destruct (_ =? 0); [by rewrite lookup_delete|rewrite lookup_insert]. exists 0. cbn. lia.
  - assert (j = i) as -> by (destruct mit; cbn in Hrf; congruence). assert (E : o_id o' = i) by (unfold o', modified; by destruct mit).
    rewrite E, decide_True by done. split; [|intros x [= <-] _; by rewrite Hords, lookup_delete]. rewrite Ho.
    rewrite filled_none. { exists 0. unfold o', modified. destruct mit; cbn; lia. }
    unfold evs'. apply Forall_app. split; [apply lim_evs_none|]. destruct (0 <? _); by repeat constructor.
  - assert (j = i) as -> by (cbn in Hrf; congruence). assert (E : o_id o' = ni) by done. cbn in Hin. rewrite E, decide_False by done.
    split; [by rewrite Ho, Hords, lookup_delete|]. intros x [= <-]; congruence.
  - assert (j = i) as -> by (cbn in Hrf; congruence). split; [by rewrite Ho, Hords, lookup_delete|done].
  - assert (j = i) as -> by (destruct Ha as [[-> _]| ->]; cbn in Hrf; congruence). split; [|done].
    pose proof (lo_leaves _ _ (mo_live _ (proj1 He) _ _ Ho)) as Hlv.
    unfold evs'. rewrite filled_cons, filled_one, decide_True by congruence.
    rewrite filled_none, Z.add_0_r by (apply Forall_app; split; [apply lim_evs_none|]; constructor; [apply red_ev_none|done]).
    rewrite Ho, Hords. unfold reduced_map. assert (E : o_id o' = i) by done. rewrite E. destruct (_ =? 0); [by rewrite lookup_delete|rewrite lookup_insert].
    destruct (moved_exec q1 o0 ltac:(unfold q1; lia)) as (_ & H & _). exact H.
Qed.

(** ** Segments *)
Lemma seg_acct A s x evs s' i : inv s -> seg A s x evs s' -> untouched x i -> acct (st_ords s !! i) (filled_for i evs) (st_ords s' !! i).
Proof.
  intros Hinv Hseg Hun. destruct Hseg as [a sid b hevs c uevs e' Hord Hb Htg Hh Hc Hfr Hfr' Hu|sid b uevs e' Hb Hfr' Hu].
  - destruct (hstep_untouched _ _ _ _ _ i Hh Hun) as (E & Hap & E2). rewrite filled_app, E2, Z.add_0_l.
    pose proof (usteps_acct _ _ i _ _ _ Hu Hc Hap) as H. rewrite E in H. exact H.
  - apply (usteps_acct _ _ i _ _ _ Hu (conj (inv_eng _ _ _ Hinv Hb) I)). done.
Qed.
Lemma seg_xacct A s x evs s' i : inv s -> seg A s x evs s' -> unnew x i -> xacct (st_ords s !! i) (filled_for i evs) (st_ords s' !! i).
Proof.
  intros Hinv Hseg Hun. destruct Hseg as [a sid b hevs c uevs e' Hord Hb Htg Hh Hc Hfr Hfr' Hu|sid b uevs e' Hb Hfr' Hu].
  - destruct (hstep_xacct _ _ _ _ _ i (inv_eng _ _ _ Hinv Hb) Hh Hun) as (E & Hap). rewrite filled_app. eapply xacct_trans; [exact E|].
    exact (acct_xacct _ _ _ (usteps_acct _ _ i _ _ _ Hu Hc Hap)).
  - apply acct_xacct, (usteps_acct _ _ i _ _ _ Hu (conj (inv_eng _ _ _ Hinv Hb) I)). done.
Qed.
Lemma inv_acct s i : inv s -> acct (st_ords s !! i) 0 (st_ords s !! i).
Proof.
  intros Hinv. destruct (st_ords s !! i) as [o|] eqn:E; [|by split; [lia|]]. apply acct_live. pose proof (lo_leaves _ _ (mo_live _ (iv_map _ Hinv) _ _ E)). lia.
Qed.
Lemma segs_acct A s l evs s' i : segs A s l evs s' -> inv s -> Forall (fun x => untouched x i) l -> acct (st_ords s !! i) (filled_for i evs) (st_ords s' !! i).
Proof.
  induction 1 as [s|s a evs s1 l evs' s' Hinv Hop Hseg Hinv1 _ IH]; intros Hs Hl; [by apply inv_acct|].
  apply Forall_cons in Hl as [H1 H2]. rewrite filled_app. eapply acct_trans; [by eapply seg_acct|]. by apply IH.
Qed.
Lemma segs_xacct A s l evs s' i : segs A s l evs s' -> inv s -> Forall (fun x => unnew x i) l -> xacct (st_ords s !! i) (filled_for i evs) (st_ords s' !! i).
Proof.
  induction 1 as [s|s a evs s1 l evs' s' Hinv Hop Hseg Hinv1 _ IH]; intros Hs Hl; [by apply acct_xacct, inv_acct|].
  apply Forall_cons in Hl as [H1 H2]. rewrite filled_app. eapply xacct_trans; [by eapply seg_xacct|]. by apply IH.
Qed.
Lemma registry_quiet s a s' er evs i : reach s -> op_ok s a -> call s a s' er evs -> registry_op a = true ->
  st_ords s' = st_ords s /\ filled_for i evs = 0.
Proof.
  intros Hr Hop Hc Hreg. destruct (call_result _ _ _ _ _ Hr Hop Hc) as (_ & Hres & _). destruct Hc as [_ Hlog].
  destruct (result_registry _ _ _ _ Hres Hreg) as (H1 & _ & evs' & Hl & _ & He). rewrite Hlog in Hl. apply app_inv_head in Hl. subst evs'.
  split; [done|]. destruct He as [->|(ev & -> & Hev)]; [done|]. apply filled_none. constructor; [|done]. by destruct ev.
Qed.
Lemma part_untouched a x i : part_of a x -> refers a <> Some i -> ~ introduces a i -> untouched x i.
Proof. destruct x as [x|]; [|done]. destruct a; cbn; intros H; try done; try (subst x; cbn; tauto). destruct H as [-> | ->]; cbn; intros; split; try done; congruence. Qed.
Lemma part_unnew a x i : part_of a x -> ~ introduces a i -> unnew x i.
Proof. destruct x as [x|]; [|done]. destruct a; cbn; intros H; try done; try (subst x; cbn; tauto). destruct H as [-> | ->]; cbn; tauto. Qed.
Lemma call_acct s a s' er evs i : reach s -> op_ok s a -> call s a s' er evs -> refers a <> Some i -> ~ introduces a i ->
  acct (get_order i s) (filled_for i evs) (get_order i s').
Proof.
  intros Hr Hop Hc Hrf Hin. destruct (call_result _ _ _ _ _ Hr Hop Hc) as (Hinv & Hres & Hinv'). rewrite !get_order_inv by done.
  destruct (registry_op a) eqn:Hreg.
  - destruct (registry_quiet _ _ _ _ _ i Hr Hop Hc Hreg) as [-> ->]. by apply inv_acct.
  - destruct (call_segs _ _ _ _ _ Hr Hop Hc Hreg) as (l & Hs & Hl).
    assert (E : st_ords (start_of s a) = st_ords s) by (by destruct a). rewrite <- E. eapply segs_acct; [done| |].
    + destruct a; cbn; try done; destruct Hinv; constructor; done.
    + eapply Forall_impl; [done|]. intros x Hx. by eapply part_untouched.
Qed.
Lemma call_xacct s a s' er evs i : reach s -> op_ok s a -> call s a s' er evs -> ~ introduces a i ->
  xacct (get_order i s) (filled_for i evs) (get_order i s').
Proof.
  intros Hr Hop Hc Hin. destruct (call_result _ _ _ _ _ Hr Hop Hc) as (Hinv & Hres & Hinv'). rewrite !get_order_inv by done.
  destruct (registry_op a) eqn:Hreg.
  - destruct (registry_quiet _ _ _ _ _ i Hr Hop Hc Hreg) as [-> ->]. by apply acct_xacct, inv_acct.
  - destruct (call_segs _ _ _ _ _ Hr Hop Hc Hreg) as (l & Hs & Hl).
    assert (E : st_ords (start_of s a) = st_ords s) by (by destruct a). rewrite <- E. eapply segs_xacct; [done| |].
    + destruct a; cbn; try done; destruct Hinv; constructor; done.
    + eapply Forall_impl; [done|]. intros x Hx. by eapply part_unnew.
Qed.

(** ** C50 *)
Lemma mod_of a k : u64_range (a - k * TWO64) -> a - k * TWO64 = a mod TWO64.
Proof. intros H. unfold u64_range, MAX64 in H. rewrite <- (Z.mod_small (a - k * TWO64) TWO64) by (unfold TWO64 in *; lia). by rewrite Zminus_mod, Z.mod_mul, Z.sub_0_r, Z.mod_mod. Qed.
Lemma live_exec s i o : reach s -> get_order i s = Some o -> u64_range (o_exec o).
Proof. intros Hr Ho. pose proof (reach_inv _ Hr) as Hinv. rewrite get_order_inv in Ho by done. apply (lo_exec _ _ (mo_live _ (iv_map _ Hinv) _ _ Ho)). Qed.
Lemma call_reach s a s' er evs : reach s -> op_ok s a -> call s a s' er evs -> reach s'.
Proof. intros Hr Hop [Hc _]. by eapply reach_step. Qed.

(** A live order that the call does not name: what it has lost is what was reported executed for it,
    and unless it is immediate or becomes a market order it goes away only when it is filled. *)
Theorem C50_fills s a s' er evs i o : reach s -> op_ok s a -> call s a s' er evs ->
  get_order i s = Some o -> refers a <> Some i -> ~ introduces a i ->
  let n := filled_for i evs in
  0 <= n <= o_leaves o /\
  match get_order i s' with
  | Some o' => same_order o o' /\ o_leaves o' = o_leaves o - n /\ o_exec o' = (o_exec o + n) mod TWO64
  | None => stays o -> n = o_leaves o
  end.
Proof.
  intros Hr Hop Hc Ho Hrf Hin n. pose proof (call_acct _ _ _ _ _ i Hr Hop Hc Hrf Hin) as [Hn H]. rewrite Ho in H. fold n in Hn, H.
  destruct (get_order i s') as [o'|] eqn:Ho'; [|by destruct H].
  destruct H as [(H1 & (k & H2) & H3 & _) H5]. split; [lia|]. split; [done|]. split; [done|]. rewrite H2. apply mod_of. rewrite <- H2.
  eapply (live_exec s'); [|done]. by eapply call_reach.
Qed.
Print Assumptions C50_fills.

(** Nothing is reported executed for an id that is not live and not brought in, and it stays free. *)
Theorem C50_free s a s' er evs i : reach s -> op_ok s a -> call s a s' er evs ->
  get_order i s = None -> ~ introduces a i -> execs_of i evs = [] /\ get_order i s' = None.
Proof.
  intros Hr Hop Hc Ho Hin. pose proof (call_xacct _ _ _ _ _ i Hr Hop Hc Hin) as H. rewrite Ho in H. destruct (get_order i s') as [o'|] eqn:Ho'; [done|].
  split; [|done]. cbn in H. pose proof (call_part _ _ _ _ _ Hr Hop Hc) as Hp. unfold filled_for in H.
  assert (Hpos : Forall (fun x => 0 < snd x) (execs_of i evs)).
  { unfold execs_of. apply Forall_forall. intros [[x p] q] Hx. apply elem_of_list_filter in Hx as [_ Hx]. unfold execs in Hx. apply elem_of_list_omap in Hx as (ev & Hev & E).
    rewrite Forall_forall in Hp. specialize (Hp _ Hev). destruct ev; try done. injection E as -> -> ->. cbn in *. lia. }
  destruct (execs_of i evs) as [|x l]; [done|]. exfalso. apply Forall_cons in Hpos as [Hx Hl]. cbn in H.
  assert (0 <= sum_qty l). { clear -Hl. unfold sum_qty. induction Hl as [|y l Hy _ IH]; cbn; [done|]. cbn in Hy. lia. } unfold sum_qty in *. cbn in *. lia.
Qed.
Print Assumptions C50_free.

(** Over its whole life, calls that name it included, ExecutedQuantity counts exactly the executions
    reported for the order. *)
Theorem C50_life i s s' o o' evs : lives i s s' -> get_order i s = Some o -> get_order i s' = Some o' -> st_log s' = st_log s ++ evs ->
  o_exec o' = (o_exec o + filled_for i evs) mod TWO64.
Proof.
  intros Hl. revert o' evs. assert (Hrr : forall s2, lives i s s2 -> reach s2).
  { clear. induction 1 as [|s1 a s2 er evs _ IH Hop Hc _ _]; [done|]. eapply reach_step; [exact IH|exact Hop|exact (proj1 Hc)]. }
  induction Hl as [Hr1 Hn|s1 a s2 er evs1 Hl IH Hop Hc Hi Hn]; intros o' evs Ho Ho' Hlog.
  { apply log_same in Hlog as ->. assert (o' = o) as -> by congruence. change (filled_for i []) with 0. rewrite Z.add_0_r.
    pose proof (live_exec _ _ _ Hr1 Ho). symmetry. apply Z.mod_small. unfold u64_range, MAX64, TWO64 in *. lia. }
  pose proof (Hrr _ Hl) as Hr. assert (get_order i s1 <> None) as Hn1 by (by destruct Hl). destruct (get_order i s1) as [x|] eqn:Hx; [|done].
  destruct Hc as [Hst Hl1]. assert (exists evs0, st_log s1 = st_log s ++ evs0) as [evs0 H0].
  { clear -Hl. induction Hl as [|s1 a s2 er evs1 _ [l IH] _ [_ Hc] _ _]; [exists []; by rewrite app_nil_r|]. exists (l ++ evs1). by rewrite Hc, IH, app_assoc. }
  specialize (IH x evs0 Ho eq_refl H0). pose proof (call_xacct _ _ _ _ _ i Hr Hop (conj Hst Hl1) Hi) as H. rewrite Hx, Ho' in H. destruct H as [k Hk].
  assert (evs = evs0 ++ evs1) as ->. { rewrite Hlog, H0 in Hl1. rewrite <- app_assoc in Hl1. by apply app_inv_head in Hl1. }
  rewrite filled_app. assert (Hr2 : reach s2) by (by eapply reach_step). pose proof (live_exec _ _ _ Hr2 Ho') as Hrg. rewrite Hk in *. rewrite (mod_of _ _ Hrg), IH.
  rewrite Zplus_mod_idemp_l. f_equal. lia.
Qed.
Print Assumptions C50_life.

(** A new order under a free id. *)
Theorem C50_added s o s' evs : reach s -> op_ok s (AddOrder o) -> call s (AddOrder o) s' OK evs -> get_order (o_id o) s = None ->
  let n := filled_for (o_id o) evs in
  0 <= n <= o_leaves o /\
  match get_order (o_id o) s' with
  | Some o' => same_order o o' /\ o_leaves o' = o_leaves o - n /\ o_exec o' = (o_exec o + n) mod TWO64
  | None => stays o -> n = o_leaves o
  end.
Proof.
  intros Hr Hop Hc Ho n. destruct (call_result _ _ _ _ _ Hr Hop Hc) as (Hinv & _ & Hinv').
  destruct (order_call_seg s _ s' OK evs Hr Hop eq_refl Hc) as [(_ & _ & Hn & _)|Hseg]; [done|].
  inversion Hseg as [a sid b hevs c uevs e2 Hoo Hb Htg Hh Hcf Hfr1 Hfr2 Hus|]; subst.
  inversion Hh as [o0 o' Hsym Hval| |mit i' p0 q0 o0 u e' o' evs' Q' Ho' Hid Hsym Hq' He' Hords Hlog Hpr Hp Ea| | |a2 i' price q0 o0 u e' q1 o' Q' evs' Ha]; subst; try (by destruct mit); try (by destruct Ha as [[? _]|?]).
  rewrite get_order_inv in Ho by done. assert (E : o_id o' = o_id o) by apply placed_same.
  assert (Hap : apart (o_id o) (emit (EAddOrder o') (eng_of b s), Some o')) by (intros x _ _; exact Ho).
  pose proof (usteps_acct _ _ (o_id o) _ _ _ Hus Hcf Hap) as H. unfold cur in H. cbn [fst snd] in H. rewrite E, decide_True in H by done.
  assert (Hm : moved o o' 0). { unfold o', placed. destruct (o_type o) eqn:Et; try apply moved_refl; apply moved_trail. }
  destruct (validate_ok o Hval (proj1 Hop)) as (_ & Hpos & _).
  assert (Hall : acct (Some o) n (st_ords (put_eng (o_sym o) e2 s) !! o_id o)).
  { unfold n. rewrite filled_app, (filled_none _ [EAddOrder o']) by (by repeat constructor). eapply acct_trans; [|exact H]. apply acct_move; [done|lia]. }
  rewrite (get_order_inv (put_eng _ _ _)) by done. destruct Hall as [Hn0 Hall]. destruct (st_ords (put_eng (o_sym o) e2 s) !! o_id o) as [o2|] eqn:Eo; [|by destruct Hall].
  destruct Hall as [(H1 & (k & H2) & H3 & _) H5]. split; [lia|]. split; [done|]. split; [done|]. rewrite H2. apply mod_of. rewrite <- H2.
  apply (lo_exec _ _ (mo_live _ (iv_map _ Hinv') _ _ Eo)).
Qed.
Print Assumptions C50_added.

(** ** C51 *)
Theorem C51_switch s a s' er evs : reach s -> op_ok s a -> call s a s' er evs ->
  st_match s' = match a with EnableMatching => true | DisableMatching => false | _ => st_match s end.
Proof. intros Hr Hop [Hst _]. rewrite (step_match s a s' er (reach_inv _ Hr) Hop Hst). by destruct a. Qed.
Print Assumptions C51_switch.

(** Order 3, a stop-limit order, is triggered by the trade that empties the level at 100, takes all
    of order 2 and rests with what is left. *)
Definition ex_fills : list op := setup ++ [EnableMatching; SL 1 100 5; SL 2 101 5; AddOrder (StopLimitOrder 3 0 BUY 101 101 8 GTC MAX64)].
Definition ex_market : op := AddOrder (MarketOrder 4 0 BUY 5 MAX64).
Example C50_example : meets ex_fills ex_market OK /\
  (filled_for 1 (news (hist ex_fills) ex_market), filled_for 2 (news (hist ex_fills) ex_market), filled_for 3 (news (hist ex_fills) ex_market), filled_for 4 (news (hist ex_fills) ex_market)) = (5, 5, 5, 5) /\
  (exists o o', get_order 3 (hist ex_fills) = Some o /\ stays o /\ o_leaves o = 8 /\ get_order 3 (after (hist ex_fills) ex_market) = Some o' /\ o_type o' = LIMIT /\ o_leaves o' = 3 /\ o_exec o' = 5) /\
  (exists o, get_order 2 (hist ex_fills) = Some o /\ stays o /\ o_leaves o = 5 /\ get_order 2 (after (hist ex_fills) ex_market) = None).
Proof.
  split; [meet|]. split; [vm_compute; reflexivity|]. split.
  - eexists _, _. split; [vm_compute; reflexivity|]. split; [split; [right; left; reflexivity|left; reflexivity]|]. split; [reflexivity|]. split; [vm_compute; reflexivity|]. repeat split; reflexivity.
  - eexists. split; [vm_compute; reflexivity|]. split; [split; [left; reflexivity|left; reflexivity]|]. split; [reflexivity|]. vm_compute; reflexivity.
Qed.
Example C51_example : meets setup EnableMatching OK /\ st_match (hist setup) = false /\ st_match (after (hist setup) EnableMatching) = true.
Proof. split; [meet|]. split; vm_compute; reflexivity. Qed.
