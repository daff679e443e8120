(** * PropsTrail.v -- trailing stops: C19, C20. *)
From Coq Require Import ZifyBool.
From stdpp Require Import fin_maps relations.
From Verif Require Import Types Book Engine Manager Factory Validate LevelFacts BookInv EngInv EngPrim Steps StepsOk Refine3 Refine4 Api StateInv Micro Reach Calls Witness PropsState PropsSettle CallFacts Trades PropsFill PropsMirror PropsMirror2 Split PropsStops PropsPriority PropsDirect PropsReject Spec Spec2 Spec3 Spec4 Spec5 Spec6.

Lemma trailing_kind_is o : trailing_kind (o_type o) = is_trailing o.
Proof. unfold trailing_kind, is_trailing, is_trailing_stop, is_trailing_stop_limit. by destruct (o_type o). Qed.
Lemma calc_no_looser o b : match o_side o with BUY => calc_trailing o b <= o_stop o | SELL => o_stop o <= calc_trailing o b end.
Proof.
  unfold calc_trailing. destruct (if o_tdist o <? 0 then _ else _) as [dist step]. destruct (o_side o).
  - destruct (_ && _) eqn:E; [|lia]. apply andb_prop in E as [E _]. lia.
  - destruct (_ && _) eqn:E; [|lia]. apply andb_prop in E as [E _]. lia.
Qed.
(** ** C19 *)
Definition tight (i : Z) (o x : order) : Prop := o_id x = i -> is_trailing x = true -> o_side x = o_side o /\ no_looser o x.
Lemma tight_closed i o : closed (tight i o).
Proof.
  unfold tight. constructor.
  - intros x q H _. exact H.
  - intros x q H _ _. exact H.
  - intros x p H _. exact H.
  - intros x _ Hs _ Ht. exfalso. unfold converted, to_market, to_limit, stop_type, is_trailing, is_trailing_stop, is_trailing_stop_limit in *. by destruct (o_type x) eqn:E; cbn in *; rewrite ?E in *; try destruct (is_fok _).
  - intros x b H Ht Hid _. destruct (retrail_place (calc_trailing x b) x Ht) as (E1 & _ & _ & E4 & E5 & _). rewrite E1 in Hid. destruct (H Hid Ht) as [H1 H2].
    rewrite E4. split; [done|]. unfold no_looser in *. rewrite E5. pose proof (calc_no_looser x b) as Hc. rewrite H1 in Hc. destruct (o_side o); lia.
Qed.
Lemma tight_keeps i o a : ~ introduces a i -> op_keeps (tight i o) a.
Proof.
  intros H. unfold tight. destruct a; cbn in *; try done; intros; try done; unfold modified in *; cbn in *; auto.
Qed.
(** In every call, the stop price of a trailing order does not move away from the market, in the
    states before and after the call and in every notification of the call. *)
Theorem C19_call s a s' er evs i o : reach s -> op_ok s a -> call s a s' er evs -> get_order i s = Some o -> ~ introduces a i ->
  (forall x, get_order i s' = Some x -> trailing_kind (o_type x) = true -> no_looser o x) /\
  (forall x, EUpdateOrder x ∈ evs -> o_id x = i -> trailing_kind (o_type x) = true -> no_looser o x).
Proof.
  intros Hr Hop Hc Ho Hi. destruct (call_result _ _ _ _ _ Hr Hop Hc) as (Hinv & _ & Hinv'). rewrite get_order_inv in Ho by done.
  destruct (call_q (tight i o) s a s' er evs (tight_closed i o) (tight_keeps i o a Hi) Hinv Hop Hc) as [H1 H2].
  { intros j x Hx Hid _. rewrite (lo_id _ _ (mo_live _ (iv_map _ Hinv) _ _ Hx)) in Hid. subst j. assert (x = o) as -> by congruence. split; [done|]. unfold no_looser. destruct (o_side o); lia. }
  split.
  - intros x Hx Ht. rewrite get_order_inv in Hx by done. rewrite trailing_kind_is in Ht. apply (H1 i x Hx); [|done]. apply (lo_id _ _ (mo_live _ (iv_map _ Hinv') _ _ Hx)).
  - intros x Hx Hid Ht. rewrite trailing_kind_is in Ht. rewrite Forall_forall in H2. by apply (H2 _ Hx).
Qed.
Print Assumptions C19_call.
(** Through the life of an order. *)
Theorem C19_life i s s' o o' : lives i s s' -> get_order i s = Some o -> get_order i s' = Some o' -> trailing_kind (o_type o') = true ->
  trailing_kind (o_type o) = true /\ o_side o' = o_side o /\ no_looser o o'.
Proof.
  intros Hl. assert (reach s) as Hr0. { induction Hl; [done|]. by apply IHHl. }
  revert o'. assert (Hr : reach s'). { clear -Hl. induction Hl as [|s1 a s2 er evs _ IH Hop Hc _ _]; [done|]. eapply reach_step; [exact IH|exact Hop|exact (proj1 Hc)]. }
  induction Hl as [Hr1 Hn|s1 a s2 er evs Hl IH Hop Hc Hi Hn]; intros o' Ho Ho' Ht.
  { assert (o' = o) as -> by congruence. split; [done|]. split; [done|]. unfold no_looser. destruct (o_side o); lia. }
  assert (Hr1 : reach s1). { clear -Hl. induction Hl as [|s1 a s2 er evs _ IH Hop Hc _ _]; [done|]. eapply reach_step; [exact IH|exact Hop|exact (proj1 Hc)]. }
  assert (get_order i s1 <> None) as Hn1 by (by destruct Hl). destruct (get_order i s1) as [x|] eqn:Hx; [|done].
  destruct (C19_call s1 a s2 er evs i x Hr1 Hop Hc Hx Hi) as [H1 _]. specialize (H1 _ Ho' Ht).
  assert (trailing_kind (o_type x) = true /\ o_side o' = o_side x) as [Hk Hs].
  { destruct (call_result _ _ _ _ _ Hr1 Hop Hc) as (Hinv & _ & Hinv'). rewrite get_order_inv in Hx, Ho' by done.
    destruct (call_q (fun y => o_id y = i -> is_trailing y = true -> is_trailing x = true /\ o_side y = o_side x) s1 a s2 er evs) as [H2 _]; try done.
    - constructor.
      + intros y q H _. exact H. + intros y q H _ _. exact H. + intros y p H _. exact H.
      + intros y _ Hs _ Hty. exfalso. unfold converted, to_market, to_limit, stop_type, is_trailing, is_trailing_stop, is_trailing_stop_limit in *. by destruct (o_type y) eqn:E; cbn in *; rewrite ?E in *; try destruct (is_fok _).
      + intros y b H Hty Hid _. destruct (retrail_place (calc_trailing y b) y Hty) as (E1 & _ & _ & E4 & _). rewrite E1 in Hid. rewrite E4. by apply H.
    - clear -Hi. destruct a; cbn in *; try done; intros; try done; unfold modified in *; cbn in *; auto.
    - intros j y Hy Hid Hty. rewrite (lo_id _ _ (mo_live _ (iv_map _ Hinv) _ _ Hy)) in Hid. subst j. assert (y = x) as -> by congruence. done.
    - rewrite trailing_kind_is. rewrite trailing_kind_is in Ht. apply (H2 i o' Ho'); [|done]. apply (lo_id _ _ (mo_live _ (iv_map _ Hinv') _ _ Ho')). }
  destruct (IH Hr1 x Ho eq_refl Hk) as (K1 & K2 & K3). split; [done|]. split; [congruence|]. unfold no_looser in *. rewrite K2 in H1. destruct (o_side o); lia.
Qed.
Print Assumptions C19_life.

(** ** The last execution prices *)
Definition last_of (sd : oside) (b : book) : Z := match sd with BUY => b_last_bid b | SELL => b_last_ask b end.
Lemma last_prices sd b b' : bprices b' = bprices b -> last_of sd b' = last_of sd b.
Proof. unfold bprices. intros [=]. destruct sd; cbn; congruence. Qed.
Lemma note_app sd i l1 l2 p : fold_left (note_trade sd i) (l1 ++ l2) p = fold_left (note_trade sd i) l2 (fold_left (note_trade sd i) l1 p).
Proof. apply fold_left_app. Qed.
Definition dull (ev : event) : Prop := match ev with EExecute _ _ _ | EAddBook _ => False | _ => True end.
Lemma note_dull sd i l p : Forall dull l -> fold_left (note_trade sd i) l p = p.
Proof. induction 1 as [|ev l H _ IH]; [done|]. cbn. by destruct ev. Qed.
Lemma dull_lev sid u : Forall dull (lev_evs sid u).
Proof. unfold lev_evs, lev_ev. destruct (u_type u); repeat constructor. Qed.
Lemma dull_lim o sid u : Forall dull (lim_evs o sid u).
Proof. unfold lim_evs. destruct (is_limit o); [apply dull_lev|constructor]. Qed.
Lemma dull_red o : dull (red_ev o).
Proof. unfold red_ev. by destruct (_ =? 0). Qed.
Lemma after_last sd s p b : last_of sd (after_exec s p b) = if decide (s = sd) then p else last_of sd b.
Proof. by destruct sd, s. Qed.
Lemma note_exec sd sid o p q b : o_sym o = sid -> fold_left (note_trade sd sid) [EExecute o p q] (last_of sd b) = last_of sd (after_exec (o_side o) p b).
Proof. intros <-. cbn. rewrite after_last. destruct (decide (o_sym o = o_sym o /\ o_side o = sd)), (decide (o_side o = sd)); try done; naive_solver. Qed.
Lemma ustep_last sd sid A c evs c' : cfg_ok sid c -> ustep sid A c evs c' ->
  last_of sd (e_bk (fst c')) = fold_left (note_trade sd sid) evs (last_of sd (e_bk (fst c))).
Proof.
  intros [He Hf] Hu. destruct Hu as [e f r p q u e' Q' Hr Hs Ht Hq0 Hx He' Hords Hlog Hpr Hp|e f r p u e' Q' Hr Hs Ht Hx He' Hords Hlog Hpr Hp|e o p q Hq0 Hw Hfa Hst Hna|e o p Hty Hb Hann|e o Hty Hre Htlv|e o u e' Hfr Hlv Hty Htif He' Hords Hlog Hpr Hp Hset|e o Hmv|e o u e' Ho Hs Hty Hre He' Hords Hlog Hpr Hp|e o u1 b1 u2 e' o' Ho Hs Htr Hne He' Hords Hlog Hpr Hp1 Hp2|e s|e]; cbn [fst snd] in *.
  - rewrite (last_prices _ _ _ Hpr). match goal with |- context [?a :: ?b :: ?c] => change (a :: b :: c) with ([a] ++ b :: c) end.
    rewrite note_app, (note_exec _ _ _ _ _ _ Hs), note_dull; [done|]. constructor; [apply dull_red|apply dull_lev].
  - rewrite (last_prices _ _ _ Hpr). match goal with |- context [?a :: ?b ++ ?c] => change (a :: b ++ c) with ([a] ++ b ++ c) end.
    rewrite note_app, (note_exec _ _ _ _ _ _ Hs), note_dull; [done|]. apply Forall_app. split; [apply dull_lev|by repeat constructor].
  - rewrite note_exec by apply Hf. rewrite after_last. destruct o; cbn; destruct o_side, sd; done.
  - done.
  - done.
  - rewrite (last_prices _ _ _ Hpr), note_dull; [done|apply dull_lim].
  - done.
  - rewrite (last_prices _ _ _ Hpr). done.
  - rewrite (last_prices _ _ _ Hpr). done.
  - by destruct s, sd.
  - by destruct sd.
Qed.
Lemma usteps_last sd sid A c evs c' : usteps sid A c evs c' -> cfg_ok sid c ->
  last_of sd (e_bk (fst c')) = fold_left (note_trade sd sid) evs (last_of sd (e_bk (fst c))).
Proof.
  revert c evs c'. apply (usteps_ind_ok sid A (fun c evs c' => last_of sd (e_bk (fst c')) = fold_left (note_trade sd sid) evs (last_of sd (e_bk (fst c))))); [done|].
  intros c evs c1 evs' c' Hc Hu _ IH. rewrite IH, (ustep_last sd _ _ _ _ _ Hc Hu), note_app. done.
Qed.
Lemma hstep_last sd sid e a evs c : hstep sid e a evs c -> last_of sd (e_bk (fst c)) = fold_left (note_trade sd sid) evs (last_of sd (e_bk e)).
Proof.
  intros Hh. destruct Hh as [o0 o' Hsym Hval|i q0 o0 u e' q1 o' Q' Ho Hid Hsym Hq He' Hords Hlog Hpr Hp|mit i p0 q0 o0 u e' o' evs' Q' Ho Hid Hsym Hq He' Hords Hlog Hpr Hp|i ni p0 q0 o0 u e' o' Q' evs' Ho Hid Hsym Hq Hni Hty He' Hords Hlog Hpr Hp|i o0 u e' Q' evs' Ho Hid Hsym He' Hords Hlog Hpr Hp|a2 i price q0 o0 u e' q1 o' Q' evs' Ha Ho Hid Hsym Hq He' Hords Hlog Hpr Hp]; cbn [fst snd] in *.
  - done.
  - rewrite (last_prices _ _ _ Hpr), note_dull; [done|]. constructor; [apply dull_red|apply dull_lim].
  - rewrite (last_prices _ _ _ Hpr), note_dull; [done|]. apply Forall_app. split; [apply dull_lim|]. destruct (0 <? _); by repeat constructor.
  - rewrite (last_prices _ _ _ Hpr), note_dull; [done|]. apply Forall_app. split; [apply dull_lim|by repeat constructor].
  - rewrite (last_prices _ _ _ Hpr), note_dull; [done|]. apply Forall_app. split; [apply dull_lim|by repeat constructor].
  - unfold evs'. match goal with |- context [?a :: ?b ++ ?c] => change (a :: b ++ c) with ([a] ++ b ++ c) end.
    rewrite note_app, (note_exec _ _ _ _ _ _ Hsym), note_dull; [|apply Forall_app; split; [apply dull_lim|repeat constructor; apply dull_red]].
    rewrite (last_prices _ _ _ Hpr). rewrite after_last. destruct o0; cbn; destruct o_side, sd; done.
Qed.
(** Notifications about other symbols do not count. *)
Lemma note_other sd j l p : Forall (fun ev => event_symbol ev <> j) l -> fold_left (note_trade sd j) l p = p.
Proof.
  induction 1 as [|ev l H _ IH]; [done|]. cbn [fold_left]. assert (note_trade sd j p ev = p) as ->; [|done].
  destruct ev; cbn in *; try done; by rewrite decide_False by naive_solver.
Qed.
Definition lasts (s : state) : Prop := forall sd i b, get_book i s = Some b -> last_of sd b = last_trade sd i (st_log s).
Lemma seg_last A s x evs s' sd i b b' : inv s -> seg A s x evs s' -> get_book i s = Some b -> get_book i s' = Some b' ->
  last_of sd b' = fold_left (note_trade sd i) evs (last_of sd b).
Proof.
  intros Hinv Hseg Hb Hb'. pose proof (seg_frame _ _ _ _ _ Hinv Hseg) as (j & _ & _ & _ & Hoth & _ & _ & Hev).
  destruct (decide (i = j)) as [->|Hne].
  2: { rewrite note_other; [by rewrite Hoth, Hb in Hb' by done; injection Hb' as ->|]. eapply Forall_impl; [done|]. cbn. intros ev ->. congruence. }
  inversion Hseg as [a sid b0 hevs c uevs e' Hord Hb0 Htg Hh Hc Hfr Hfr' Hu|sid b0 uevs e' Hb0 Hfr' Hu]; subst.
  - rewrite (get_book_put _ _ _ _ _ Hb0) in Hb'. destruct (decide (sid = j)) as [->|Hne].
    + injection Hb' as <-. assert (b0 = b) as -> by congruence. rewrite note_app. rewrite (usteps_last sd _ _ _ _ _ Hu Hc : last_of sd (e_bk e') = _), (hstep_last sd _ _ _ _ _ Hh). done.
    + assert (b' = b) as -> by congruence. rewrite note_other; [done|].
      pose proof (hstep_sym _ _ _ _ _ (inv_eng _ _ _ Hinv Hb0) Hh) as [_ H1]. pose proof (usteps_sym _ _ _ _ _ Hu Hc) as [_ H2].
      apply Forall_app. split; (eapply Forall_impl; [done|]); cbn; intros ev ->; congruence.
  - rewrite (get_book_put _ _ _ _ _ Hb0) in Hb'. pose proof (conj (inv_eng _ _ _ Hinv Hb0) I : cfg_ok sid (eng_of b0 s, None)) as Hc. destruct (decide (sid = j)) as [->|Hne].
    + injection Hb' as <-. assert (b0 = b) as -> by congruence. by rewrite (usteps_last sd _ _ _ _ _ Hu Hc : last_of sd (e_bk e') = _).
    + assert (b' = b) as -> by congruence. rewrite note_other; [done|].
      pose proof (usteps_sym _ _ _ _ _ Hu Hc) as [_ H2]. eapply Forall_impl; [done|]; cbn; intros ev ->; congruence.
Qed.
Lemma segs_last A s l evs s' : segs A s l evs s' -> forall sd i b b', get_book i s = Some b -> get_book i s' = Some b' ->
  last_of sd b' = fold_left (note_trade sd i) evs (last_of sd b).
Proof.
  induction 1 as [s|s a evs s1 l evs' s' Hinv Hop Hseg Hinv1 Hs IH]; intros sd i b b' Hb Hb'; [by assert (b' = b) as -> by congruence|].
  pose proof (segs_keep _ _ _ _ _ Hs) as (_ & _ & Hk). specialize (Hk i). rewrite Hb' in Hk. destruct (get_book i s1) as [b1|] eqn:Hb1; [|done].
  rewrite note_app, <- (seg_last _ _ _ _ _ sd i b b1 Hinv Hseg Hb Hb1). by apply IH.
Qed.
Lemma reach_lasts s : reach s -> lasts s.
Proof.
  induction 1 as [|s a s' er Hr IH Hop Hst]; [intros sd i b Hb; by destruct i|]. pose proof (reach_inv _ Hr) as Hinv.
  destruct (call_exists s a Hinv Hop) as (s2 & er2 & evs & Hc). pose proof Hc as [Hst2 Hlog]. rewrite Hst in Hst2. injection Hst2 as <- <-.
  destruct (call_result _ _ _ _ _ Hr Hop Hc) as (_ & Hres & Hinv'). intros sd i b' Hb'. destruct (registry_op a) eqn:Hreg.
  - inversion Hres as [a' s2 er2 Hoo Hout|i' o er2 Hn1 Hn2 Hout|i' o s1 s2 er2 Hout Hi1 Hop1 Hout1|s2 Hm|s2 Hm| |sy v Hdup Hv|sy v Hno Hsy Hv|i' Hno|i' sy v Hs Hv|sy Hno|sy v Hs Hdup Hv|sy reg v Hregs Hno Hv|i' Hno|i' b v Hb Hv]; subst; try done;
      try (by destruct a); unfold last_trade; cbn [st_log]; rewrite ?note_app; cbn [fold_left note_trade].
    all: try (by apply IH).
    + apply IH. unfold get_book in Hb' |- *. cbn in Hb'. by rewrite Hv in Hb'.
    + unfold get_book in Hb'. cbn in Hb'. rewrite Hv in Hb'. destruct (decide (sy_id sy = i)) as [<-|Hne]; [|by apply IH]. injection Hb' as <-. by destruct sd.
    + apply IH. unfold get_book in Hb'. cbn in Hb'. rewrite Hv in Hb'. by destruct (decide (i' = i)).
  - destruct (call_segs s a s' er evs Hr Hop Hc Hreg) as (l & Hs & _).
    pose proof (segs_keep _ _ _ _ _ Hs) as (_ & _ & Hk). specialize (Hk i). rewrite Hb' in Hk. destruct (get_book i (start_of s a)) as [b|] eqn:Hb; [|done].
    assert (Hb0 : get_book i s = Some b) by (by destruct a). unfold last_trade. rewrite Hlog, note_app. rewrite (segs_last _ _ _ _ _ Hs sd i b b' Hb Hb'). f_equal. by apply IH.
Qed.
(** Execution prices are 64-bit. *)
Definition pr_ok (ev : event) : Prop := match ev with EExecute _ p _ => u64_range p | _ => True end.
Lemma dull_pr l : Forall dull l -> Forall pr_ok l.
Proof. intros H. eapply Forall_impl; [done|]. by intros []. Qed.
Lemma xcond_price sid A e f r p q : cfg_ok sid (e, f) -> e_ords e !! o_id r = Some r -> xcond A e f r p q -> u64_range p.
Proof.
  intros [He Hf] Hr Hx. destruct Hx as [o lvl -> _ _ _ _ _ _ _ -> _ _|o lvl -> _ _ _ _ -> _| |]; try done.
  - apply (mo_live _ (proj1 He) _ _ Hr). - apply Hf.
Qed.
Lemma ustep_price sid A c evs c' : cfg_ok sid c -> ustep sid A c evs c' -> Forall pr_ok evs.
Proof.
  intros Hc Hu. destruct Hu as [e f r p q u e' Q' Hr Hs Ht Hq0 Hx He' Hords Hlog Hpr Hp|e f r p u e' Q' Hr Hs Ht Hx He' Hords Hlog Hpr Hp|e o p q Hq0 Hw Hfa Hst Hna Hpo|e o p Hty Hb Hann|e o Hty Hre Htlv|e o u e' Hfr Hlv Hty Htif He' Hords Hlog Hpr Hp Hset|e o Hmv|e o u e' Ho Hs Hty Hre He' Hords Hlog Hpr Hp|e o u1 b1 u2 e' o' Ho Hs Htr Hne He' Hords Hlog Hpr Hp1 Hp2|e s|e].
  all: try (by repeat constructor).
  - constructor; [by eapply xcond_price|]. apply dull_pr. constructor; [apply dull_red|apply dull_lev].
  - constructor; [by eapply xcond_price|]. apply dull_pr. apply Forall_app. split; [apply dull_lev|by repeat constructor].
  - by repeat constructor; apply Hpo.
  - apply dull_pr, dull_lim.
Qed.
Lemma usteps_price sid A c evs c' : usteps sid A c evs c' -> cfg_ok sid c -> Forall pr_ok evs.
Proof.
  revert c evs c'. apply (usteps_ind_ok sid A (fun c evs c' => Forall pr_ok evs)); [done|].
  intros c evs c1 evs' c' Hc Hu _ IH. apply Forall_app. split; [by eapply ustep_price|done].
Qed.
Lemma hstep_price sid s b a evs c : inv s -> op_ok s a -> hstep sid (eng_of b s) a evs c -> Forall pr_ok evs.
Proof.
  intros Hinv Hop Hh. destruct Hh as [o0 o' Hsym Hval|i q0 o0 u e' q1 o' Q' Ho Hid Hsym Hq He' Hords Hlog Hpr Hp|mit i p0 q0 o0 u e' o' evs' Q' Ho Hid Hsym Hq He' Hords Hlog Hpr Hp|i ni p0 q0 o0 u e' o' Q' evs' Ho Hid Hsym Hq Hni Hty He' Hords Hlog Hpr Hp|i o0 u e' Q' evs' Ho Hid Hsym He' Hords Hlog Hpr Hp|a2 i price q0 o0 u e' q1 o' Q' evs' Ha Ho Hid Hsym Hq He' Hords Hlog Hpr Hp].
  - by repeat constructor.
  - apply dull_pr. constructor; [apply dull_red|apply dull_lim].
  - apply dull_pr. apply Forall_app. split; [apply dull_lim|]. destruct (0 <? _); by repeat constructor.
  - apply dull_pr. apply Forall_app. split; [apply dull_lim|by repeat constructor].
  - apply dull_pr. apply Forall_app. split; [apply dull_lim|by repeat constructor].
  - constructor; [|apply dull_pr, Forall_app; split; [apply dull_lim|repeat constructor; apply dull_red]].
    destruct Ha as [[-> ->]| ->]; [apply (mo_live _ (iv_map _ Hinv) _ _ Ho)|apply Hop].
Qed.
Lemma seg_price A s x evs s' : inv s -> (forall y, x = Some y -> op_ok s y) -> seg A s x evs s' -> Forall pr_ok evs.
Proof.
  intros Hinv Hop Hseg. inversion Hseg as [a sid b0 hevs c uevs e' Hord Hb0 Htg Hh Hc Hfr Hfr' Hu|sid b0 uevs e' Hb0 Hfr' Hu]; subst.
  - apply Forall_app. split; [eapply hstep_price; [done|by apply Hop|done]|by eapply usteps_price].
  - eapply usteps_price; [done|]. exact (conj (inv_eng _ _ _ Hinv Hb0) I).
Qed.
Lemma segs_price A s l evs s' : segs A s l evs s' -> Forall pr_ok evs.
Proof. induction 1 as [s|s a evs s1 l evs' s' Hinv Hop Hseg Hinv1 Hs IH]; [done|]. apply Forall_app. split; [exact (seg_price A s a evs s1 Hinv Hop Hseg)|done]. Qed.
Lemma call_price s a s' er evs : reach s -> op_ok s a -> call s a s' er evs -> Forall pr_ok evs.
Proof.
  intros Hr Hop Hc. destruct (registry_op a) eqn:Hreg.
  - destruct (call_result _ _ _ _ _ Hr Hop Hc) as (_ & Hres & _). destruct Hc as [_ Hlog].
    destruct (result_registry _ _ _ _ Hres Hreg) as (_ & _ & evs' & Hl & _ & He). rewrite Hlog in Hl. apply app_inv_head in Hl. subst evs'.
    destruct He as [->|(ev & -> & Hev)]; [done|]. constructor; [|done]. by destruct ev.
  - destruct (call_segs s a s' er evs Hr Hop Hc Hreg) as (l & Hs & _). by eapply segs_price.
Qed.
Lemma reach_price s : reach s -> Forall pr_ok (st_log s).
Proof.
  induction 1 as [|s a s' er Hr IH Hop Hst]; [constructor|]. pose proof (reach_inv _ Hr) as Hinv.
  destruct (call_exists s a Hinv Hop) as (s2 & er2 & evs & Hc). pose proof Hc as [Hst2 Hlog]. rewrite Hst in Hst2. injection Hst2 as <- <-.
  rewrite Hlog. apply Forall_app. split; [done|by eapply call_price].
Qed.
Lemma no_trade_range sd : u64_range (no_trade sd).
Proof. destruct sd; by vm_compute. Qed.
Lemma last_range sd i l : Forall pr_ok l -> u64_range (last_trade sd i l).
Proof.
  unfold last_trade. pose proof (no_trade_range sd) as H0. revert H0. generalize (no_trade sd) at 1 2 as p.
  intros p Hp Hl. revert p Hp. induction Hl as [|ev l H _ IH]; intros p Hp; [done|]. cbn. apply IH. destruct ev; try done; cbn; case_decide; try done. apply no_trade_range.
Qed.

(** ** C20 *)
Lemma market_seen ms sid b t sd : book_ok ms sid b -> (forall ty p, t ty p = shown b ty p) -> u64_range (last_of (opposite sd) b) ->
  trailing_market t sd (last_of (opposite sd) b) (match sd with BUY => trailing_market_ask b | SELL => trailing_market_bid b end).
Proof.
  intros Hb Ht Hl. unfold trailing_market, trailing_market_ask, trailing_market_bid, best_ask_price, best_bid_price. unfold u64_range in Hl. destruct sd; cbn [opposite last_of] in *.
  - change (b_asks b) with (get_side KAsk b). destruct (s_best (get_side KAsk b)) as [p|] eqn:E.
    + left. exists p. split; [|done]. destruct (best_some _ _ _ _ _ Hb E) as [H1 H2]. split.
      * cbn. rewrite Ht. by apply (shown_queue ms sid b SELL p Hb).
      * intros p' Hp'. cbn in Hp'. rewrite Ht in Hp'. apply (shown_queue ms sid b SELL p' Hb) in Hp'. destruct (H2 _ Hp') as [->|H]; [lia|]. unfold better in H. cbn in H. lia.
    + right. split; [|lia].
      intros p. rewrite Ht. destruct (shown b ASK p) eqn:Es; [|done]. exfalso. assert (shown b ASK p <> None) as Hn by congruence.
      apply (shown_queue ms sid b SELL p Hb) in Hn. by rewrite (best_none _ _ _ _ Hb E) in Hn.
  - change (b_bids b) with (get_side KBid b). destruct (s_best (get_side KBid b)) as [p|] eqn:E.
    + left. exists p. split; [|done]. destruct (best_some _ _ _ _ _ Hb E) as [H1 H2]. split.
      * cbn. rewrite Ht. by apply (shown_queue ms sid b BUY p Hb).
      * intros p' Hp'. cbn in Hp'. rewrite Ht in Hp'. apply (shown_queue ms sid b BUY p' Hb) in Hp'. destruct (H2 _ Hp') as [->|H]; [lia|]. unfold better in H. cbn in H. lia.
    + right. split; [|lia].
      intros p. rewrite Ht. destruct (shown b BID p) eqn:Es; [|done]. exfalso. assert (shown b BID p <> None) as Hn by congruence.
      apply (shown_queue ms sid b BUY p Hb) in Hn. by rewrite (best_none _ _ _ _ Hb E) in Hn.
Qed.
Lemma best_range ms sid b k p : map_ok ms -> book_ok ms sid b -> (k = KBid \/ k = KAsk) -> s_best (get_side k b) = Some p -> u64_range p.
Proof.
  intros Hm Hb Hk E. destruct (best_some _ _ _ _ _ Hb E) as [H1 _]. destruct (queue b k p) as [|i l] eqn:Eq; [done|].
  destruct (queue_facts sid (mkEng b ms []) k p i (conj Hm Hb)) as (o & Ho & _ & _ & Hko & Hpo & Hlo); [cbn; rewrite Eq; left|].
  rewrite <- Hpo. unfold okey. destruct (okind_bid_ask o (match k with KBid => SELL | _ => BUY end) (lo_type _ _ Hlo)) as (Ht & _); [destruct Hk as [-> | ->]; by rewrite Hko|].
  rewrite Ht. apply Hlo.
Qed.
Definition follows (o : order) (b : book) : Z := match o_side o with BUY => trailing_market_ask b | SELL => trailing_market_bid b end.
Lemma u64_small x : 0 <= x <= MAX64 -> u64 x = x.
Proof. intros H. unfold u64. apply Z.mod_small. unfold MAX64, TWO64 in *. lia. Qed.
Lemma calc_move o b : is_trailing o = true -> trailing_ok o -> u64_range (follows o b) -> (o_tdist o < 0 -> - o_tdist o * follows o b <= MAX64) ->
  calc_trailing o b <> o_stop o ->
  calc_trailing o b = trail_target o (follows o b) /\ trail_units (o_tstep o) (follows o b) <= Z.abs (calc_trailing o b - o_stop o).
Proof.
  intros Ht Hok Hm Hno Hne. specialize (Hok ltac:(unfold is_trailing, is_trailing_stop, is_trailing_stop_limit in Ht; destruct (o_type o); cbn in Ht; try done; auto)).
  unfold u64_range in Hm. revert Hm Hno Hne. unfold calc_trailing, trail_target, trail_units, trailing_abs. fold (follows o b). generalize (follows o b) as M. intros M Hm Hno.
  destruct Hok as [[Hd Hs]|[Hd Hs]].
  - rewrite (decide_False (P := o_tdist o < 0)) by lia. rewrite (decide_False (P := o_tstep o < 0)) by lia. assert (o_tdist o <? 0 = false) as -> by lia.
    assert (TWO63 < MAX64) as HT by (by vm_compute).
    rewrite (u64_small (MAX64 - o_tdist o)), (u64_small (o_tdist o)), (u64_small (o_tstep o)) by lia.
    destruct (o_side o).
    + destruct (M <? MAX64 - o_tdist o) eqn:E1; [rewrite (u64_small (M + _)) by lia|]; destruct (_ && _) eqn:E2; try (intros; done); intros _; apply andb_prop in E2 as [E2 E3]; split; lia.
    + destruct (o_tdist o <? M) eqn:E1; [rewrite (u64_small (M - _)) by lia|]; destruct (_ && _) eqn:E2; try (intros; done); intros _; apply andb_prop in E2 as [E2 E3]; split; lia.
  - rewrite (decide_True (P := o_tdist o < 0)) by lia. assert (o_tdist o <? 0 = true) as -> by lia. specialize (Hno ltac:(lia)).
    assert (Hu : (if decide (o_tstep o < 0) then - o_tstep o * M / 10000 else o_tstep o) = - o_tstep o * M / 10000).
    { case_decide; [done|]. assert (o_tstep o = 0) as -> by lia. by vm_compute. }
    rewrite Hu. rewrite (u64_small (- o_tdist o * M)), (u64_small (- o_tstep o * M)) by nia.
    assert (0 <= - o_tdist o * M / 10000 <= MAX64) as Hb1. { split; [apply Z.div_pos; nia|]. apply Z.div_le_upper_bound; nia. }
    assert (0 <= - o_tstep o * M / 10000 <= MAX64) as Hb2. { split; [apply Z.div_pos; nia|]. apply Z.div_le_upper_bound; nia. }
    revert Hb1 Hb2. generalize (- o_tdist o * M / 10000) as D. generalize (- o_tstep o * M / 10000) as S. intros S D HD HS.
    rewrite (u64_small (MAX64 - D)), (u64_small D), (u64_small S) by lia.
    destruct (o_side o).
    + destruct (M <? MAX64 - D) eqn:E1; [rewrite (u64_small (M + _)) by lia|]; destruct (_ && _) eqn:E2; try (intros; done); intros _; apply andb_prop in E2 as [E2 E3]; split; lia.
    + destruct (D <? M) eqn:E1; [rewrite (u64_small (M - _)) by lia|]; destruct (_ && _) eqn:E2; try (intros; done); intros _; apply andb_prop in E2 as [E2 E3]; split; lia.
Qed.
(** An update reported by the head action of a call changes neither type nor stop price. *)
Lemma head_update s1 a1 sid b hevs c0 pre2 x post2 d y : inv s1 -> get_book sid s1 = Some b -> hstep sid (eng_of b s1) a1 hevs c0 -> hevs = pre2 ++ EUpdateOrder x :: post2 ->
  listen_all (st_ords s1) pre2 = Some d -> d !! o_id x = Some y -> o_type x = o_type y /\ o_stop x = o_stop y.
Proof.
  intros Hinv1 Hb Hh E Hl2 Hy. assert (Hin : EUpdateOrder x ∈ hevs) by (rewrite E; set_solver). pose proof (inv_eng _ _ _ Hinv1 Hb) as He1.
    destruct Hh as [o0 o' Hsym Hval|i q0 o0 u e' q1 o' Q' Ho Hid Hsym Hq He' Hords Hlog Hpr Hp
    |mit i p0 q0 o0 u e' o' evs' Q' Ho Hid Hsym Hq He' Hords Hlog Hpr Hp
    |i ni p0 q0 o0 u e' o' Q' evs' Ho Hid Hsym Hq Hni Hty He' Hords Hlog Hpr Hp
    |i o0 u e' Q' evs' Ho Hid Hsym He' Hords Hlog Hpr Hp
    |a2 i price q0 o0 u e' q1 o' Q' evs' Ha Ho Hid Hsym Hq He' Hords Hlog Hpr Hp]; cbn in Ho || idtac.
    + set_solver.
    + destruct pre2 as [|y1 pre2]; cbn in E.
      * injection E as E _. apply red_upd in E as ->. cbn in Hl2. injection Hl2 as <-. cbn in Hy. rewrite Hid, Ho in Hy. injection Hy as <-. done.
      * exfalso. injection E as _ E. apply (lim_not_upd o0 sid u x). rewrite E. set_solver.
    + assert (x = o') as ->. { apply elem_of_app in Hin as [Hin|Hin]; [by destruct (lim_not_upd o0 sid u x)|]. destruct (0 <? _) in Hin; set_solver. }
      assert (pre2 = lim_evs o0 sid u) as ->.
      { unfold evs' in E. destruct (app_cons_split _ _ _ _ _ E) as [(b1 & E1 & _)|(a2 & -> & E1)].
        - destruct (lim_not_upd o0 sid u o'). rewrite E1. set_solver.
        - destruct (0 <? _) in E1; [|by destruct a2]. destruct a2 as [|? a2]; [by rewrite app_nil_r|]. by destruct a2. }
      rewrite listen_lim0 in Hl2. injection Hl2 as <-. assert (o_id o' = o_id o0) as Eid by (unfold o', modified; by destruct mit).
      rewrite Eid, Hid, Ho in Hy. injection Hy as <-. unfold o', modified. by destruct mit.
    + exfalso. apply elem_of_app in Hin as [Hin|Hin]; [by eapply lim_not_upd|]. set_solver.
    + exfalso. apply elem_of_app in Hin as [Hin|Hin]; [by eapply lim_not_upd|]. set_solver.
    + destruct pre2 as [|y1 pre2]; [done|]. cbn in E. injection E as <- E.
      assert (red_ev o' = EUpdateOrder x /\ pre2 = lim_evs o0 sid u) as [Ex ->].
      { destruct (app_cons_split _ _ _ _ _ E) as [(b1 & E1 & _)|(a1' & -> & E1)].
        - destruct (lim_not_upd o0 sid u x). rewrite E1. set_solver.
        - destruct a1' as [|? a1']; [injection E1 as E1 _; by rewrite app_nil_r|]. by destruct a1'. }
      apply red_upd in Ex as ->. rewrite (listen_step _ _ _ _ (listen_execute _ o0 price q1 ltac:(by rewrite Hid))), listen_lim0 in Hl2. injection Hl2 as <-.
      cbn in Hy. rewrite lookup_insert in Hy. injection Hy as <-. done.
Qed.
(** When the engine moves a trailing stop, the new stop price is at the trailing distance from the
    market price of the moment, the move is at least the trailing step and towards the market, and
    the limit price moves along.  Percentages are exact as long as distance times market price stays
    within 64 bits; beyond, the claim is false ([C20_percent_refuted]). *)
Theorem C20_move_partial s a s' er pre x post c g d y : reach s -> op_ok s a -> call s a s' er (pre ++ EUpdateOrder x :: post) ->
  mirrors c s -> (forall i, g !! i = get_order i s) -> listen_all g pre = Some d -> d !! o_id x = Some y ->
  trailing_kind (o_type y) = true -> trailing_kind (o_type x) = true -> o_stop x <> o_stop y ->
  exists m t market, hear_all c pre = Some m /\ m (o_sym y) = Some t /\
    trailing_market t (o_side y) (last_trade (opposite (o_side y)) (o_sym y) (st_log s ++ pre)) market /\
    no_looser y x /\
    x = set_price (match o_type y with TRAILING_STOP_LIMIT => (o_stop x + (o_price y - o_stop y)) mod 2 ^ 64 | _ => o_price y end) (set_stop (o_stop x) y) /\
    ((o_tdist y < 0 -> - o_tdist y * market <= MAX64) ->
       o_stop x = trail_target y market /\ trail_units (o_tstep y) market <= Z.abs (o_stop x - o_stop y)).
Proof.
  intros Hr Hop Hc Hm Hg Hl Hy Hky Hkx Hne. pose proof (reach_inv _ Hr) as Hinv.
  assert (g = st_ords s) as ->. { apply map_eq. intros i. by rewrite Hg, get_order_inv. }
  pose proof (call_price _ _ _ _ _ Hr Hop Hc) as Hprs. pose proof (reach_price _ Hr) as Hprs0.
  destruct (registry_op a) eqn:Hreg.
  { destruct (call_result _ _ _ _ _ Hr Hop Hc) as (_ & Hres & _). destruct Hc as [_ Hlog].
    destruct (result_registry _ _ _ _ Hres Hreg) as (_ & _ & evs' & Hl' & _ & He). rewrite Hlog in Hl'. apply app_inv_head in Hl'. subst evs'.
    destruct He as [E|(ev & E & Hev)]; [by destruct pre|]. destruct pre as [|e0 pre]; cbn in E; [injection E as <- _; done|injection E as _ E; by destruct pre]. }
  destruct (call_made s a s' er pre (EUpdateOrder x) post (wide True) Hr Hop Hreg Hc) as (s1 & w & l1 & pre1 & pre2 & post1 & Hs & Hinv1 & Hop1 & Hx & _ & Hmade & ->).
  { apply permits_wide. by left. }
  assert (El : st_ords (start_of s a) = st_ords s) by (by destruct a).
  apply listen_all_app in Hl as (d1 & Hl1 & Hl2). rewrite <- El in Hl1. pose proof (segs_heard _ _ _ _ _ _ Hs Hl1) as ->.
  destruct (segs_hears _ _ _ _ _ Hs c) as (m1 & Hm1 & Hmi1). { eapply mirrors_books; [|done]. intros i. by destruct a. }
  apply hears_all in Hm1.
  destruct Hmade as [a1 sid b hevs c0 post2 -> Hord Hb Htg Hh Hcf E|sid b h c0 c1 c2 pre3 a' b' Hb Hst Hc0 Hus Hc1 Hu ->].
  - exfalso. by destruct (head_update _ _ _ _ _ _ _ _ _ _ _ Hinv1 Hb Hh E Hl2 Hy).
  - rewrite app_assoc in Hl2. apply listen_all_app in Hl2 as (d1 & Hl2 & Hl3).
    pose proof (micro_heard _ _ _ _ _ _ _ _ _ _ Hinv1 Hb Hst Hc0 Hus Hl2) as Hcl.
    destruct (micro_hears _ _ _ _ _ _ _ _ _ _ Hinv1 Hb Hmi1 Hst Hc0 Hus) as (m & Hmm & Hk). destruct (knows_view _ _ _ _ Hk) as (t & Ht & Hv).
    destruct (ustep_updates _ _ _ _ _ _ _ Hu) as [(r & p & q & -> & -> & Hty)|[(-> & o & Hso & Hre & -> & Hwh)|(-> & Hk' & o & Ho & Hso & Hn & Ex & Htr & Hmv)]].
    + exfalso. unfold trailing_kind in Hkx. cbn in Hkx. by rewrite Hty in Hkx.
    + exfalso. clear -Hkx Hso. unfold converted, to_market, to_limit, stop_type in *. by destruct (o_type o) eqn:E; cbn in *; rewrite ?E in *; try destruct (is_fok _).
    + injection Hl3 as <-. rewrite app_nil_r in *. destruct c1 as [e1 f1]. cbn [fst snd] in *. subst f1. unfold client in Hcl. cbn in Hcl. subst d1.
      destruct (retrail_place (calc_trailing o (e_bk e1)) o Htr) as (E1 & E2 & E3 & E4 & E5 & E6). rewrite <- Ex in *. assert (y = o) as -> by (rewrite E1 in Hy; congruence).
      destruct Hc1 as [[Hmo Hbo] _]. cbn [fst] in *.
      assert (Hla : forall sd, last_of sd (e_bk e1) = last_trade sd sid (st_log s ++ pre1 ++ h ++ pre3)).
      { intros sd. unfold last_trade. rewrite note_app, note_app, note_app.
        pose proof (segs_keep _ _ _ _ _ Hs) as (_ & _ & Hkb). specialize (Hkb sid). rewrite Hb in Hkb. destruct (get_book sid (start_of s a)) as [b0|] eqn:Hb0; [|done].
        assert (Hb0' : get_book sid s = Some b0) by (by destruct a). pose proof (reach_lasts _ Hr sd sid b0 Hb0') as E0. unfold last_trade in E0. rewrite <- E0.
        rewrite <- (segs_last _ _ _ _ _ Hs sd sid b0 b Hb0 Hb).
        assert (last_of sd (e_bk (fst c0)) = fold_left (note_trade sd sid) h (last_of sd b)) as <-.
        { destruct Hst as [(_ & -> & ->)|(a2 & -> & _ & _ & Hh)]; [done|]. by rewrite (hstep_last sd _ _ _ _ _ Hh). }
        exact (usteps_last sd _ _ _ _ _ Hus Hc0). }
      assert (Hlr : forall sd, u64_range (last_of sd (e_bk e1))).
      { intros sd. rewrite Hla. apply last_range. apply Forall_app. split; [done|]. apply Forall_app in Hprs as [Hprs _]. exact Hprs. }
      assert (Hmr : u64_range (follows o (e_bk e1))).
      { unfold follows, trailing_market_ask, trailing_market_bid, best_ask_price, best_bid_price. pose proof (Hlr BUY) as R1. pose proof (Hlr SELL) as R2. cbn [last_of] in R1, R2.
        destruct (o_side o); [destruct (s_best (b_asks _)) as [p|] eqn:E|destruct (s_best (b_bids _)) as [p|] eqn:E]; unfold u64_range in *.
        - pose proof (best_range _ _ _ KAsk p Hmo Hbo (or_intror eq_refl) E) as R. unfold u64_range in R. lia. - lia.
        - pose proof (best_range _ _ _ KBid p Hmo Hbo (or_introl eq_refl) E) as R. unfold u64_range in R. lia. - lia. }
      exists m, t, (follows o (e_bk e1)). split; [by eapply hear_all_app|]. split; [by rewrite Hso|]. split.
      { rewrite Hso. rewrite <- Hla. apply (market_seen (e_ords e1) sid); [done|done|apply Hlr]. }
      split. { unfold no_looser. rewrite E5. apply calc_no_looser. }
      split. { rewrite E5. rewrite Ex. unfold retrail, is_trailing, is_trailing_stop, is_trailing_stop_limit in *. destruct o as [? ? ty]; destruct ty; cbn in *; try done. }
      intros Hno. rewrite E5. apply calc_move; try done. apply (mo_live _ Hmo _ _ Ho).
Qed.
Print Assumptions C20_move_partial.
(** A trailing stop that is added is first moved in the same way. *)
Theorem C20_added_partial s o s' er evs c : reach s -> op_ok s (AddOrder o) -> call s (AddOrder o) s' er evs -> mirrors c s ->
  trailing_kind (o_type o) = true -> er = OK ->
  exists x post t market, evs = EAddOrder x :: post /\ c (o_sym o) = Some t /\
    trailing_market t (o_side o) (last_trade (opposite (o_side o)) (o_sym o) (st_log s)) market /\ no_looser o x /\
    x = set_price (match o_type o with TRAILING_STOP_LIMIT => (o_stop x + (o_price o - o_stop o)) mod 2 ^ 64 | _ => o_price o end) (set_stop (o_stop x) o) /\
    ((o_tdist o < 0 -> - o_tdist o * market <= MAX64) ->
       o_stop x = o_stop o \/ o_stop x = trail_target o market /\ trail_units (o_tstep o) market <= Z.abs (o_stop x - o_stop o)).
Proof.
  intros Hr Hop Hc Hm Hk ->. pose proof (reach_inv _ Hr) as Hinv. rewrite trailing_kind_is in Hk.
  destruct (order_call_seg s _ s' OK evs Hr Hop eq_refl Hc) as [(_ & _ & Hn & _)|Hseg]; [done|].
  inversion Hseg as [a sid b hevs c0 uevs e2 Hoo Hb Htg Hh Hcf Hfr1 Hfr2 Hus|]; subst.
  inversion Hh as [o0 o' Hsym Hval| |mit| | |a2 i' price q0 o0 u e' q1 o' Q' evs' Ha]; subst; [|by destruct mit|by destruct Ha as [[? _]|?]].
  assert (Eo : o' = retrail (calc_trailing o b) o). { unfold o', placed. unfold is_trailing, is_trailing_stop, is_trailing_stop_limit in Hk. by destruct (o_type o). }
  destruct (retrail_place (calc_trailing o b) o Hk) as (E1 & E2 & E3 & E4 & E5 & E6).
  pose proof (inv_eng _ _ _ Hinv Hb) as [Hmo Hbo]. cbn [eng_of e_ords e_bk] in Hmo, Hbo.
  pose proof (Hm (o_sym o)) as Hmi. rewrite Hb in Hmi. destruct (c (o_sym o)) as [t|] eqn:Ht; [|done].
  assert (Hlr : forall sd, u64_range (last_of sd b)). { intros sd. rewrite (reach_lasts _ Hr sd _ _ Hb). apply last_range. by apply reach_price. }
  assert (Hmr : u64_range (follows o b)).
  { unfold follows, trailing_market_ask, trailing_market_bid, best_ask_price, best_bid_price. pose proof (Hlr BUY) as R1. pose proof (Hlr SELL) as R2. cbn [last_of] in R1, R2.
    destruct (o_side o); [destruct (s_best (b_asks _)) as [p|] eqn:E|destruct (s_best (b_bids _)) as [p|] eqn:E]; unfold u64_range in *.
    - pose proof (best_range _ _ _ KAsk p Hmo Hbo (or_intror eq_refl) E) as R. unfold u64_range in R. lia. - lia.
    - pose proof (best_range _ _ _ KBid p Hmo Hbo (or_introl eq_refl) E) as R. unfold u64_range in R. lia. - lia. }
  exists o', uevs, t, (follows o b). split; [done|]. split; [done|]. split.
  { rewrite <- (reach_lasts _ Hr _ _ _ Hb). apply (market_seen (st_ords s) (o_sym o)); [done|exact Hmi|apply Hlr]. }
  split. { unfold no_looser. rewrite Eo, E5. apply calc_no_looser. }
  split. { rewrite Eo, E5. clear -Hk. unfold retrail, is_trailing, is_trailing_stop, is_trailing_stop_limit in *. destruct o as [? ? ty]; destruct ty; cbn in *; try done. }
  intros Hno. rewrite Eo, E5. destruct (decide (calc_trailing o b = o_stop o)); [by left|]. right. apply calc_move; try done.
  destruct Hcf as [_ Hfl]. cbn in Hfl. pose proof (fl_trail _ _ _ Hfl) as Htk. rewrite Eo in Htk. intros HT. specialize (Htk ltac:(by rewrite E3)).
  assert (o_tdist (retrail (calc_trailing o b) o) = o_tdist o /\ o_tstep (retrail (calc_trailing o b) o) = o_tstep o) as [T1 T2]. { clear. unfold retrail. by destruct (o_type o). }
  by rewrite T1, T2 in Htk.
Qed.
Print Assumptions C20_added_partial.

(** A bid of 10 at 200 and a trailing sell stop at 150 with distance 20 and step 5; a sale at 200 moves
    it to 180. *)
Definition ex_trail : list op := setup ++ [EnableMatching; BL 1 200 10; AddOrder (TrailingStopOrder 2 0 SELL 150 3 20 5 GTC MAX64);
  AddOrder (TrailingStopLimitOrder 4 0 SELL 120 110 3 (-500) (-10) GTC MAX64)].
Definition moves (evs : list event) : list (Z * otype * Z * Z) :=
  omap (fun ev => match ev with EUpdateOrder x => if trailing_kind (o_type x) then Some (o_id x, o_type x, o_stop x, o_price x) else None | _ => None end) evs.
Example C19_C20_example : meets ex_trail (SL 3 200 4) OK /\ moves (news (hist ex_trail) (SL 3 200 4)) = [(2, TRAILING_STOP, 180, 0); (4, TRAILING_STOP_LIMIT, 190, 180)] /\
  exists o o', get_order 4 (hist ex_trail) = Some o /\ get_order 4 (after (hist ex_trail) (SL 3 200 4)) = Some o' /\ o_stop o = 120 /\ o_stop o' = 190.
Proof. split; [meet|]. split; [vm_compute; reflexivity|]. eexists _, _. split; [vm_compute; reflexivity|]. split; [vm_compute; reflexivity|]. split; reflexivity. Qed.
Example C20_added_example : meets (ex_trail ++ [SL 3 200 4]) (AddOrder (TrailingStopOrder 5 0 SELL 150 3 (-1000) (-1) GTC MAX64)) OK /\
  exists x, get_order 5 (after (hist (ex_trail ++ [SL 3 200 4])) (AddOrder (TrailingStopOrder 5 0 SELL 150 3 (-1000) (-1) GTC MAX64))) = Some x /\ o_stop x = 180.
Proof. split; [meet|]. eexists. split; [vm_compute; reflexivity|reflexivity]. Qed.
(** Percentages wrap: with all prices at [P] and a distance of 10%, the stop is moved to [P] itself
    (distance zero), and the next call, a sale offer far from the market, triggers it. *)
Definition P : Z := 18446744073709552.
Definition ex_percent : list op := setup ++ [EnableMatching; BL 1 P 10; AddOrder (TrailingStopOrder 2 0 SELL 1 3 (-1000) 0 GTC MAX64)].
Theorem C20_percent_refuted : exists y, meets ex_percent (SL 3 P 4) OK /\ get_order 2 (hist ex_percent) = Some y /\ o_tdist y = -1000 /\
  moves (news (hist ex_percent) (SL 3 P 4)) = [(2, TRAILING_STOP, P, 0)] /\ trail_target y P = P - P / 10 /\
  exists s, history init (ex_percent ++ [SL 3 P 4; SL 6 (P + 5) 1]) = Some s /\ get_order 2 s = None.
Proof.
  eexists. split; [meet|]. split; [vm_compute; reflexivity|]. split; [reflexivity|]. split; [vm_compute; reflexivity|]. split; [vm_compute; reflexivity|].
  eexists. split; vm_compute; reflexivity.
Qed.
Print Assumptions C20_percent_refuted.
