(** * PropsMarket.v -- market orders: C33. *)
From Coq Require Import ZifyBool.
From stdpp Require Import fin_maps relations.
From Verif Require Import Types Book Engine Manager Factory Validate LevelFacts BookInv EngInv EngPrim Steps StepsOk Refine3 Refine4 Api StateInv Micro Reach Calls Witness PropsState PropsSettle CallFacts Trades PropsFill PropsMirror PropsMirror2 Split PropsStops PropsPriority PropsDirect PropsReject PropsTrail Spec Spec2 Spec3 Spec4 Spec5 Spec6.

Definition quiet (i : Z) (l : list event) : Prop := forall ev z, ev ∈ l -> arrival ev z -> o_id z <> i.
Lemma quiet_app i a b : quiet i (a ++ b) <-> quiet i a /\ quiet i b.
Proof.
  unfold quiet. split.
  - intros H. split; intros ev z Hin; apply H; set_solver.
  - intros [H1 H2] ev z Hin. apply elem_of_app in Hin as [Hin|Hin]; eauto.
Qed.
(** While the order [x], which arrived when the best opposite price was [B], is in flight. *)
Definition slipping (R : Prop) (x : order) (B : option Z) (c : cfg) : Prop :=
  forall f, snd c = Some f -> o_id f = o_id x -> o_type f = MARKET ->
    R /\ o_side f = o_side x /\ o_slip f = o_slip x /\ is_fok f = false /\ is_aon f = false /\
    (forall z, announced (fst c) z -> o_id z = o_id x -> best (opp (o_side x)) (fst c) = B) /\
    ((f = x /\ announced (fst c) x) \/ exists b, B = Some b /\ o_price f = market_price x b).
Lemma market_price_same f x b : o_side f = o_side x -> o_slip f = o_slip x -> market_price f b = market_price x b.
Proof. unfold market_price. by intros -> ->. Qed.
Lemma exec_unannounced e e' r p q y sid u : e_log e' = e_log e ++ EExecute r p q :: y :: lev_evs sid u -> forall x, ~ announced e' x.
Proof.
  unfold lev_evs. intros Hlog x [l [H|H]]; rewrite Hlog in H; change (EExecute r p q :: ?y :: [?a; ?b]) with ([EExecute r p q; y; a] ++ [b]) in H;
    rewrite app_assoc in H; apply app_inj_tail in H as [_ H]; done.
Qed.
Lemma execd_unannounced e e' r p q y sid u : e_log e' = e_log e ++ EExecute r p q :: lev_evs sid u ++ [EDeleteOrder y] -> forall x, ~ announced e' x.
Proof. intros Hlog x [l [H|H]]; rewrite Hlog, app_comm_cons, app_assoc in H; apply app_inj_tail in H as [_ H]; done. Qed.
Lemma ustep_slipping sid A R x B c evs c' : cfg_ok sid c -> ustep sid A c evs c' -> quiet (o_id x) evs -> slipping R x B c -> slipping R x B c'.
Proof.
  intros Hc Hu Hqt HJ f' Ef' Hid Hmk.
  destruct Hu as [e f r p q u e' Q' Hr Hs Ht Hq0 Hx He' Hords Hlog Hpr Hp|e f r p u e' Q' Hr Hs Ht Hx He' Hords Hlog Hpr Hp|e o p q Hq0 Hw Hfa Hst Hna Hpo|e o p Hty Hb Hann|e o Hty Hre Htlv|e o u e' Hfr Hlv Hty Htif He' Hords Hlog Hpr Hp Hset|e o Hmv|e o u e' Ho Hs Hty Hre He' Hords Hlog Hpr Hp|e o u1 b1 u2 e' o' Ho Hs Htr Hne He' Hords Hlog Hpr Hp1 Hp2|e s|e]; cbn [fst snd] in *; try done.
  - subst f. destruct (HJ f' eq_refl Hid Hmk) as (HR & H1 & H2 & H3 & H4 & H5 & H6). pose proof (exec_unannounced _ _ _ _ _ _ _ _ Hlog) as Hn.
    split; [done|]. repeat (split; [done|]). split; [intros z Hz; by destruct (Hn z)|]. right.
    destruct H6 as [[-> Ha]|H6]; [|done]. inversion Hx as [o lvl E _ _ _ _ _ _ _ _ _ Hpri|o lvl E _ _ [Hf|Hf]|E|k lvl E]; try done; injection E as <-; try congruence.
    destruct (Hpri Hmk) as (b & Eb & Hb). exists b. split; [|done]. cbn [fst] in *. rewrite <- (H5 x Ha eq_refl). by apply (Hb x Ha).
  - subst f. destruct (HJ f' eq_refl Hid Hmk) as (HR & H1 & H2 & H3 & H4 & H5 & H6). pose proof (execd_unannounced _ _ _ _ _ _ _ _ Hlog) as Hn.
    split; [done|]. repeat (split; [done|]). split; [intros z Hz; by destruct (Hn z)|]. right.
    destruct H6 as [[-> Ha]|H6]; [|done]. inversion Hx as [o lvl E _ _ _ _ _ _ _ _ _ Hpri|o lvl E _ _ [Hf|Hf]|E|k lvl E]; try done; injection E as <-; try congruence.
    destruct (Hpri Hmk) as (b & Eb & Hb). exists b. split; [|done]. cbn [fst] in *. rewrite <- (H5 x Ha eq_refl). by apply (Hb x Ha).
  - injection Ef' as <-. cbn in Hid, Hmk. destruct (HJ o eq_refl Hid Hmk) as (HR & H1 & H2 & H3 & H4 & H5 & H6).
    split; [done|]. repeat (split; [done|]). split.
    { intros z [l [H|H]]; cbn in H; apply app_inj_tail in H as [_ H]; done. }
    right. destruct H6 as [[-> Ha]|H6]; [by destruct (Hna x)|done].
  - injection Ef' as <-. cbn in Hid, Hmk. destruct (HJ o eq_refl Hid Hmk) as (HR & H1 & H2 & H3 & H4 & H5 & H6).
    split; [done|]. repeat (split; [done|]). right. exists p. cbn. split; [|by apply market_price_same]. rewrite <- (H5 o Hann Hid), <- H1. done.
  - injection Ef' as <-. exfalso. refine (Hqt _ (converted o) _ (or_intror eq_refl) _); [set_solver|done].
  - injection Ef' as <-. exfalso. refine (Hqt _ (converted o) _ (or_intror eq_refl) _); [set_solver|done].
Qed.
Lemma usteps_slipping sid A R x B c evs c' : usteps sid A c evs c' -> cfg_ok sid c -> quiet (o_id x) evs -> slipping R x B c -> slipping R x B c'.
Proof.
  revert c evs c'. apply (usteps_ind_ok sid A (fun c evs c' => quiet (o_id x) evs -> slipping R x B c -> slipping R x B c')); [done|].
  intros c evs c1 evs' c' Hc Hu _ IH [Hq1 Hq2]%quiet_app HJ. apply IH; [done|]. by eapply ustep_slipping.
Qed.
Lemma usteps_market sid A R x B c c' mid y p q post : usteps sid A c (mid ++ EExecute y p q :: post) c' -> cfg_ok sid c -> quiet (o_id x) mid -> slipping R x B c ->
  o_id y = o_id x -> o_type y = MARKET -> R /\ exists b, B = Some b /\ within_slippage x b p.
Proof.
  intros Hu Hc Hq HJ Hid Hmk. destruct (usteps_split _ _ _ _ _ Hu Hc _ _ _ eq_refl) as (c1 & c2 & pre1 & a & b & post2 & H1 & Hc1 & H3 & _ & _ & E1 & _).
  destruct (ustep_execs _ _ _ _ _ _ _ _ _ Hc1 H3) as [-> [(e & f & _ & _ & _ & Hty & _)|(Hf & Hw & _ & Hna & _)]]; [congruence|].
  rewrite app_nil_r in E1. subst pre1.
  destruct (usteps_slipping _ _ _ _ _ _ _ _ H1 Hc Hq HJ y Hf Hid Hmk) as (HR & K1 & K2 & K3 & K4 & K5 & K6). split; [done|].
  destruct K6 as [[-> Ha]|(b0 & -> & Ep)]; [by destruct (Hna x)|]. exists b0. split; [done|].
  unfold within_limit in Hw. unfold within_slippage. rewrite Ep, K1 in Hw. unfold market_price in Hw. destruct (o_side x).
  - destruct (_ <? _) eqn:E; lia. - destruct (_ <? _) eqn:E; lia.
Qed.
Lemma live_not_market s o : live_ok s o -> o_type o <> MARKET.
Proof. intros H. apply (lo_type _ _ H). Qed.
Lemma lev_not_add sid u o : EAddOrder o ∉ lev_evs sid u.
Proof. unfold lev_evs, lev_ev. destruct (u_type u); set_solver. Qed.
Lemma lim_not_add x sid u o : EAddOrder o ∉ lim_evs x sid u.
Proof. unfold lim_evs. destruct (is_limit x); [apply lev_not_add|set_solver]. Qed.
(** A head action: an order in flight after it was announced or is not a market order. *)
Lemma hstep_slipping sid e a evs c x B : eng_ok sid e -> hstep sid e a evs c -> quiet (o_id x) evs -> slipping False x B c.
Proof.
  intros He Hh Hq f Ef Hid Hmk. exfalso.
  destruct Hh as [o0 o' Hsym Hval|i q0 o0 u e' q1 o' Q' Ho Hid' Hsym Hq' He' Hords Hlog Hpr Hp|mit i p0 q0 o0 u e' o' evs' Q' Ho Hid' Hsym Hq' He' Hords Hlog Hpr Hp|i ni p0 q0 o0 u e' o' Q' evs' Ho Hid' Hsym Hq' Hni Hty He' Hords Hlog Hpr Hp|i o0 u e' Q' evs' Ho Hid' Hsym He' Hords Hlog Hpr Hp|a2 i price q0 o0 u e' q1 o' Q' evs' Ha Ho Hid' Hsym Hq' He' Hords Hlog Hpr Hp]; cbn [fst snd] in *; try done; injection Ef as <-.
  - refine (Hq _ o' _ (or_introl eq_refl) Hid). set_solver.
  - apply (lo_type _ _ (mo_live _ (proj1 He) _ _ Ho)). rewrite <- Hmk. unfold o', modified. by destruct mit.
  - refine (Hq _ o' _ (or_introl eq_refl) Hid). unfold evs'. set_solver.
Qed.
Lemma hstep_exec_market sid e a evs c y p q : eng_ok sid e -> hstep sid e a evs c -> EExecute y p q ∈ evs -> o_type y <> MARKET.
Proof.
  intros He Hh Hin. destruct Hh as [o0 o' Hsym Hval|i q0 o0 u e' q1 o' Q' Ho Hid' Hsym Hq' He' Hords Hlog Hpr Hp|mit i p0 q0 o0 u e' o' evs' Q' Ho Hid' Hsym Hq' He' Hords Hlog Hpr Hp|i ni p0 q0 o0 u e' o' Q' evs' Ho Hid' Hsym Hq' Hni Hty He' Hords Hlog Hpr Hp|i o0 u e' Q' evs' Ho Hid' Hsym He' Hords Hlog Hpr Hp|a2 i price q0 o0 u e' q1 o' Q' evs' Ha Ho Hid' Hsym Hq' He' Hords Hlog Hpr Hp].
  - set_solver.
  - exfalso. apply elem_of_cons in Hin as [Hin|Hin]; [by eapply red_not_exec|by eapply lim_not_exec].
  - exfalso. apply elem_of_app in Hin as [Hin|Hin]; [by eapply lim_not_exec|]. destruct (0 <? _); set_solver.
  - exfalso. apply elem_of_app in Hin as [Hin|Hin]; [by eapply lim_not_exec|]. set_solver.
  - exfalso. apply elem_of_app in Hin as [Hin|Hin]; [by eapply lim_not_exec|]. set_solver.
  - apply elem_of_cons in Hin as [Hin|Hin].
    + injection Hin as -> -> ->. apply (lo_type _ _ (mo_live _ (proj1 He) _ _ Ho)).
    + exfalso. apply elem_of_app in Hin as [Hin|Hin]; [by eapply lim_not_exec|]. apply elem_of_list_singleton in Hin. by eapply red_not_exec.
Qed.
(** Within one part of a call, a market order trades only after it was announced in that part. *)
Lemma seg_market A s x a y p q b s' : inv s -> seg A s x (a ++ EExecute y p q :: b) s' -> quiet (o_id y) a -> o_type y <> MARKET.
Proof.
  intros Hinv Hseg Hq Hmk. inversion Hseg as [a0 sid b0 hevs c uevs e' Hord Hb Htg Hh Hc Hfr Hfr' Hu Ex Ee|sid b0 uevs e' Hb Hfr' Hu]; subst.
  - destruct (app_cons_split _ _ _ _ _ Ee) as [(post1 & -> & Ep)|(pre1 & -> & ->)].
    + refine (hstep_exec_market _ _ _ _ _ y p q (inv_eng _ _ _ Hinv Hb) Hh _ Hmk). set_solver.
    + apply quiet_app in Hq as [Hq1 Hq2]. pose proof (hstep_slipping _ _ _ _ _ y None (inv_eng _ _ _ Hinv Hb) Hh Hq1) as HJ.
      by destruct (usteps_market _ _ _ y None _ _ _ _ _ _ _ Hu Hc Hq2 HJ eq_refl Hmk) as [[] _].
  - assert (HJ : slipping False y None (eng_of b0 s, None)) by (intros f [=]).
    by destruct (usteps_market _ _ _ y None _ _ _ _ _ _ _ Hu (conj (inv_eng _ _ _ Hinv Hb) I) Hq HJ eq_refl Hmk) as [[] _].
Qed.
(** From the arrival of [x] to its execution. *)
Lemma tail_market sid A x B c evs c' s2 l evs2 s3 mid y p q post : usteps sid A c evs c' -> cfg_ok sid c -> slipping True x B c -> segs A s2 l evs2 s3 ->
  evs ++ evs2 = mid ++ EExecute y p q :: post -> quiet (o_id x) mid -> o_id y = o_id x -> o_type y = MARKET -> exists b, B = Some b /\ within_slippage x b p.
Proof.
  intros Hu Hc HJ Hs E Hq Hid Hmk. destruct (app_cons_split _ _ _ _ _ E) as [(b & -> & ->)|(a & -> & E2)].
  - by destruct (usteps_market _ _ _ x B _ _ _ _ _ _ _ Hu Hc Hq HJ Hid Hmk).
  - exfalso. apply quiet_app in Hq as [_ Hq]. destruct (segs_split _ _ _ _ _ Hs _ _ _ E2) as (s4 & w & s5 & l1 & l2 & pre1 & a' & b & post2 & _ & Hinv & _ & Hseg & _ & _ & _ & -> & _).
    apply quiet_app in Hq as [_ Hq]. rewrite <- Hid in Hq. by apply (seg_market _ _ _ _ _ _ _ _ _ Hinv Hseg Hq).
Qed.
Lemma ustep_arrival sid A c a ev x b c' : ustep sid A c (a ++ ev :: b) c' -> arrival ev x -> o_type x = MARKET ->
  a = [] /\ b = [] /\ snd c' = Some x /\ announced (fst c') x /\ is_aon x = false /\ forall s, best (opp s) (fst c') = best (opp s) (fst c).
Proof.
  intros Hu Ha Hmk. assert (Hex : exists evs, evs = a ++ ev :: b) by eauto. destruct Hex as [evs E]. rewrite <- E in Hu.
  assert (Hin : ev ∈ evs) by (rewrite E; set_solver).
  assert (Hc : forall o, stop_type o = true -> o_type (converted o) = MARKET -> is_aon (converted o) = false).
  { intros o Hs Hm. unfold stop_type, is_limit, is_market in Hs. unfold converted, to_market, to_limit in *. destruct (o_type o) eqn:Et; cbn in Hm, Hs; try done; unfold is_aon; cbn; by destruct (is_fok _). }
  destruct Hu as [e f r p q u e' Q' Hr Hs Ht Hq0 Hx He' Hords Hlog Hpr Hp|e f r p u e' Q' Hr Hs Ht Hx He' Hords Hlog Hpr Hp|e o p q Hq0 Hw Hfa Hst Hna Hpo|e o p Hty Hb Hann|e o Hty Hre Htlv|e o u e' Hfr Hlv Hty Htif He' Hords Hlog Hpr Hp Hset|e o Hmv|e o u e' Ho Hs Hty Hre He' Hords Hlog Hpr Hp|e o u1 b1 u2 e' o' Ho Hs Htr Hne He' Hords Hlog Hpr Hp1 Hp2|e s|e]; cbn [fst snd] in *; try (by exfalso; set_solver).
  - exfalso. apply elem_of_cons in Hin as [->|Hin]; [by destruct Ha|]. apply elem_of_cons in Hin as [->|Hin].
    + destruct Ha as [Ha|Ha]; [unfold red_ev in Ha; by destruct (_ =? 0)|]. apply red_upd in Ha as ->. cbn in Hmk. congruence.
    + destruct Ha as [-> | ->]; [by eapply lev_not_add|by eapply lev_not_upd].
  - exfalso. apply elem_of_cons in Hin as [->|Hin]; [by destruct Ha|]. apply elem_of_app in Hin as [Hin|Hin].
    + destruct Ha as [-> | ->]; [by eapply lev_not_add|by eapply lev_not_upd].
    + apply elem_of_list_singleton in Hin as ->. by destruct Ha.
  - exfalso. apply elem_of_list_singleton in Hin as ->. by destruct Ha.
  - destruct a as [|y a]; [|by destruct a]. injection E as <- <-. destruct Ha as [Ha|Ha]; [done|]. injection Ha as <-. repeat (split; [done|]).
    split; [exists (e_log e); by right|]. split; [by apply Hc|done].
  - exfalso. destruct Ha as [-> | ->]; [by eapply lim_not_add|by eapply lim_not_upd].
  - exfalso. apply elem_of_list_singleton in Hin as ->. by destruct Ha.
  - destruct a as [|y a]; [|by destruct a]. injection E as <- <-. destruct Ha as [Ha|Ha]; [done|]. injection Ha as <-. repeat (split; [done|]).
    split; [exists (e_log e); right; done|]. split; [by apply Hc|]. intros s. unfold best. f_equal. apply (pr_sides _ _ _ _ _ _ _ Hp).
    intros E. unfold opp, okind in E. unfold stop_type, is_limit, is_market in Hty. destruct s, (o_type o), (o_side o); done.
  - exfalso. apply elem_of_list_singleton in Hin as ->. destruct Ha as [Ha|Ha]; [done|]. injection Ha as <-. unfold o' in Hmk. destruct (retrail_place (calc_trailing o (e_bk e)) o Htr) as (_ & _ & E3 & _).
    unfold is_trailing, is_trailing_stop, is_trailing_stop_limit in Htr. rewrite E3 in Hmk. by rewrite Hmk in Htr.
Qed.
Lemma best_seen ms sid b t sd p : book_ok ms sid b -> (forall ty p, t ty p = shown b ty p) -> s_best (get_side (opp sd) b) = Some p ->
  best_price_in t (opposite sd) p.
Proof.
  intros Hb Ht E. destruct (best_some _ _ _ _ _ Hb E) as [H1 H2]. destruct sd; cbn [opp opposite] in *.
  - split.
    + cbn. rewrite Ht. by apply (shown_queue ms sid b SELL p Hb).
    + intros p' Hp'. cbn in Hp'. rewrite Ht in Hp'. apply (shown_queue ms sid b SELL p' Hb) in Hp'. destruct (H2 _ Hp') as [->|H]; [lia|]. unfold better in H. cbn in H. lia.
  - split.
    + cbn. rewrite Ht. by apply (shown_queue ms sid b BUY p Hb).
    + intros p' Hp'. cbn in Hp'. rewrite Ht in Hp'. apply (shown_queue ms sid b BUY p' Hb) in Hp'. destruct (H2 _ Hp') as [->|H]; [lia|]. unfold better in H. cbn in H. lia.
Qed.
Lemma valid_market o : validate o = OK -> o_type o = MARKET -> is_aon o = false.
Proof.
  unfold validate, is_market, is_aon, is_ioc, is_fok. intros Hv Ht. rewrite Ht in Hv.
  destruct (o_tif o); try done. exfalso. destruct (o_id o =? 0); [done|]. destruct (o_qty o <? o_leaves o); [done|]. by destruct (o_leaves o =? 0).
Qed.
Lemma placed_market o b : o_type (placed o b) = MARKET -> placed o b = o.
Proof. unfold placed, retrail. destruct (o_type o) eqn:E; cbn; rewrite ?E; done. Qed.
(** A market order that is not Fill-Or-Kill -- added as such or a triggered stop -- trades only at
    prices within its slippage of the best opposite price at its arrival. *)
Theorem C33_slippage s a s' er pre ev mid y p q post c x : reach s -> op_ok s a -> call s a s' er (pre ++ ev :: mid ++ EExecute y p q :: post) ->
  mirrors c s -> arrival ev x -> o_type x = MARKET -> o_tif x <> FOK ->
  (forall ev' z, ev' ∈ mid -> arrival ev' z -> o_id z <> o_id x) -> o_id y = o_id x -> o_type y = MARKET ->
  exists m t b, hear_all c pre = Some m /\ m (o_sym x) = Some t /\ best_price_in t (opposite (o_side x)) b /\ within_slippage x b p.
Proof.
  intros Hr Hop Hc Hm Hev Hmx Hfok Hq Hid Hmk. change (quiet (o_id x) mid) in Hq. pose proof (reach_inv _ Hr) as Hinv.
  assert (Hfk : is_fok x = false) by (unfold is_fok; by rewrite bool_decide_eq_false_2).
  destruct (registry_op a) eqn:Hreg.
  { exfalso. destruct (call_result _ _ _ _ _ Hr Hop Hc) as (_ & Hres & _). destruct Hc as [_ Hlog].
    destruct (result_registry _ _ _ _ Hres Hreg) as (_ & _ & evs' & Hl' & _ & He). rewrite Hlog in Hl'. apply app_inv_head in Hl'. subst evs'.
    destruct He as [E|(ev1 & E & Hev1)]; [by destruct pre|]. destruct pre as [|e0 pre]; cbn in E; [injection E as E _; subst; by destruct Hev; subst|injection E as _ E; by destruct pre]. }
  destruct (call_segs s a s' er _ Hr Hop Hc Hreg) as (l & Hs & _).
  destruct (segs_split _ _ _ _ _ Hs _ _ _ eq_refl) as (s1 & w & s2 & l1 & l2 & pre1 & a' & b' & post2 & Hs1 & Hinv1 & Hop1 & Hseg & Hinv2 & Hs2 & _ & -> & Epost).
  destruct (segs_hears _ _ _ _ _ Hs1 c) as (m1 & Hm1 & Hmi1). { eapply mirrors_books; [|done]. intros i. by destruct a. }
  apply hears_all in Hm1.
  inversion Hseg as [a1 sid b hevs c0 uevs e' Hord Hb Htg Hh Hc0 Hfr Hfr' Hu Ex Ee|sid b uevs e' Hb Hfr' Hu]; subst.
  2: { destruct (usteps_split _ _ _ _ _ Hu (conj (inv_eng _ _ _ Hinv1 Hb) I) _ _ _ eq_refl) as (c1 & c2 & pre2 & a2 & b2 & post3 & H1 & Hc1 & H3 & Hc2 & H5 & -> & ->).
    destruct (ustep_arrival _ _ _ _ _ _ _ _ H3 Hev Hmx) as (-> & -> & E2 & Han & Hax & Hbest). rewrite app_nil_r in *. cbn [app] in *.
    destruct (micro_hears (wide True) s1 None sid b [] _ c1 pre2 m1 Hinv1 Hb Hmi1 (or_introl (conj eq_refl (conj eq_refl eq_refl))) (conj (inv_eng _ _ _ Hinv1 Hb) I) H1) as (m & Hmm & Hk).
    destruct (knows_view _ _ _ _ Hk) as (t & Ht & Hv).
    destruct (tail_market sid (wide True) x (best (opp (o_side x)) (fst c1)) c2 post3 (e', None) (put_eng sid e' s1) l2 post2 s' mid y p q post) as (bp & Ebp & Hw); try done.
    { intros f Ef _ _. rewrite E2 in Ef. injection Ef as <-. repeat (split; [done|]). by left. }
    assert (o_sym x = sid) as Hsx. { destruct Hc2 as [_ Hf2]. rewrite E2 in Hf2. apply Hf2. }
    exists m, t, bp. split; [by eapply hear_all_app|]. split; [by rewrite Hsx|]. split; [|done]. eapply (best_seen _ sid); [exact (proj2 (proj1 Hc1))|done|done]. }
  destruct (app_cons_split _ _ _ _ _ Ee) as [(post1 & -> & ->)|(pre2 & -> & ->)].
  - (* added by the call *)
    assert (a' = [] /\ post1 = [] /\ o_sym x = sid /\ c0 = (emit (EAddOrder x) (eng_of b s1), Some x) /\ is_aon x = false) as (-> & -> & Hsx & -> & Hax).
    { pose proof (inv_eng _ _ _ Hinv1 Hb) as He1. remember (a' ++ ev :: post1) as hevs eqn:Eh. assert (Hin : ev ∈ hevs) by (rewrite Eh; set_solver).
      destruct Hh as [o0 o' Hsym Hval|i q0 o0 u e1 q1 o' Q' Ho Hid' Hsym Hq' He' Hords Hlog Hpr Hp|mit i p0 q0 o0 u e1 o' evs' Q' Ho Hid' Hsym Hq' He' Hords Hlog Hpr Hp|i ni p0 q0 o0 u e1 o' Q' evs' Ho Hid' Hsym Hq' Hni Hty He' Hords Hlog Hpr Hp|i o0 u e1 Q' evs' Ho Hid' Hsym He' Hords Hlog Hpr Hp|a2 i price q0 o0 u e1 q1 o' Q' evs' Ha Ho Hid' Hsym Hq' He' Hords Hlog Hpr Hp].
      + destruct a' as [|? a']; [|by destruct a']. injection Eh as <- <-. destruct Hev as [Hev|Hev]; [|done]. injection Hev as <-.
        assert (o' = o0) as E by (by apply placed_market). rewrite E in *. repeat (split; [done|]). by apply valid_market.
      + exfalso. pose proof (lo_type _ _ (mo_live _ (proj1 He1) _ _ Ho)) as Hn. apply elem_of_cons in Hin as [->|Hin].
        * destruct Hev as [Hev|Hev]; [unfold red_ev in Hev; by destruct (_ =? 0)|]. apply red_upd in Hev as ->. by cbn in Hmx.
        * destruct Hev as [-> | ->]; [by eapply lim_not_add|by eapply lim_not_upd].
      + exfalso. pose proof (lo_type _ _ (mo_live _ (proj1 He1) _ _ Ho)) as Hn. apply elem_of_app in Hin as [Hin|Hin].
        * destruct Hev as [-> | ->]; [by eapply lim_not_add|by eapply lim_not_upd].
        * destruct (0 <? _) in Hin; [|set_solver]. apply elem_of_list_singleton in Hin as ->. destruct Hev as [?|Hev]; [done|]. injection Hev as <-. apply Hn. rewrite <- Hmx. unfold o', modified. by destruct mit.
      + exfalso. apply elem_of_app in Hin as [Hin|Hin].
        * destruct Hev as [-> | ->]; [by eapply lim_not_add|by eapply lim_not_upd].
        * apply elem_of_cons in Hin as [->|Hin]; [by destruct Hev|]. apply elem_of_list_singleton in Hin as ->. destruct Hev as [Hev|?]; [|done]. injection Hev as <-. unfold o', replaced in Hmx. cbn in Hmx. congruence.
      + exfalso. apply elem_of_app in Hin as [Hin|Hin].
        * destruct Hev as [-> | ->]; [by eapply lim_not_add|by eapply lim_not_upd].
        * apply elem_of_list_singleton in Hin as ->. by destruct Hev.
      + exfalso. pose proof (lo_type _ _ (mo_live _ (proj1 He1) _ _ Ho)) as Hn. apply elem_of_cons in Hin as [->|Hin]; [by destruct Hev|]. apply elem_of_app in Hin as [Hin|Hin].
        * destruct Hev as [-> | ->]; [by eapply lim_not_add|by eapply lim_not_upd].
        * apply elem_of_list_singleton in Hin as ->. destruct Hev as [Hev|Hev]; [unfold red_ev in Hev; by destruct (_ =? 0)|]. apply red_upd in Hev as ->. by cbn in Hmx. }
    rewrite app_nil_r in *. cbn [app] in *. pose proof (Hmi1 sid) as Ht. rewrite Hb in Ht. destruct (m1 sid) as [t|] eqn:Et; [|done].
    destruct (tail_market sid (wide True) x (best (opp (o_side x)) (eng_of b s1)) (emit (EAddOrder x) (eng_of b s1), Some x) uevs (e', None) (put_eng sid e' s1) l2 post2 s' mid y p q post) as (bp & Ebp & Hw); try done.
    { intros f Ef _ _. injection Ef as <-. repeat (split; [done|]). left. split; [done|]. exists (st_log s1). by left. }
    exists m1, t, bp. split; [done|]. split; [by rewrite Hsx|]. split; [|done]. eapply (best_seen _ sid); [exact (proj2 (inv_eng _ _ _ Hinv1 Hb))|exact Ht|exact Ebp].
  - destruct (usteps_split _ _ _ _ _ Hu Hc0 _ _ _ eq_refl) as (c1 & c2 & pre3 & a2 & b2 & post3 & H1 & Hc1 & H3 & Hc2 & H5 & -> & ->).
    destruct (ustep_arrival _ _ _ _ _ _ _ _ H3 Hev Hmx) as (-> & -> & E2 & Han & Hax & Hbest). rewrite app_nil_r in *. cbn [app] in *.
    destruct (micro_hears (wide True) s1 (Some a1) sid b hevs c0 c1 pre3 m1 Hinv1 Hb Hmi1) as (m & Hmm & Hk); try done. { right. by exists a1. }
    destruct (knows_view _ _ _ _ Hk) as (t & Ht & Hv).
    destruct (tail_market sid (wide True) x (best (opp (o_side x)) (fst c1)) c2 post3 (e', None) (put_eng sid e' s1) l2 post2 s' mid y p q post) as (bp & Ebp & Hw); try done.
    { intros f Ef _ _. rewrite E2 in Ef. injection Ef as <-. repeat (split; [done|]). by left. }
    assert (o_sym x = sid) as Hsx. { destruct Hc2 as [_ Hf2]. rewrite E2 in Hf2. apply Hf2. }
    exists m, t, bp. split; [by eapply hear_all_app|]. split; [by rewrite Hsx|]. split; [|done]. eapply (best_seen _ sid); [exact (proj2 (proj1 Hc1))|done|done].
Qed.
Print Assumptions C33_slippage.
(** While a new market order is in flight no other order has its id. *)
Definition alone (i : Z) (c : cfg) : Prop := e_ords (fst c) !! i = None /\ forall f, snd c = Some f -> o_id f = i -> o_type f = MARKET.
Definition exec_market (i : Z) (l : list event) : Prop := forall y p q, EExecute y p q ∈ l -> o_id y = i -> o_type y = MARKET.
Lemma reduced_none i m o : m !! i = None -> o_id o <> i -> reduced_map m o !! i = None.
Proof. intros H Hn. unfold reduced_map. destruct (_ =? 0); [by rewrite lookup_delete_None; right|by rewrite lookup_insert_ne]. Qed.
Lemma ustep_alone sid A i c evs c' : cfg_ok sid c -> ustep sid A c evs c' -> alone i c -> alone i c' /\ quiet i evs /\ exec_market i evs.
Proof.
  intros Hc Hu [H1 H2].
  destruct Hu as [e f r p q u e' Q' Hr Hs Ht Hq0 Hx He' Hords Hlog Hpr Hp|e f r p u e' Q' Hr Hs Ht Hx He' Hords Hlog Hpr Hp|e o p q Hq0 Hw Hfa Hst Hna Hpo|e o p Hty Hb Hann|e o Hty Hre Htlv|e o u e' Hfr Hlv Hty Htif He' Hords Hlog Hpr Hp Hset|e o Hmv|e o u e' Ho Hs Hty Hre He' Hords Hlog Hpr Hp|e o u1 b1 u2 e' o' Ho Hs Htr Hne He' Hords Hlog Hpr Hp1 Hp2|e s|e]; cbn [fst snd] in *.
  - assert (o_id r <> i) as Hni by (intros <-; congruence). split; [split; [cbn; rewrite Hords; by apply reduced_none|done]|]. split.
    + intros ev z Hin Ha Hz. apply elem_of_cons in Hin as [->|Hin]; [by destruct Ha|]. apply elem_of_cons in Hin as [->|Hin].
      * destruct Ha as [Ha|Ha]; [unfold red_ev in Ha; by destruct (_ =? 0)|]. by apply red_upd in Ha as ->.
      * destruct Ha as [-> | ->]; [by eapply lev_not_add|by eapply lev_not_upd].
    + intros y p' q' Hin Hy. apply elem_of_cons in Hin as [Hin|Hin]; [by injection Hin as ->|]. exfalso. apply elem_of_cons in Hin as [Hin|Hin]; [by eapply red_not_exec|by eapply lev_not_exec].
  - assert (o_id r <> i) as Hni by (intros <-; congruence). split; [split; [cbn; rewrite Hords; by rewrite lookup_delete_None; right|done]|]. split.
    + intros ev z Hin Ha Hz. apply elem_of_cons in Hin as [->|Hin]; [by destruct Ha|]. apply elem_of_app in Hin as [Hin|Hin].
      * destruct Ha as [-> | ->]; [by eapply lev_not_add|by eapply lev_not_upd].
      * apply elem_of_list_singleton in Hin as ->. by destruct Ha.
    + intros y p' q' Hin Hy. apply elem_of_cons in Hin as [Hin|Hin]; [by injection Hin as ->|]. exfalso. apply elem_of_app in Hin as [Hin|Hin]; [by eapply lev_not_exec|set_solver].
  - split; [split; [done|]; intros f [= <-]; apply (H2 o eq_refl)|]. split.
    + intros ev z Hin Ha Hz. apply elem_of_list_singleton in Hin as ->. by destruct Ha.
    + intros y p' q' Hin Hy. apply elem_of_list_singleton in Hin. injection Hin as -> -> ->. by apply H2.
  - split; [split; [done|]; intros f [= <-]; apply (H2 o eq_refl)|]. split; [intros ev z Hin; set_solver|intros y p' q' Hin; set_solver].
  - assert (o_id o <> i) as Hni. { intros Hi. specialize (H2 o eq_refl Hi). unfold stop_type, is_market in Hty. rewrite H2 in Hty. by rewrite andb_comm in Hty. }
    assert (o_id (converted o) = o_id o) as Eid. { unfold converted, to_market, to_limit. by destruct (o_type o); cbn; try destruct (is_fok _). }
    split; [split; [done|]; intros f [= <-]; congruence|]. split.
    + intros ev z Hin Ha Hz. apply elem_of_list_singleton in Hin as ->. destruct Ha as [?|Ha]; [done|]. injection Ha as <-. congruence.
    + intros y p' q' Hin; set_solver.
  - assert (o_id o <> i) as Hni. { intros Hi. by apply Hty, H2. }
    split; [split; [cbn; rewrite Hords; by rewrite lookup_insert_ne|done]|]. split.
    + intros ev z Hin Ha Hz. destruct Ha as [-> | ->]; [by eapply lim_not_add|by eapply lim_not_upd].
    + intros y p' q' Hin Hy. exfalso. by eapply lim_not_exec.
  - split; [split; done|]. split; [intros ev z Hin Ha; apply elem_of_list_singleton in Hin as ->; by destruct Ha|intros y p' q' Hin; set_solver].
  - assert (o_id o <> i) as Hni by (intros <-; congruence).
    assert (o_id (converted o) = o_id o) as Eid. { unfold converted, to_market, to_limit. by destruct (o_type o); cbn; try destruct (is_fok _). }
    split; [split; [cbn; rewrite Hords; by rewrite lookup_delete_None; right|]; intros f [= <-]; congruence|]. split.
    + intros ev z Hin Ha Hz. apply elem_of_list_singleton in Hin as ->. destruct Ha as [?|Ha]; [done|]. injection Ha as <-. congruence.
    + intros y p' q' Hin; set_solver.
  - assert (o_id o <> i) as Hni by (intros <-; congruence). destruct (retrail_place (calc_trailing o (e_bk e)) o Htr) as (E1 & _).
    split; [split; [cbn; rewrite Hords; by rewrite lookup_insert_ne|done]|]. split.
    + intros ev z Hin Ha Hz. apply elem_of_list_singleton in Hin as ->. destruct Ha as [?|Ha]; [done|]. injection Ha as <-. unfold o' in Hz. congruence.
    + intros y p' q' Hin; set_solver.
  - split; [split; [done|done]|]. split; [intros ev z Hin; set_solver|intros y p' q' Hin; set_solver].
  - split; [split; [done|done]|]. split; [intros ev z Hin; set_solver|intros y p' q' Hin; set_solver].
Qed.
Lemma usteps_alone sid A i c evs c' : usteps sid A c evs c' -> cfg_ok sid c -> alone i c -> alone i c' /\ quiet i evs /\ exec_market i evs.
Proof.
  revert c evs c'. apply (usteps_ind_ok sid A (fun c evs c' => alone i c -> alone i c' /\ quiet i evs /\ exec_market i evs)).
  - intros c H. split; [done|]. split; [intros ev z Hin; set_solver|intros y p' q' Hin; set_solver].
  - intros c evs c1 evs' c' Hc Hu _ IH H. destruct (ustep_alone _ _ _ _ _ _ Hc Hu H) as (H1 & H2 & H3). destruct (IH H1) as (K1 & K2 & K3). split; [done|]. split; [by apply quiet_app|].
    intros y p q Hin Hy. apply elem_of_app in Hin as [Hin|Hin]; [by eapply H3|by eapply K3].
Qed.
(** A market order that is added and not Fill-Or-Kill trades within its slippage of the best opposite
    price the clients know before the call; when the opposite side is empty it does not trade. *)
Theorem C33_market_order s o s' er evs c : reach s -> op_ok s (AddOrder o) -> call s (AddOrder o) s' er evs -> mirrors c s ->
  o_type o = MARKET -> o_tif o <> FOK -> get_order (o_id o) s = None ->
  forall y p q, EExecute y p q ∈ evs -> o_id y = o_id o ->
    exists t b, c (o_sym o) = Some t /\ best_price_in t (opposite (o_side o)) b /\ within_slippage o b p.
Proof.
  intros Hr Hop Hc Hm Hmk Hfok Hnew y p q Hin Hy. pose proof (reach_inv _ Hr) as Hinv. rewrite get_order_inv in Hnew by done.
  destruct (order_call_seg s _ s' er evs Hr Hop eq_refl Hc) as [(_ & -> & _ & _)|Hseg]; [set_solver|].
  inversion Hseg as [a sid b hevs c0 uevs e2 Hoo Hb Htg Hh Hcf Hfr1 Hfr2 Hus|]; subst.
  inversion Hh as [o0 o' Hsym Hval| |mit| | |a2 i' price q0 o0 u e' q1 o' Q' evs' Ha]; subst; [|by destruct mit|by destruct Ha as [[? _]|?]].
  assert (Eo : o' = o). { unfold o', placed. by rewrite Hmk. } rewrite Eo in *. clearbody o'.
  apply elem_of_cons in Hin as [Hin|Hin]; [done|]. cbn [app] in *.
  destruct (usteps_alone _ _ (o_id o) _ _ _ Hus Hcf) as (_ & Hq & Hx). { split; [done|]. by intros f [= <-]. }
  pose proof (Hx _ _ _ Hin Hy) as Hmy. apply elem_of_list_split in Hin as (mid & post & ->). apply quiet_app in Hq as [Hq _].
  destruct (C33_slippage s (AddOrder o) _ _ [] (EAddOrder o) mid y p q post c o Hr Hop Hc Hm (or_introl eq_refl) Hmk Hfok Hq Hy Hmy) as (m & t & bp & Hh0 & Ht & Hb0 & Hw).
  cbn in Hh0. injection Hh0 as <-. by exists t, bp.
Qed.
Print Assumptions C33_market_order.
(** In an empty opposite side nothing is executed. *)
Corollary C33_empty s o s' er evs c t : reach s -> op_ok s (AddOrder o) -> call s (AddOrder o) s' er evs -> mirrors c s ->
  o_type o = MARKET -> o_tif o <> FOK -> get_order (o_id o) s = None -> c (o_sym o) = Some t ->
  (forall p, t (side_type (opposite (o_side o))) p = None) -> forall y p q, EExecute y p q ∈ evs -> o_id y <> o_id o.
Proof.
  intros Hr Hop Hc Hm Hmk Hfok Hnew Ht Hemp y p q Hin Hy.
  destruct (C33_market_order s o s' er evs c Hr Hop Hc Hm Hmk Hfok Hnew y p q Hin Hy) as (t' & b & Ht' & [Hb _] & _).
  assert (t' = t) as -> by congruence. by rewrite Hemp in Hb.
Qed.
Print Assumptions C33_empty.

(** Asks of 5 at 100, 110 and 125: a market buy of 12 with slippage 12 takes the first two and is
    cancelled for the rest. *)
Definition ex_market : list op := setup ++ [EnableMatching; SL 1 100 5; SL 2 110 5; SL 3 125 5].
Definition fills (s : state) (a : op) : list (Z * otype * Z * Z) :=
  map (fun x => (o_id (fst (fst x)), o_type (fst (fst x)), snd (fst x), snd x)) (execs (news s a)).
Example C33_example : let a := AddOrder (MarketOrder 4 0 BUY 12 12) in meets ex_market a OK /\
  get_order 4 (hist ex_market) = None /\ (exists c, mirrors c (hist ex_market)) /\
  fills (hist ex_market) a = [(1, LIMIT, 100, 5); (4, MARKET, 100, 5); (2, LIMIT, 110, 5); (4, MARKET, 110, 5)].
Proof.
  split; [meet|]. split; [vm_compute; reflexivity|]. split; [apply mirrors_exists|]. vm_compute. reflexivity.
Qed.
(** A triggered buy stop with slippage 5: the best ask is 120 when it is triggered, so it does not
    reach 130. *)
Definition ex_stopped : list op := setup ++ [EnableMatching; SL 1 100 5; SL 2 120 2; SL 3 130 5; AddOrder (StopOrder 4 0 BUY 110 6 GTC 5)].
Example C33_stop_example : let a := BL 5 100 5 in meets ex_stopped a OK /\
  fills (hist ex_stopped) a = [(1, LIMIT, 100, 5); (5, LIMIT, 100, 5); (2, LIMIT, 120, 2); (4, MARKET, 120, 2)].
Proof. split; [meet|]. vm_compute. reflexivity. Qed.
