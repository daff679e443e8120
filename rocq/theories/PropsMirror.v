(** * PropsMirror.v -- clients that rebuild books and orders from notifications: C27, C28, C29. *)
From Coq Require Import ZifyBool.
From stdpp Require Import fin_maps relations.
From Verif Require Import Types Book Engine Manager Factory Validate LevelFacts BookInv EngInv EngPrim Steps StepsOk Refine3 Refine4 Api StateInv Micro Reach Calls Witness PropsState PropsSettle CallFacts Spec Spec2 Spec3.

(** ** Hearing, step by step, with the checks on flags *)
Definition top_right (c : mirror) (ev : event) (c' : mirror) : Prop :=
  match ev with
  | EAddLevel i l top | EUpdateLevel i l top => forall t, c' i = Some t -> (top = true <-> best_in t l)
  | EDeleteLevel i l top => top = true
  | _ => True
  end.
Inductive hears : mirror -> list event -> mirror -> Prop :=
| hr_nil c : hears c [] c
| hr_cons c ev c1 evs c' : hear c ev = Some c1 -> top_right c ev c1 -> hears c1 evs c' -> hears c (ev :: evs) c'.
Lemma hears_app c a c1 b c' : hears c a c1 -> hears c1 b c' -> hears c (a ++ b) c'.
Proof. induction 1 as [|c ev c1 evs c2 H1 H2 _ IH]; intros H; [done|]. cbn. eapply hr_cons; eauto. Qed.
Lemma hears_all c evs c' : hears c evs c' -> hear_all c evs = Some c'.
Proof. induction 1 as [|c ev c1 evs c2 H1 H2 _ IH]; [done|]. cbn. by rewrite H1. Qed.
Lemma hears_split c l1 ev l2 c' : hears c (l1 ++ ev :: l2) c' ->
  exists c1 c2, hear_all c l1 = Some c1 /\ hear c1 ev = Some c2 /\ top_right c1 ev c2.
Proof.
  revert c. induction l1 as [|x l1 IH]; intros c H; cbn in *.
  - inversion H as [|? ? c1 ? ? H1 H2 H3]; subst. by exists c, c1.
  - inversion H as [|? ? c1 ? ? H1 H2 H3]; subst. rewrite H1. cbn. by apply IH.
Qed.
Definition silent (ev : event) : Prop :=
  match ev with EAddBook _ | EDeleteBook _ | EUpdateBook _ _ | EAddLevel _ _ _ | EUpdateLevel _ _ _ | EDeleteLevel _ _ _ => False | _ => True end.
Lemma hear_silent c ev : silent ev -> hear c ev = Some c /\ top_right c ev c.
Proof. by destruct ev. Qed.
Lemma hears_silent c ev evs c' : silent ev -> hears c evs c' -> hears c (ev :: evs) c'.
Proof. intros Hs H. destruct (hear_silent c ev Hs). by eapply hr_cons. Qed.
Lemma hears_end c evs c' ev : silent ev -> hears c evs c' -> hears c (evs ++ [ev]) c'.
Proof. intros Hs H. eapply hears_app; [done|]. apply hears_silent; [done|constructor]. Qed.

(** The client knows the levels of book [sid] as they are in [e]; it knows the others as [c0] does. *)
Definition knows_book (sid : Z) (c0 c : mirror) (b : book) : Prop :=
  (exists t, c sid = Some t /\ forall ty p, t ty p = shown b ty p) /\ forall j, j <> sid -> c j = c0 j.
Lemma knows_same sid c0 c b b' : same_sides b b' -> knows_book sid c0 c b -> knows_book sid c0 c b'.
Proof.
  intros [_ Hs] [(t & Ht & Hv) Ho]. split; [|done]. exists t. split; [done|]. intros ty p. rewrite Hv. unfold shown.
  pose proof (Hs KBid) as H1. pose proof (Hs KAsk) as H2. cbn in H1, H2. by destruct ty; rewrite ?H1, ?H2.
Qed.
Lemma shown_view m sid b k p : (k = KBid \/ k = KAsk) -> book_ok m sid b ->
  shown b (ltype_of k) p = match queue b k p with [] => None | ids => Some (add_info m k p ids) end.
Proof.
  intros Hk Hb. pose proof (book_view m sid b k p Hb) as Hv. unfold shown.
  destruct Hk as [-> | ->]; cbn in Hv |- *; rewrite Hv; unfold lvl_at; by destruct (queue b _ p).
Qed.

(** A level operation on a bid or ask level and its two notifications. *)
Lemma prim_hears m m' sid c0 c k p ids b b' u i :
  (k = KBid \/ k = KAsk) -> book_ok m sid b -> book_ok m' sid b' -> prim m' k p ids b b' u ->
  (forall j, j <> i -> m' !! j = m !! j) -> (forall o, m !! i = Some o -> o_sym o = sid -> okind o = k /\ okey o = p) ->
  (queue b k p = [] -> ids <> []) ->
  knows_book sid c0 c b -> exists c', hears c (lev_evs sid u) c' /\ knows_book sid c0 c' b'.
Proof.
  intros Hk Hb Hb' Hp Hm Hi Hne [(t & Ht & Hv) Ho].
  assert (Hsh : forall ty p', shown b' ty p' = if decide (ty = ltype_of k /\ p' = p) then (match ids with [] => None | _ => Some (u_info u) end) else shown b ty p').
  { intros ty p'. destruct (decide (ty = ltype_of k)) as [->|Hty].
    - rewrite (shown_view m' sid b' k p' Hk Hb'), (shown_view m sid b k p' Hk Hb), (pr_queue _ _ _ _ _ _ _ Hp).
      destruct (Z.eqb_spec p' p) as [->|Hpp].
      + rewrite decide_True by done. rewrite (pr_info _ _ _ _ _ _ _ Hp). by destruct ids.
      + rewrite decide_False by naive_solver.
        assert (Hall : forall j, j ∈ queue b k p' -> m !! j = m' !! j).
        { intros j Hj. symmetry. apply Hm. intros ->. apply (queue_in m sid b k p' i Hb) in Hj as (o & Hj & Hs & _ & Hkey).
          destruct (Hi _ Hj Hs) as [_ ?]. congruence. }
        revert Hall. destruct (queue b k p') as [|q0 Q]; intros Hall; [done|]. f_equal.
        unfold add_info. by rewrite !(osum_ext _ m m' (q0 :: Q) Hall).
    - rewrite decide_False by naive_solver. unfold shown. pose proof (pr_sides _ _ _ _ _ _ _ Hp) as Hs.
      pose proof (Hs KBid) as H1. pose proof (Hs KAsk) as H2. cbn in H1, H2.
      destruct Hk as [-> | ->], ty; try done; by rewrite ?H1, ?H2 by done. }
  assert (Hinfo : li_type (u_info u) = ltype_of k /\ li_price (u_info u) = p).
  { rewrite (pr_info _ _ _ _ _ _ _ Hp). done. }
  destruct Hinfo as [Hity Hipr].
  set (t' := view_set t (u_info u) (match ids with [] => None | _ => Some (u_info u) end)).
  assert (Ht' : forall ty p', t' ty p' = shown b' ty p').
  { intros ty p'. unfold t', view_set. rewrite Hsh, Hity, Hipr. by rewrite Hv. }
  assert (Hkn : knows t (u_info u) = match queue b k p with [] => false | _ => true end).
  { unfold knows. rewrite Hv, Hity, Hipr, (shown_view m sid b k p Hk Hb). by destruct (queue b k p). }
  set (c' := mirror_set c sid (Some t')).
  assert (Hc's : c' sid = Some t') by (unfold c', mirror_set; by rewrite decide_True).
  assert (Hbest : ids <> [] -> (u_top u = true <-> best_in t' (u_info u))).
  { intros Hid. rewrite (pr_top _ _ _ _ _ _ _ Hp).
    assert (Hq : queue b' k p = ids). { rewrite (pr_queue _ _ _ _ _ _ _ Hp). by rewrite Z.eqb_refl. }
    assert ((match ids with [] => true | _ => is_best p (get_side k b') end) = is_best p (get_side k b')) as -> by (by destruct ids).
    unfold is_best, best_in. rewrite Hity, Hipr.
    assert (Hsome : forall p', t' (ltype_of k) p' <> None <-> queue b' k p' <> []).
    { intros p'. rewrite Ht', (shown_view m' sid b' k p' Hk Hb'). by destruct (queue b' k p'). }
    split.
    - intros Htop p' Hp'. apply Hsome in Hp'.
      destruct (s_best (get_side k b')) as [p1|] eqn:Htop'; [|done]. apply Z.eqb_eq in Htop. subst p1. rename Htop' into Htop.
      destruct (best_some m' sid b' k p Hb' Htop) as [_ Hall]. destruct (Hall p' Hp') as [->|Hbt].
      + destruct (ltype_of k); lia.
      + destruct Hk as [-> | ->]; cbn in *; unfold better in Hbt; cbn in Hbt; lia.
    - intros Hall. destruct (best_exists m' sid b' k p Hb') as (p0 & Hp0 & Hor); [by rewrite Hq|].
      destruct (best_some m' sid b' k p0 Hb' Hp0) as [Hq0 _].
      apply Hsome in Hq0. specialize (Hall _ Hq0).
      rewrite Hp0. apply Z.eqb_eq. destruct Hor as [->|Hbt]; [done|]. destruct Hk as [-> | ->]; cbn in *; unfold better in Hbt; cbn in Hbt; lia. }
  exists c'. split.
  - unfold lev_evs. assert (Hev : hear c (lev_ev sid u) = Some c' /\ top_right c (lev_ev sid u) c').
    { unfold lev_ev. rewrite (pr_type _ _ _ _ _ _ _ Hp). unfold utype_of. destruct (queue b k p) as [|q0 Q] eqn:EQ.
      - specialize (Hne eq_refl). cbn [hear]. rewrite Ht. cbn [mbind option_bind]. rewrite Hkn.
        split; [unfold c', t'; by destruct ids|]. intros t1 Ht1. rewrite Hc's in Ht1. injection Ht1 as <-. by apply Hbest.
      - destruct ids as [|i0 I0] eqn:Ei; cbn [hear]; rewrite Ht; cbn [mbind option_bind]; rewrite Hkn.
        + split; [done|]. cbn. by rewrite (pr_top _ _ _ _ _ _ _ Hp).
        + split; [done|]. intros t1 Ht1. rewrite Hc's in Ht1. injection Ht1 as <-. by apply Hbest. }
    destruct Hev as [H1 H2]. eapply hr_cons; [done|done|]. eapply hr_cons; [|done|constructor]. cbn. by rewrite Hc's.
  - split; [exists t'; by split|]. intros j Hj. unfold c', mirror_set. rewrite decide_False by done. by apply Ho.
Qed.
(** Operations on stop collections do not show. *)
Lemma prim_stop_same m' k p ids b b' u : k <> KBid -> k <> KAsk -> prim m' k p ids b b' u ->
  b_bids b' = b_bids b /\ b_asks b' = b_asks b.
Proof.
  intros H1 H2 Hp. pose proof (pr_sides _ _ _ _ _ _ _ Hp) as Hs.
  pose proof (Hs KBid) as S1. pose proof (Hs KAsk) as S2. cbn in S1, S2. by rewrite S1, S2 by congruence.
Qed.
Lemma knows_sides sid c0 c b b' : b_bids b' = b_bids b /\ b_asks b' = b_asks b -> knows_book sid c0 c b -> knows_book sid c0 c b'.
Proof.
  intros [H1 H2] [(t & Ht & Hv) Ho]. split; [|done]. exists t. split; [done|]. intros ty p. rewrite Hv. unfold shown. by rewrite H1, H2.
Qed.
Lemma okind_limit o : o_type o = LIMIT -> okind o = KBid \/ okind o = KAsk.
Proof. unfold okind. intros ->. destruct (o_side o); auto. Qed.
Lemma okind_stop o : o_type o <> LIMIT -> o_type o <> MARKET -> okind o <> KBid /\ okind o <> KAsk.
Proof. unfold okind. destruct (o_type o), (o_side o); done. Qed.

Lemma lim_hears m m' sid c0 c o ids b b' u i :
  o_type o <> MARKET -> book_ok m sid b -> book_ok m' sid b' -> prim m' (okind o) (okey o) ids b b' u ->
  (forall j, j <> i -> m' !! j = m !! j) -> (forall x, m !! i = Some x -> x = o) ->
  (queue b (okind o) (okey o) = [] -> ids <> []) ->
  knows_book sid c0 c b -> exists c', hears c (lim_evs o sid u) c' /\ knows_book sid c0 c' b'.
Proof.
  intros Hty Hb Hb' Hp Hm Hi Hne Hc. unfold lim_evs, is_limit. case_bool_decide as El.
  - apply (prim_hears m m' sid c0 c (okind o) (okey o) ids b b' u i); try done; [by apply okind_limit|]. intros x Hx _. rewrite (Hi _ Hx). done.
  - destruct (okind_stop o El Hty). exists c. split; [constructor|]. eapply knows_sides; [|done]. by eapply prim_stop_same.
Qed.
Lemma red_silent o : silent (red_ev o).
Proof. unfold red_ev. by destruct (_ =? 0). Qed.
Lemma reduced_other m o j : j <> o_id o -> reduced_map m o !! j = m !! j.
Proof. intros Hj. unfold reduced_map. destruct (_ =? 0); [by rewrite lookup_delete_ne|by rewrite lookup_insert_ne]. Qed.
Lemma live_queue_ne sid e o : eng_ok sid e -> e_ords e !! o_id o = Some o -> o_sym o = sid -> queue (e_bk e) (okind o) (okey o) <> [].
Proof. intros He Ho Hs E. pose proof (bk_full _ _ _ (proj2 He) _ _ Ho Hs) as Hin. rewrite E in Hin. by apply elem_of_nil in Hin. Qed.

Lemma ustep_hears sid A c0 c x evs x' : cfg_ok sid x -> ustep sid A x evs x' -> knows_book sid c0 c (e_bk (fst x)) ->
  exists c', hears c evs c' /\ knows_book sid c0 c' (e_bk (fst x')).
Proof.
  intros [He Hf] Hu Hc. pose proof He as [Hm Hb].
  inversion Hu as [e f r p q u e' Q' Hr Hs Ht Hq0 Hx He' Hords Hlog Hpr Hp
    |e f r p u e' Q' Hr Hs Ht Hx He' Hords Hlog Hpr Hp|e o p q Hq0 Hw Hfa|e o p Hty Hbst|e o Hty Hre
    |e o u e' Hfr Hlv Hty Htif He' Hords Hlog Hpr Hp|e o Hmv|e o u e' Ho Hs Hty Hre He' Hords Hlog Hpr Hp
    |e o u1 b1 u2 e' o' Ho Hs Htr Hne He' Hords Hlog Hpr Hp1 Hp2|e s|e]; subst x x' evs; cbn [fst snd] in *.
  - destruct (prim_hears (e_ords e) (e_ords e') sid c0 c (okind r) (okey r) _ (e_bk e) (e_bk e') u (o_id r) (okind_limit r Ht) Hb (proj2 He') Hp) as (c' & H1 & H2); try done.
    { intros j Hj. rewrite Hords. by rewrite reduced_other. } { intros o Ho _. by assert (o = r) as -> by congruence. }
    { intros E. by destruct (live_queue_ne sid e r He Hr Hs). }
    exists c'. split; [|done]. apply hears_silent; [done|]. apply hears_silent; [apply red_silent|done].
  - destruct (prim_hears (e_ords e) (e_ords e') sid c0 c (okind r) (okey r) _ (e_bk e) (e_bk e') u (o_id r) (okind_limit r Ht) Hb (proj2 He') Hp) as (c' & H1 & H2); try done.
    { intros j Hj. rewrite Hords. by rewrite lookup_delete_ne. } { intros o Ho _. by assert (o = r) as -> by congruence. }
    { intros E. by destruct (live_queue_ne sid e r He Hr Hs). }
    exists c'. split; [|done]. apply hears_silent; [done|]. by apply hears_end.
  - exists c. split; [apply hears_silent; [done|constructor]|]. eapply knows_same; [|done].
    cbn. eapply same_sides_trans; [apply same_sides_last|apply same_sides_matching].
  - exists c. split; [constructor|done].
  - exists c. split; [apply hears_silent; [done|constructor]|done].
  - eapply (lim_hears (e_ords e) (e_ords e') _ _ _ _ _ _ _ _ (o_id o)); try done.
    + apply He'. + intros j Hj. rewrite Hords. by rewrite lookup_insert_ne. + intros y Hy. congruence. + intros ->. done.
  - exists c. split; [apply hears_silent; [done|constructor]|done].
  - exists c. split; [apply hears_silent; [done|constructor]|]. eapply knows_sides; [|done].
    unfold stop_type, is_limit, is_market in Hty. destruct (okind_stop o) as [? ?]; [by intros E; rewrite E in Hty|by intros E; rewrite E in Hty|]. by eapply prim_stop_same.
  - exists c. split; [apply hears_silent; [done|constructor]|].
    destruct (retrail_place (calc_trailing o (e_bk e)) o Htr) as (_ & _ & Et & _). fold o' in Et.
    assert (Hk : o_type o <> LIMIT /\ o_type o <> MARKET).
    { unfold is_trailing, is_trailing_stop, is_trailing_stop_limit in Htr. by destruct (o_type o). }
    destruct Hk as [Hk1 Hk2]. destruct (okind_stop o Hk1 Hk2) as [K1 K2]. destruct (okind_stop o') as [K3 K4]; [by rewrite Et|by rewrite Et|].
    eapply knows_sides; [exact (prim_stop_same _ _ _ _ _ _ _ K3 K4 Hp2)|]. eapply knows_sides; [exact (prim_stop_same _ _ _ _ _ _ _ K1 K2 Hp1)|]. done.
  - exists c. split; [constructor|]. eapply knows_same; [|done]. destruct s; apply same_sides_prices.
  - exists c. split; [constructor|]. eapply knows_same; [|done]. apply same_sides_reset.
Qed.
Lemma usteps_hears sid A c0 x evs x' : usteps sid A x evs x' -> cfg_ok sid x -> forall c, knows_book sid c0 c (e_bk (fst x)) ->
  exists c', hears c evs c' /\ knows_book sid c0 c' (e_bk (fst x')).
Proof.
  revert x evs x'. apply (usteps_ind_ok sid A (fun x evs x' => forall c, knows_book sid c0 c (e_bk (fst x)) -> exists c', hears c evs c' /\ knows_book sid c0 c' (e_bk (fst x')))).
  - intros x c Hc. exists c. split; [constructor|done].
  - intros x evs x1 evs' x' Hx Hu _ IH c Hc. destruct (ustep_hears _ _ _ _ _ _ _ Hx Hu Hc) as (c1 & H1 & Hc1).
    destruct (IH c1 Hc1) as (c' & H2 & Hc'). exists c'. split; [by eapply hears_app|done].
Qed.
Lemma hstep_hears sid c0 c e a evs x : eng_ok sid e -> hstep sid e a evs x -> knows_book sid c0 c (e_bk e) ->
  exists c', hears c evs c' /\ knows_book sid c0 c' (e_bk (fst x)).
Proof.
  intros He Hh Hc. pose proof He as [Hm Hb].
  inversion Hh as [o o' Hsym Hval|i q0 o u e' q o' Q' Ho Hid Hsym Hq He' Hords Hlog Hpr Hp
    |mit i p q o u e' o' evs' Q' Ho Hid Hsym Hq He' Hords Hlog Hpr Hp Ea
    |i ni p q o u e' o' Q' evs' Ho Hid Hsym Hq Hni Hty He' Hords Hlog Hpr Hp
    |i o u e' Q' evs' Ho Hid Hsym He' Hords Hlog Hpr Hp
    |a' i price q0 o u e' q o' Q' evs' Ha Ho Hid Hsym Hq He' Hords Hlog Hpr Hp]; subst a x evs; cbn [fst].
  { exists c. split; [apply hears_silent; [done|constructor]|done]. }
  all: subst i; pose proof (lo_type _ _ (mo_live _ Hm _ _ Ho)) as Hmk;
    destruct (lim_hears (e_ords e) (e_ords e') sid c0 c o _ (e_bk e) (e_bk e') u (o_id o) Hmk Hb (proj2 He') Hp) as (c' & H1 & H2); try done;
    try (intros j Hj; rewrite Hords; first [by rewrite reduced_other|by rewrite lookup_delete_ne]); try (intros y Hy; congruence);
    try (intros E; by destruct (live_queue_ne sid e o He Ho Hsym)); exists c'; (split; [|done]).
  - apply hears_silent; [apply red_silent|done].
  - unfold evs'. destruct (0 <? _); [by apply hears_end|]. by rewrite app_nil_r.
  - unfold evs'. change [EDeleteOrder o; EAddOrder o'] with ([EDeleteOrder o] ++ [EAddOrder o']). rewrite app_assoc. apply hears_end; [done|]. by apply hears_end.
  - by apply hears_end.
  - apply hears_silent; [done|]. apply hears_end; [apply red_silent|done].
Qed.

Lemma seg_hears A s x evs s' c : inv s -> seg A s x evs s' -> mirrors c s -> exists c', hears c evs c' /\ mirrors c' s'.
Proof.
  intros Hinv Hseg Hc.
  assert (Hfin : forall sid b e' c', get_book sid s = Some b -> knows_book sid c c' (e_bk e') -> mirrors c' (put_eng sid e' s)).
  { intros sid b e' c' Hb [(t & Ht & Hv) Ho] j. rewrite (get_book_put _ _ _ _ _ Hb). destruct (decide (sid = j)) as [<-|Hj].
    - by rewrite Ht. - rewrite Ho by done. apply Hc. }
  assert (Hst : forall sid b, get_book sid s = Some b -> knows_book sid c c (e_bk (eng_of b s))).
  { intros sid b Hb. specialize (Hc sid). rewrite Hb in Hc. destruct (c sid) as [t|] eqn:E; [|done]. split; [by exists t|done]. }
  inversion Hseg as [a sid b hevs x1 uevs e' Hord Hb Htg Hh Hx1 Hfr Hfr' Hu|sid b uevs e' Hb Hfr' Hu]; subst.
  - destruct (hstep_hears sid c c _ _ _ _ (inv_eng _ _ _ Hinv Hb) Hh (Hst _ _ Hb)) as (c1 & H1 & Hc1).
    destruct (usteps_hears sid A c _ _ _ Hu Hx1 c1 Hc1) as (c' & H2 & Hc'). exists c'. split; [by eapply hears_app|]. by eapply Hfin.
  - destruct (usteps_hears sid A c _ _ _ Hu (conj (inv_eng _ _ _ Hinv Hb) I) c (Hst _ _ Hb)) as (c' & H2 & Hc'). exists c'. split; [done|]. by eapply Hfin.
Qed.
Lemma segs_hears A s l evs s' : segs A s l evs s' -> forall c, mirrors c s -> exists c', hears c evs c' /\ mirrors c' s'.
Proof.
  induction 1 as [s|s a evs s1 l evs' s' Hinv Hop Hseg Hinv1 _ IH]; intros c Hc; [exists c; split; [constructor|done]|].
  destruct (seg_hears _ _ _ _ _ _ Hinv Hseg Hc) as (c1 & H1 & Hc1). destruct (IH c1 Hc1) as (c' & H2 & Hc').
  exists c'. split; [by eapply hears_app|done].
Qed.
Lemma mirrors_books c s s' : (forall i, get_book i s' = get_book i s) -> mirrors c s -> mirrors c s'.
Proof. intros H Hc i. rewrite H. apply Hc. Qed.
Lemma result_hears s a s' er evs c : inv s -> op_ok s a -> result s a s' er -> st_log s' = st_log s ++ evs -> mirrors c s ->
  exists c', hears c evs c' /\ mirrors c' s'.
Proof.
  intros Hinv Hop Hres Hlog Hc. destruct (registry_op a) eqn:Hreg.
  2: { destruct (result_segs True s a s' er Hinv Hop Hres Hreg ltac:(by left)) as (l & evs' & Hs & Hl & Hlog').
       rewrite Hlog in Hlog'. apply app_inv_head in Hlog'. subst evs'. eapply segs_hears; [done|].
       eapply mirrors_books; [|done]. intros i. by destruct a. }
  inversion Hres as [? ? ? Hord Ho|? ? ? ? ? Ho|? ? ? ? ? ? ? ? ?|? ?|? ?| |sy v Hg Hv|sy v Hg Hp Hv|i Hg|i sy v Hg Hv
    |sy Hg|sy v Hg Hgb Hv|sy reg v Hg Hgb Hv|i Hg|i b v Hg Hv]; subst; cbn in Hlog; try discriminate Hreg; try (by destruct a).
  - apply log_same in Hlog as ->. exists c. split; [constructor|]. by eapply mirrors_books.
  - apply app_inv_head in Hlog as <-. exists c. split; [apply hears_silent; [done|constructor]|]. by eapply mirrors_books.
  - apply log_same in Hlog as ->. exists c. split; [constructor|]. done.
  - apply app_inv_head in Hlog as <-. exists c. split; [apply hears_silent; [done|constructor]|]. by eapply mirrors_books.
  - apply log_same in Hlog as ->. exists c. split; [constructor|]. done.
  - apply log_same in Hlog as ->. exists c. split; [constructor|]. by eapply mirrors_books.
  - apply app_inv_head in Hlog as <-. set (i := sy_id sy) in *. pose proof (Hc i) as Hci. rewrite Hgb in Hci. destruct (c i) as [t|] eqn:Ei; [done|].
    exists (mirror_set c i (Some (fun _ _ => None))). split.
    + eapply hr_cons; [cbn; fold i; by rewrite Ei|done|constructor].
    + intros j. unfold get_book at 1. cbn. rewrite Hv. unfold mirror_set. destruct (decide (i = j)) as [<-|Hj].
      * rewrite decide_True by done. by intros [] p.
      * rewrite decide_False by done. apply Hc.
  - apply log_same in Hlog as ->. exists c. split; [constructor|]. done.
  - apply app_inv_head in Hlog as <-. pose proof (Hc i) as Hci. rewrite Hg in Hci. destruct (c i) as [t|] eqn:Ei; [|done].
    exists (mirror_set c i None). split.
    + eapply hr_cons; [cbn; by rewrite Ei|done|constructor].
    + intros j. unfold get_book at 1. cbn. rewrite Hv. unfold mirror_set. destruct (decide (i = j)) as [<-|Hj].
      * by rewrite decide_True. * rewrite decide_False by done. apply Hc.
Qed.

(** ** C27 *)
Theorem C27_levels_mirrored s a s' er evs c : reach s -> op_ok s a -> call s a s' er evs -> mirrors c s ->
  exists c', hear_all c evs = Some c' /\ mirrors c' s'.
Proof.
  intros Hr Hop Hcall Hc. destruct (call_result _ _ _ _ _ Hr Hop Hcall) as (Hinv & Hres & _). destruct Hcall as [_ Hlog].
  destruct (result_hears s a s' er evs c Hinv Hop Hres Hlog Hc) as (c' & H1 & H2). exists c'. split; [by apply hears_all|done].
Qed.
Print Assumptions C27_levels_mirrored.
Lemma reach_hears s : reach s -> exists c, hears deaf (st_log s) c /\ mirrors c s.
Proof.
  induction 1 as [|s a s' er Hr IH Hop Hst].
  - exists deaf. split; [constructor|]. intros i. unfold get_book. cbn. by rewrite vfind_nil.
  - destruct IH as (c & H1 & Hc). pose proof (reach_inv _ Hr) as Hinv. pose proof (step_result _ _ _ _ Hinv Hop Hst) as Hres.
    destruct (call_exists s a Hinv Hop) as (s1 & er1 & evs & Hst1 & Hlog). rewrite Hst in Hst1. injection Hst1 as <- <-.
    destruct (result_hears s a s' er evs c Hinv Hop Hres Hlog Hc) as (c' & H2 & Hc'). exists c'. split; [|done].
    rewrite Hlog. by eapply hears_app.
Qed.
Theorem C27_history s : reach s -> exists c, hear_all deaf (st_log s) = Some c /\ mirrors c s.
Proof. intros Hr. destruct (reach_hears s Hr) as (c & H1 & Hc). exists c. split; [by apply hears_all|done]. Qed.
Print Assumptions C27_history.

(** ** C29 *)
Theorem C29_top_flag_partial s l1 l2 i l top : reach s ->
  (st_log s = l1 ++ EAddLevel i l top :: l2 -> exists c t, hear_all deaf (l1 ++ [EAddLevel i l top]) = Some c /\ c i = Some t /\ (top = true <-> best_in t l)) /\
  (st_log s = l1 ++ EUpdateLevel i l top :: l2 -> exists c t, hear_all deaf (l1 ++ [EUpdateLevel i l top]) = Some c /\ c i = Some t /\ (top = true <-> best_in t l)) /\
  (st_log s = l1 ++ EDeleteLevel i l top :: l2 -> top = true).
Proof.
  intros Hr. destruct (reach_hears s Hr) as (c & Hc & _).
  assert (Happ : forall c0 l c1 ev c2, hear_all c0 l = Some c1 -> hear c1 ev = Some c2 -> hear_all c0 (l ++ [ev]) = Some c2).
  { intros c0 l0. revert c0. induction l0 as [|y l0 IH]; intros c0 c1 ev c2 H1 H2; cbn in *.
    - injection H1 as ->. by rewrite H2. - destruct (hear c0 y) as [c0'|]; [|done]. cbn in *. by eapply IH. }
  split; [|split]; intros E; rewrite E in Hc; destruct (hears_split _ _ _ _ _ Hc) as (c1 & c2 & H1 & H2 & H3).
  - cbn in H3. assert (exists t, c2 i = Some t) as [t Ht].
    { cbn in H2. destruct (c1 i) as [t|]; [|done]. cbn in H2. destruct (knows t l); [done|]. injection H2 as <-. unfold mirror_set. rewrite decide_True by done. eauto. }
    exists c2, t. split; [by eapply Happ|]. split; [done|]. by apply H3.
  - cbn in H3. assert (exists t, c2 i = Some t) as [t Ht].
    { cbn in H2. destruct (c1 i) as [t|]; [|done]. cbn in H2. destruct (knows t l); [|done]. injection H2 as <-. unfold mirror_set. rewrite decide_True by done. eauto. }
    exists c2, t. split; [by eapply Happ|]. split; [done|]. by apply H3.
  - done.
Qed.
Print Assumptions C29_top_flag_partial.

(** *** The book notification *)
Lemma paired_app a b : paired a -> paired b -> paired (a ++ b).
Proof. induction 1; intros Hb; [done| |]; cbn; by constructor; auto. Qed.
Definition quiet (ev : event) : Prop := level_event ev = None /\ forall i top, ev <> EUpdateBook i top.
Lemma paired_one ev evs : quiet ev -> paired evs -> paired (ev :: evs).
Proof. intros [? ?] ?. by constructor. Qed.
Lemma lev_paired sid u : paired (lev_evs sid u).
Proof. unfold lev_evs, lev_ev. destruct (u_type u); apply pd_level; (done || constructor). Qed.
Lemma lim_paired o sid u : paired (lim_evs o sid u).
Proof. unfold lim_evs. destruct (is_limit o); [apply lev_paired|constructor]. Qed.
Lemma red_quiet o : quiet (red_ev o).
Proof. unfold red_ev. by destruct (_ =? 0). Qed.
Local Ltac pq := first [apply paired_one; [done|pq]|apply paired_one; [apply red_quiet|pq]|apply pd_nil|apply lev_paired|apply lim_paired|apply paired_app; pq].
Lemma ustep_paired sid A x evs x' : ustep sid A x evs x' -> paired evs.
Proof. intros Hu. inversion Hu; subst; pq. Qed.
Lemma usteps_paired sid A x evs x' : usteps sid A x evs x' -> paired evs.
Proof. induction 1; [constructor|]. apply paired_app; [by eapply ustep_paired|done]. Qed.
Lemma hstep_paired sid e a evs x : hstep sid e a evs x -> paired evs.
Proof.
  intros Hh. inversion Hh as [o o' Hsym Hval|i q0 o u e' q o' Q' Ho Hid Hsym Hq He' Hords Hlog Hpr Hp
    |mit i p q o u e' o' evs' Q' Ho Hid Hsym Hq He' Hords Hlog Hpr Hp
    |i ni p q o u e' o' Q' evs' Ho Hid Hsym Hq Hni Hty He' Hords Hlog Hpr Hp
    |i o u e' Q' evs' Ho Hid Hsym He' Hords Hlog Hpr Hp
    |a' i price q0 o u e' q o' Q' evs' Ha Ho Hid Hsym Hq He' Hords Hlog Hpr Hp]; subst; try pq.
  apply paired_app; [apply lim_paired|]. destruct (0 <? _); pq.
Qed.
Lemma segs_paired A s l evs s' : segs A s l evs s' -> paired evs.
Proof.
  induction 1 as [s|s a evs s1 l evs' s' Hinv Hop Hseg Hinv1 _ IH]; [constructor|]. apply paired_app; [|done].
  inversion Hseg as [a' sid b hevs x1 uevs e' Hord Hb Htg Hh Hx1 Hfr Hfr' Hu|sid b uevs e' Hb Hfr' Hu]; subst; [|by eapply usteps_paired].
  apply paired_app; [by eapply hstep_paired|by eapply usteps_paired].
Qed.
Theorem C29_book_flag s a s' er evs : reach s -> op_ok s a -> call s a s' er evs -> paired evs.
Proof.
  intros Hr Hop Hc. destruct (registry_op a) eqn:Hreg.
  2: { destruct (call_segs _ _ _ _ _ Hr Hop Hc Hreg) as (l & Hs & _). by eapply segs_paired. }
  destruct (call_result _ _ _ _ _ Hr Hop Hc) as (Hinv & Hres & _). destruct Hc as [_ Hlog].
  destruct (result_registry _ _ _ _ Hres Hreg) as (_ & _ & evs' & Hl & _ & He). rewrite Hlog in Hl. apply app_inv_head in Hl. subst evs'.
  destruct He as [->|(ev & -> & Hev)]; [constructor|]. apply paired_one; [by destruct ev|constructor].
Qed.
Print Assumptions C29_book_flag.

(** A partly filled book: three bid levels, two ask levels, an iceberg, changes on and off the best
    level. *)
Definition ex_mirror : list op := setup ++ [EnableMatching; BL 1 90 10; BL 2 95 20; BL 3 92 5; SL 4 105 7;
  AddOrder (LimitOrder 7 0 SELL 110 30 GTC 10); SL 8 95 12; ReduceOrder 1 4; DeleteOrder 3].
Example C27_example : let s := hist ex_mirror in reach s /\
  (exists c t, hear_all deaf (st_log s) = Some c /\ c 0 = Some t /\
    t BID 95 = Some (mkLinfo BID 95 8 0 8 1) /\ t BID 92 = None /\ t ASK 110 = Some (mkLinfo ASK 110 30 20 10 1)) /\
  length (filter (fun ev => level_event ev <> None) (st_log s)) = 8%nat.
Proof. split; [apply hist_reach|]. split; [|by vm_compute]. eexists _, _. vm_compute. done. Qed.
(** The flag of a deleted level is no help: deleting order 3, alone at 92 below the best bid 95,
    reports the best level changed. *)
Theorem C29_delete_refuted : exists s a s' evs c t l,
  reach s /\ op_ok s a /\ call s a s' OK evs /\ hear_all deaf (st_log s) = Some c /\ c 0 = Some t /\
  EDeleteLevel 0 l true ∈ evs /\ EUpdateBook 0 true ∈ evs /\ knows t l = true /\ ~ best_in t l.
Proof.
  set (ops := setup ++ [BL 1 90 10; BL 2 95 20; BL 3 92 5]). exists (hist ops), (DeleteOrder 3).
  exists (after (hist ops) (DeleteOrder 3)), (news (hist ops) (DeleteOrder 3)). eexists _, _, (mkLinfo BID 92 0 0 0 0).
  split; [apply hist_reach|]. split; [by apply op_okb_ok; vm_compute|]. split; [by apply (hist_call ops (DeleteOrder 3)); vm_compute|].
  split; [vm_compute; reflexivity|]. split; [vm_compute; reflexivity|].
  split; [vm_compute; by left|]. split; [vm_compute; right; by left|]. split; [by vm_compute|].
  intros Hb. specialize (Hb 95). vm_compute in Hb. apply Hb; [done|done].
Qed.
Print Assumptions C29_delete_refuted.
