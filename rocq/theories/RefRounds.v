(** * RefRounds.v -- triggering, trailing and uncrossing against the reference exchange of Spec14.v. *)
From Coq Require Import ZifyBool.
From stdpp Require Import fin_maps gmap relations sorting.
From Verif Require Import Types Book Engine Manager Factory Validate LevelFacts BookInv EngInv EngPrim Steps StepsOk Refine1 Refine2 Refine3 Refine4 Trail Trail2 Api StateInv Trades PropsTrades PropsOrders PropsFill PropsTrail RefMatch PropsRef RefExchange RefStops RefHall RefRing RefFollow Spec Spec2 Spec3 Spec5 Spec6 Spec7 Spec8 Spec13 Spec14.

(** ** Counting *)
Definition total_in (g : ring) : nat := waiters g + resters g.
Definition quiet_kind (k : kind) : Prop := k <> KBid /\ k <> KAsk.
Lemma waiters_eq g : waiters g = (length (glist KBuyStop g) + length (glist KTrailBuy g) + length (glist KSellStop g) + length (glist KTrailSell g))%nat.
Proof. done. Qed.
Lemma resters_eq g : resters g = (length (glist KBid g) + length (glist KAsk g))%nat.
Proof. done. Qed.
Lemma waiters_same g g' : (forall k, quiet_kind k -> glist k g' = glist k g) -> waiters g' = waiters g.
Proof. intros H. rewrite !waiters_eq, !H by done. done. Qed.
Lemma resters_same g g' : (forall k, k = KBid \/ k = KAsk -> glist k g' = glist k g) -> resters g' = resters g.
Proof. intros H. rewrite !resters_eq, !H by auto. done. Qed.
Lemma all_count f g : (forall l, (length (f l) <= length l)%nat) -> (waiters (on_all f g) <= waiters g)%nat /\ (resters (on_all f g) <= resters g)%nat.
Proof.
  intros H. rewrite !waiters_eq, !resters_eq. rewrite !(proj1 (all_glist _ f g)).
  pose proof (H (glist KBid g)). pose proof (H (glist KAsk g)). pose proof (H (glist KBuyStop g)). pose proof (H (glist KTrailBuy g)). pose proof (H (glist KSellStop g)). pose proof (H (glist KTrailSell g)). lia.
Qed.
Lemma gone_waiters i k o g : quiet_kind k -> o ∈ glist k g -> o_id o = i -> (waiters (on_all (without i) g) < waiters g)%nat.
Proof.
  intros [H1 H2] Hin Hi. rewrite !waiters_eq. rewrite !(proj1 (all_glist _ (without i) g)). pose proof (without_less i _ o Hin Hi).
  pose proof (without_length i (glist KBuyStop g)). pose proof (without_length i (glist KTrailBuy g)). pose proof (without_length i (glist KSellStop g)). pose proof (without_length i (glist KTrailSell g)).
  destruct k; try done; lia.
Qed.
Lemma gone_resters i k o g : k = KBid \/ k = KAsk -> o ∈ glist k g -> o_id o = i -> (resters (on_all (without i) g) < resters g)%nat.
Proof.
  intros Hk Hin Hi. rewrite !resters_eq. rewrite !(proj1 (all_glist _ (without i) g)). pose proof (without_less i _ o Hin Hi).
  pose proof (without_length i (glist KBid g)). pose proof (without_length i (glist KAsk g)). destruct Hk as [-> | ->]; lia.
Qed.
Lemma remaining_length : forall rs o, (length (remaining o rs) <= length rs)%nat.
Proof.
  induction rs as [|r rs IH]; intros o; cbn [remaining]; [done|]. destruct (decide _); [|done]. rewrite app_length. pose proof (IH (after_fill (Z.min (o_leaves r) (o_leaves o)) o)).
  destruct (decide _); cbn [length]; lia.
Qed.
Lemma strike_count o g xs g' z : strike o g = (xs, g', z) -> waiters g' = waiters g /\ (resters g' <= resters g)%nat.
Proof.
  intros H. split.
  - apply waiters_same. intros k [H1 H2]. eapply strike_glist; [done|]. by destruct (o_side o).
  - pose proof (strike_glist o g xs g' z (side_kind (o_side o)) H ltac:(by destruct (o_side o))) as Hs.
    unfold strike in H. destruct (dealt o _) as [[xs0 rs0] z0] eqn:E. injection H as <- <- <-.
    assert (Hl : (length rs0 <= length (q_rest (half_of (opposite (o_side o)) g)))%nat).
    { unfold dealt in E. destruct (decide _); [destruct (decide _)|]; injection E as _ <- _; try done; apply remaining_length. }
    rewrite !resters_eq. rewrite !(proj1 (marked_glist _ _ _)), !(proj1 (rest_glist _ _ _ _)).
    rewrite rest_list in Hl. destruct (o_side o); cbn [opposite side_kind] in *; repeat destruct (decide _); try done; lia.
Qed.
Lemma settles_count z g : o_type z = LIMIT -> waiters (settles_in z g) = waiters g /\ resters (settles_in z g) = S (resters g).
Proof.
  intros Ht. assert (Hm : o_type z <> MARKET) by by rewrite Ht. assert (Hp : forall rs, length (place z rs) = S (length rs)).
  { induction rs as [|r rs IH]; cbn [place]; [done|]. destruct (decide _); cbn [length]; [done|by rewrite IH]. }
  pose proof (limit_kind z Ht) as [Hk _]. split.
  - apply waiters_same. intros k [H1 H2]. rewrite (proj1 (settles_glist z k g Hm)). rewrite decide_False; [done|]. rewrite Hk. by destruct (o_side z).
  - rewrite !resters_eq, !(proj1 (settles_glist z _ g Hm)), Hk. destruct (o_side z); cbn [side_kind]; repeat destruct (decide _); try done; rewrite Hp; lia.
Qed.
Lemma line_length o rs : length (line_up o rs) = S (length rs).
Proof. induction rs as [|r rs IH]; cbn [line_up]; [done|]. destruct (decide _); cbn [length]; [done|by rewrite IH]. Qed.
Lemma drawn_to_id p o : o_id (drawn_to p o) = o_id o.
Proof. unfold drawn_to. by destruct (o_type o). Qed.
Lemma shifts_length m : forall os q, (forall o, o ∈ os -> exists r, r ∈ q /\ o_id r = o_id o) -> (length (fold_left (shift m) os q) <= length q)%nat.
Proof.
  induction os as [|o os IH]; intros q H; cbn [fold_left]; [done|]. destruct (H o ltac:(left)) as (r & Hr & Hi).
  etrans; [apply IH|].
  - intros x Hx. unfold shift. destruct (decide (o_id x = o_id o)) as [E|E].
    + exists (drawn_to (drawn m o) o). rewrite elem_line, drawn_to_id. auto.
    + destruct (H x ltac:(by right)) as (y & Hy & Ey). exists y. rewrite elem_line, elem_without. split; [|done]. right. split; [congruence|done].
  - unfold shift. rewrite line_length. pose proof (without_less _ _ _ Hr Hi). lia.
Qed.
Lemma redraw_length m rs : (length (redraw m rs) <= length rs)%nat.
Proof. rewrite redraw_eq. apply shifts_length. intros o Ho. apply elem_of_list_filter in Ho as [_ Ho]. eauto. Qed.
Lemma follow_count sd g : (waiters (follow sd g) <= waiters g)%nat /\ resters (follow sd g) = resters g.
Proof.
  assert (H : exists f s m, (forall l, (length (f l) <= length l)%nat) /\ (follow sd g = g \/ follow sd g = on_half s (with_seen m) g \/ follow sd g = trail_ring sd f (on_half s (with_seen m) g))).
  { unfold follow. exists (redraw (followed sd g)), (opposite sd), (followed sd g). split; [apply redraw_length|]. destruct (q_rest _); [auto|]. destruct (decide _); auto. }
  destruct H as (f & s & m & Hf & [-> | [-> | ->]]); [done|by destruct s|]. rewrite !waiters_eq, !resters_eq, !(proj1 (trails_glist _ _ _ _)).
  assert (Hs : forall k, glist k (on_half s (with_seen m) g) = glist k g) by (intros []; by destruct s). rewrite !Hs.
  pose proof (Hf (glist KTrailBuy g)). pose proof (Hf (glist KTrailSell g)). split; [|by destruct sd]. destruct sd; cbn [trail_side]; repeat destruct (decide _); try done; lia.
Qed.

(** ** One waiting order *)
Definition wait_order (o : order) : Prop := o_type o <> MARKET /\ o_type o <> LIMIT.
Lemma sprung_converted o : wait_order o -> sprung o = converted o.
Proof. intros [H1 H2]. unfold sprung, converted, to_market, to_limit, is_fok. destruct (o_type o) eqn:Et; try done; cbn; by destruct (o_tif o). Qed.
Lemma sprung_kind o : wait_order o ->
  (o_type (sprung o) = MARKET /\ o_tif (sprung o) <> GTC /\ o_tif (sprung o) <> AON) \/ (o_type (sprung o) = LIMIT /\ o_tif (sprung o) = o_tif o).
Proof. intros [H1 H2]. unfold sprung. destruct (o_type o) eqn:Et; try done; [left|right|left|right]; cbn; try done; by destruct (decide _). Qed.
Lemma sprung_same o : o_id (sprung o) = o_id o /\ o_leaves (sprung o) = o_leaves o /\ o_side (sprung o) = o_side o /\ o_sym (sprung o) = o_sym o.
Proof. unfold sprung. by destruct (o_type o). Qed.
Lemma let_go_glist o g xs g' k : wait_order o -> let_go o g = (xs, g') -> quiet_kind k -> glist k g' = without (o_id o) (glist k g).
Proof.
  intros Hw H [K1 K2]. unfold let_go in H. destruct (strike (sprung o) _) as [[xs1 g1] z] eqn:E. injection H as <- <-.
  assert (Hs : glist k g1 = without (o_id o) (glist k g)). { rewrite (strike_glist _ _ _ _ _ k E) by by destruct (o_side (sprung o)). apply all_glist. }
  destruct (strike_kind _ _ _ _ _ E) as (S1 & S2 & _). destruct (decide _) as [[_ D]|]; [|done].
  destruct (sprung_kind o Hw) as [(_ & T & _)|[T _]]; [congruence|]. rewrite T in S1. rewrite (proj1 (settles_glist z k g1 ltac:(by rewrite S1))).
  rewrite decide_False; [done|]. destruct (limit_kind z S1) as [-> _]. by destruct (o_side z).
Qed.
Lemma let_go_count o g xs g' k : wait_order o -> let_go o g = (xs, g') -> quiet_kind k -> o ∈ glist k g -> (waiters g' < waiters g)%nat /\ (total_in g' <= total_in g)%nat.
Proof.
  intros Hw H Hk Hin. unfold let_go in H. destruct (strike (sprung o) _) as [[xs1 g1] z] eqn:E. injection H as <- <-.
  destruct (strike_count _ _ _ _ _ E) as [C1 C2]. pose proof (gone_waiters _ k o g Hk Hin eq_refl) as C3. destruct (all_count (without (o_id o)) g (without_length _)) as [_ C4].
  destruct (strike_kind _ _ _ _ _ E) as (S1 & S2 & _). unfold total_in. destruct (decide _) as [[_ D]|]; [|lia].
  destruct (sprung_kind o Hw) as [(_ & T & _)|[T _]]; [congruence|]. rewrite T in S1. destruct (settles_count z g1 S1) as [-> ->]. lia.
Qed.
Lemma let_go_ok sid e o e' : fine sid e -> e_ords e !! o_id o = Some o -> o_sym o = sid -> wait_order o ->
  (match o_type o with STOP | TRAILING_STOP => activate_stop o e | _ => activate_stop_limit o e end) = Ok e' ->
  exists xs, let_go o (ring_of e) = (xs, ring_of e') /\ moves sid e xs e'.
Proof.
  intros Hg Ho Hs Ht Hact. destruct (drop_ok sid e o Hg Ho Hs) as (e1 & Hdel & Hr1 & Hp1 & Hd1 & _). set (e2 := drop_id (o_id o) e1) in *.
  destruct (out_ok sid e o _ Hg Ho Hs Hd1) as (Hfl & Hlv & Hna). set (o1 := sprung o). destruct (sprung_same o) as (Q1 & Q2 & Q3 & Q4).
  assert (Hfl1 : fly_ok sid (e_ords e2) o1) by (unfold o1; rewrite sprung_converted by done; by apply converted_fly).
  assert (Hlv1 : 0 < o_leaves o1) by (unfold o1; by rewrite Q2).
  assert (Hna1 : o_tif o1 <> AON) by (unfold o1; destruct (sprung_kind o Ht) as [(_ & _ & ?)|[_ ?]]; congruence).
  assert (Hg2 : fine sid (emit (EUpdateOrder o1) e2)) by apply fine_emit, Hr1.
  unfold let_go. fold o1. unfold gone in Hp1. rewrite <- Hp1. change (ring_of e2) with (ring_of (emit (EUpdateOrder o1) e2)).
  destruct (strike o1 (ring_of (emit (EUpdateOrder o1) e2))) as [[xs g] z] eqn:Etr.
  destruct (strike_ok sid (emit (EUpdateOrder o1) e2) o1 xs g z Hg2 Hfl1 Hlv1 Hna1 Etr) as (e3 & Hm & Hr3 & <- & Hflz & Hnone).
  exists xs. destruct (strike_kind _ _ _ _ _ Etr) as (K1 & K2 & K3 & K4 & K5).
  assert (Hrun : moves sid e xs e3). { apply (moves_trans sid e e2 e3 [] xs); [done|]. by eapply (emit_moves sid (EUpdateOrder o1)). }
  assert (Hnil : e_ords e3 !! o_id z = None). { apply Hnone. cbn [e_ords emit]. rewrite Hd1, K3. unfold o1. rewrite Q1. apply lookup_delete. }
  destruct (sprung_kind o Ht) as [(Et & Tg & _)|[Et Tg]]; fold o1 in Et, Tg; unfold meet in Hm; rewrite Et in Hm.
  - assert (to_market o = o1 /\ activate_stop o e = Ok e') as [E1 Hact1].
    { unfold o1. unfold o1, sprung in Et. rewrite sprung_converted by done. unfold converted. destruct Ht as [T1 T2]. destruct (o_type o); try done. }
    unfold activate_stop in Hact1. rewrite Hdel in Hact1. cbn [rbind] in Hact1. rewrite E1 in Hact1. fold e2 in Hact1. rewrite Hm in Hact1. cbn [rbind] in Hact1. injection Hact1 as <-.
    rewrite decide_False by (intros [_ Hgt]; congruence). split; [done|]. by apply moves_emit.
  - assert (to_limit o = o1 /\ activate_stop_limit o e = Ok e') as [E1 Hact1].
    { unfold o1. unfold o1, sprung in Et. rewrite sprung_converted by done. unfold converted. destruct Ht as [T1 T2]. destruct (o_type o); try done. }
    unfold activate_stop_limit in Hact1. rewrite Hdel in Hact1. cbn [rbind] in Hact1. rewrite E1 in Hact1. fold e2 in Hact1. rewrite Hm in Hact1. cbn [rbind] in Hact1.
    assert (Hi : immediate z = negb (bool_decide (o_tif z = GTC))). { rewrite <- K2 in Hna1. unfold immediate, is_ioc, is_fok. destruct (o_tif z); done. }
    rewrite Hi in Hact1. destruct (decide (0 < o_leaves z /\ o_tif z = GTC)) as [[D1 D2]|D].
    + rewrite (bool_decide_eq_true_2 _ D2), (proj2 (Z.ltb_lt _ _) D1) in Hact1. cbn in Hact1. injection Hact1 as <-.
      destruct (settle_ok sid e3 z (m_fine _ _ _ _ Hrun) Hnil) as [J1 J2].
      * eapply fly_live; [done|done|by rewrite K1, Et|]. intros _. rewrite Hi. by rewrite bool_decide_eq_true_2.
      * apply Hflz. * apply Hflz. * by rewrite D2.
      * split; [by rewrite J2|]. rewrite <- (app_nil_r xs). by eapply moves_trans.
    + assert (((0 <? o_leaves z) && negb (negb (bool_decide (o_tif z = GTC)))) = false) as E.
      { rewrite negb_involutive. destruct (bool_decide_reflect (o_tif z = GTC)); destruct (Z.ltb_spec 0 (o_leaves z)); try done. tauto. }
      rewrite E in Hact1. injection Hact1 as <-. split; [done|]. by apply moves_emit.
Qed.

(** ** The orders of one stop price *)
Definition wait_side (k : kind) (sd : oside) : Prop := k = stop_side sd \/ k = trail_side sd.
Lemma wait_quiet k sd : wait_side k sd -> quiet_kind k.
Proof. intros [-> | ->]; by destruct sd. Qed.
Lemma wait_elem sid e k sd o : fine sid e -> wait_side k sd -> o ∈ glist k (ring_of e) -> e_ords e !! o_id o = Some o /\ o_sym o = sid /\ wait_order o /\ o_side o = sd.
Proof.
  intros Hg Hk Ho. rewrite ring_list in Ho. destruct (orders_elem sid e _ o (f_ok _ _ Hg) Ho) as (A & B & C & _).
  destruct (wait_type o sd) as (D & _ & E1 & E2); [rewrite C; done|]. done.
Qed.
Lemma all_go_ok sid k sd : wait_side k sd -> forall os r0 e r e', fine sid e -> (forall o, o ∈ os -> o ∈ glist k (ring_of e)) -> NoDup (map o_id os) -> activate_ids (map o_id os) r0 e = Ok (r, e') ->
  exists xs, let_all_go os (ring_of e) = (xs, ring_of e') /\ moves sid e xs e' /\ r = (match os with [] => r0 | _ => true end) /\
    (waiters (ring_of e') <= waiters (ring_of e))%nat /\ (total_in (ring_of e') <= total_in (ring_of e))%nat /\ (os <> [] -> (waiters (ring_of e') < waiters (ring_of e))%nat).
Proof.
  intros Hk. induction os as [|o os IH]; intros r0 e r e' Hg Hin Hnd Hact; cbn [map activate_ids let_all_go] in *.
  - injection Hact as <- <-. exists []. split; [done|]. split; [by apply moves_refl|]. done.
  - destruct (wait_elem sid e k sd o Hg Hk (Hin o ltac:(left))) as (Ho & Hs & Ht & _). rewrite Ho in Hact. cbn [of_opt rbind] in Hact.
    apply NoDup_cons in Hnd as [Hno Hnd].
    assert (exists e1, (match o_type o with STOP | TRAILING_STOP => activate_stop o e | _ => activate_stop_limit o e end) = Ok e1 /\ activate_ids (map o_id os) true e1 = Ok (r, e')) as (e1 & H1 & H2).
    { destruct Ht as [T1 T2]. destruct (o_type o); try done; [destruct (activate_stop o e) as [e1| |]|destruct (activate_stop_limit o e) as [e1| |]|destruct (activate_stop o e) as [e1| |]|destruct (activate_stop_limit o e) as [e1| |]]; try done; by exists e1. }
    destruct (let_go_ok sid e o e1 Hg Ho Hs Ht H1) as (xs & Hrel & Hrun). rewrite Hrel.
    assert (Hin1 : forall x, x ∈ os -> x ∈ glist k (ring_of e1)).
    { intros x Hx. rewrite (let_go_glist o _ _ _ k Ht Hrel (wait_quiet _ _ Hk)). apply elem_without. split; [|apply Hin; by right]. intros E. apply Hno. rewrite <- E. by apply elem_of_list_fmap_1. }
    destruct (IH true e1 r e' (m_fine _ _ _ _ Hrun) Hin1 Hnd H2) as (xs' & Hall & Hrun' & Hr & Hc & Ht' & _). rewrite Hall. exists (xs ++ xs').
    destruct (let_go_count o _ _ _ k Ht Hrel (wait_quiet _ _ Hk) (Hin o ltac:(left))) as [Hl1 Hl2].
    split; [done|]. split; [by eapply moves_trans|]. split; [by destruct os|]. split; [lia|]. split; [lia|]. intros _. lia.
Qed.
Lemma volley_ok sid k sd e r e' : wait_side k sd -> fine sid e -> activate_level k (market_of sd e) e = Ok (r, e') ->
  exists xs, volley (glist k (ring_of e)) (ring_of e) = (r, xs, ring_of e') /\ moves sid e xs e' /\
    (waiters (ring_of e') <= waiters (ring_of e))%nat /\ (total_in (ring_of e') <= total_in (ring_of e))%nat /\ (r = true -> (waiters (ring_of e') < waiters (ring_of e))%nat).
Proof.
  intros Hk Hg Hact. pose proof (f_ok _ _ Hg) as He. unfold volley. destruct (view_of sid e k He) as (L & HL & HF). rewrite ring_list, <- HF.
  unfold activate_level in Hact. destruct L as [|[p os] L].
  - rewrite (cview_nil sid e _ He HL) in Hact. injection Hact as <- <-. exists []. split; [done|]. split; [by apply moves_refl|]. done.
  - destruct (cv_q _ _ _ HL p os ltac:(left)) as (Hne & _ & _). destruct os as [|o os]; [done|]. destruct (cview_front sid e _ p o os L He HL) as (Hb & _ & _). rewrite Hb in Hact.
    destruct (cview_find sid e _ p (o :: os) L He HL) as (l & Hl & Hids). rewrite Hl in Hact. cbn [of_opt rbind] in Hact. rewrite Hids in Hact.
    assert (Hkey : forall q rs x, (q, rs) ∈ (p, o :: os) :: L -> x ∈ rs -> o_stop x = q /\ o_side x = sd).
    { intros q rs x H1 H2. destruct (cview_order sid e _ _ q rs x He HL H1 H2) as (_ & _ & A & B & _). destruct (wait_type x sd) as (C & D & _); [rewrite A; done|]. split; congruence. }
    destruct (Hkey p (o :: os) o ltac:(left) ltac:(left)) as [Hp Hsd]. change (flat ((p, o :: os) :: L)) with (o :: os ++ flat L). cbn iota.
    assert (Htr : springs o (ring_of e) <-> arb k p (market_of sd e) = true).
    { unfold springs. rewrite Hsd, !(market_ok sid) by done. unfold arb. destruct Hk as [-> | ->], sd; cbn; lia. }
    destruct (arb k p (market_of sd e)) eqn:Ea; cbn [negb] in Hact.
    + rewrite decide_True by (by apply Htr).
      assert (Efil : filter (fun r => o_stop r = o_stop o) (o :: os ++ flat L) = o :: os).
      { change (o :: os ++ flat L) with ((o :: os) ++ flat L). rewrite filter_app. assert (filter (fun r => o_stop r = o_stop o) (flat L) = []) as ->.
        { apply filter_nil. intros x Hx E. apply elem_flat in Hx as (q & rs & Hin & Hx).
          pose proof (cv_sorted _ _ _ HL) as Hst. apply StronglySorted_inv in Hst as [_ Hst]. rewrite Forall_forall in Hst. specialize (Hst _ Hin). cbn in Hst.
          destruct (Hkey q rs x ltac:(by right) Hx) as [E2 _]. rewrite <- E2, E, Hp, better_irrefl in Hst. done. }
        rewrite app_nil_r. apply filter_whole. intros x Hx. rewrite Hp. by apply (Hkey p (o :: os)); [left|]. }
      rewrite Efil. destruct (all_go_ok sid k sd Hk (o :: os) false e r e' Hg) as (xs & Hall & Hrun & -> & Hc & Ht & Hc').
      * intros x Hx. rewrite ring_list, <- HF. apply elem_flat. exists p, (o :: os). split; [left|done].
      * pose proof (orders_ids sid e k He) as Hnd. rewrite <- HF in Hnd. change (flat ((p, o :: os) :: L)) with ((o :: os) ++ flat L) in Hnd. rewrite map_app in Hnd. by apply NoDup_app in Hnd as [? _].
      * done.
      * exists xs. rewrite Hall. split; [done|]. split; [done|]. split; [done|]. split; [done|]. intros _. by apply Hc'.
    + injection Hact as <- <-. rewrite decide_False by (intros H; apply Htr in H; done). exists []. split; [done|]. split; [by apply moves_refl|]. done.
Qed.

(** ** Rounds *)
Lemma side_turn_ok sid sd e r e' : fine sid e ->
  (do '(r1, e) <- activate_level (stop_side sd) (market_of sd e) e; do '(r1, e) <- (if (r1 : bool) then Ok (true, e) else activate_level (trail_side sd) (market_of sd e) e); do e <- recalc sd e; Ok (r1, e)) = Ok (r, e') ->
  exists xs, side_turn sd (ring_of e) = (r, xs, ring_of e') /\ moves sid e xs e' /\
    (waiters (ring_of e') <= waiters (ring_of e))%nat /\ (total_in (ring_of e') <= total_in (ring_of e))%nat /\ (r = true -> (waiters (ring_of e') < waiters (ring_of e))%nat).
Proof.
  intros Hg H. destruct (activate_level (stop_side sd) (market_of sd e) e) as [[r1 e1]| |] eqn:E1; try done. cbn [rbind] in H.
  destruct (volley_ok sid (stop_side sd) sd e r1 e1 (or_introl eq_refl) Hg E1) as (xs & Hw & Hrun & Hc & Ht & Hr1). pose proof (m_fine _ _ _ _ Hrun) as Hg1.
  unfold side_turn. rewrite stops_list, Hw.
  destruct (if (r1 : bool) then Ok (true, e1) else activate_level (trail_side sd) (market_of sd e1) e1) as [[r2 e2]| |] eqn:E2; try done. cbn [rbind] in H.
  assert (H2 : exists xs', (if (r1 : bool) then (true, [], ring_of e1) else volley (q_trails (half_of sd (ring_of e1))) (ring_of e1)) = (r2, xs', ring_of e2) /\ moves sid e1 xs' e2 /\
    (waiters (ring_of e2) <= waiters (ring_of e1))%nat /\ (total_in (ring_of e2) <= total_in (ring_of e1))%nat /\ (r2 = true -> (waiters (ring_of e2) < waiters (ring_of e))%nat)).
  { destruct r1.
    - injection E2 as <- <-. exists []. split; [done|]. split; [by apply moves_refl|]. split; [done|]. split; [done|]. by apply Hr1.
    - destruct (volley_ok sid (trail_side sd) sd e1 r2 e2 (or_intror eq_refl) Hg1 E2) as (xs' & Hw' & Hrun' & Hc' & Ht' & Hr'). exists xs'. rewrite trails_list. split; [done|]. split; [done|]. split; [done|]. split; [done|]. intros T. specialize (Hr' T). lia. }
  destruct H2 as (xs' & -> & Hrun' & Hc' & Ht' & Hr'). destruct (recalc sd e2) as [e3| |] eqn:E3; try done. cbn in H. injection H as <- <-.
  destruct (follow_ok sid sd e2 e3 (m_fine _ _ _ _ Hrun') E3) as [Hrun2 Hp]. exists (xs ++ xs'). rewrite Hp. split; [done|].
  destruct (follow_count sd (ring_of e2)) as [F1 F2]. split; [rewrite <- (app_nil_r (xs ++ xs')); eapply moves_trans; [by eapply moves_trans|done]|]. unfold total_in in *. split; [lia|]. split; [lia|]. intros T. specialize (Hr' T). lia.
Qed.
Lemma both_turn_ok sid e r e' : fine sid e -> activate_round e = Ok (r, e') ->
  exists xs, both_turn (ring_of e) = (r, xs, ring_of e') /\ moves sid e xs e' /\
    (waiters (ring_of e') <= waiters (ring_of e))%nat /\ (total_in (ring_of e') <= total_in (ring_of e))%nat /\ (r = true -> (waiters (ring_of e') < waiters (ring_of e))%nat).
Proof.
  intros Hg H.
  assert (exists r1 e1 r2, (do '(r1, e) <- activate_level (stop_side BUY) (market_of BUY e) e; do '(r1, e) <- (if (r1 : bool) then Ok (true, e) else activate_level (trail_side BUY) (market_of BUY e) e); do e <- recalc BUY e; Ok (r1, e)) = Ok (r1, e1) /\
    (do '(r1, e) <- activate_level (stop_side SELL) (market_of SELL e1) e1; do '(r1, e) <- (if (r1 : bool) then Ok (true, e) else activate_level (trail_side SELL) (market_of SELL e) e); do e <- recalc SELL e; Ok (r1, e)) = Ok (r2, e') /\ r = orb r1 r2) as (r1 & e1 & r2 & H1 & H2 & ->).
  { unfold activate_round in H. cbn [stop_side trail_side market_of]. destruct (activate_level KBuyStop (market_ask (e_bk e)) e) as [[a1 u1]| |]; cbn [rbind] in H |- *; try done.
    destruct (if (a1 : bool) then Ok (true, u1) else activate_level KTrailBuy (market_ask (e_bk u1)) u1) as [[a2 u2]| |]; cbn [rbind] in H |- *; try done.
    destruct (recalc BUY u2) as [u3| |]; cbn [rbind] in H |- *; try done.
    destruct (activate_level KSellStop (market_bid (e_bk u3)) u3) as [[a4 u4]| |] eqn:E4; cbn [rbind] in H |- *; try done.
    destruct (if (a4 : bool) then Ok (true, u4) else activate_level KTrailSell (market_bid (e_bk u4)) u4) as [[a5 u5]| |] eqn:E5; cbn [rbind] in H |- *; try done.
    destruct (recalc SELL u5) as [u6| |] eqn:E6; cbn [rbind] in H |- *; try done. injection H as <- <-.
    exists a2, u3, a5. split; [done|]. rewrite E4. cbn [rbind]. rewrite E5. cbn [rbind]. rewrite E6. done. }
  destruct (side_turn_ok sid BUY e r1 e1 Hg H1) as (xs1 & W1 & R1 & C1 & D1 & F1).
  destruct (side_turn_ok sid SELL e1 r2 e' (m_fine _ _ _ _ R1) H2) as (xs2 & W2 & R2 & C2 & D2 & F2).
  exists (xs1 ++ xs2). unfold both_turn. rewrite W1, W2. split; [done|]. split; [by eapply moves_trans|]. split; [lia|]. split; [lia|].
  intros T. apply orb_true_iff in T as [T|T]; [specialize (F1 T)|specialize (F2 T)]; lia.
Qed.
Lemma turns_ok sid : forall fuel r0 e r e', fine sid e -> activate_loop fuel r0 e = Ok (r, e') ->
  exists t xs, (forall n, (waiters (ring_of e) <= n)%nat -> turns n (ring_of e) = (t, xs, ring_of e')) /\ moves sid e xs e' /\ r = r0 || t /\
    (waiters (ring_of e') <= waiters (ring_of e))%nat /\ (total_in (ring_of e') <= total_in (ring_of e))%nat /\ (t = true -> (waiters (ring_of e') < waiters (ring_of e))%nat).
Proof.
  induction fuel as [|fuel IH]; intros r0 e r e' Hg H; cbn [activate_loop] in H; [done|]. destruct (activate_round e) as [[r1 e1]| |] eqn:E; cbn [rbind] in H; try done.
  destruct (both_turn_ok sid e r1 e1 Hg E) as (xs & Hr & Hrun & Hc & Ht & Hd). destruct r1.
  - specialize (Hd eq_refl). destruct (IH true e1 r e' (m_fine _ _ _ _ Hrun) H) as (t & xs' & A & B & C & D1 & D2 & _). exists true, (xs ++ xs'). split.
    + intros n Hn. destruct n as [|n]; [lia|]. cbn [turns]. rewrite Hr. by rewrite (A n) by lia.
    + split; [by eapply moves_trans|]. split; [by rewrite C, orb_true_r|]. split; [lia|]. split; [lia|]. intros _. lia.
  - injection H as <- <-. exists false, xs. split; [intros [|n] _; cbn [turns]; by rewrite Hr|]. split; [done|]. split; [by rewrite orb_false_r|]. done.
Qed.

(** ** Crossed books *)
Definition crop (q : Z) (o : order) (rs : list order) : list order := if decide (q = o_leaves o) then without (o_id o) rs else changed (after_fill q o) rs.
Lemma cut_crop q o g : cut q o g = on_all (crop q o) g.
Proof. unfold cut, crop. by destruct (decide _). Qed.
Lemma crop_length q o rs : (length (crop q o rs) <= length rs)%nat.
Proof. unfold crop. destruct (decide _); [apply without_length|]. unfold changed. by rewrite map_length. Qed.
Lemma after_exec_ring e e' f s p o q : (forall k, orders_of k e' = f (orders_of k e)) -> bprices (e_bk e') = bprices (after_exec s p (e_bk e)) -> o_side o = s ->
  ring_of e' = note_last [(o, p, q)] (forget (on_all f (ring_of e))).
Proof.
  intros H Hb Hs. destruct (note_glist [(o, p, q)] (forget (on_all f (ring_of e)))) as [A1 A2]. destruct (forget_glist (on_all f (ring_of e))) as [B1 B2].
  pose proof (proj2 (all_glist KBid f (ring_of e))) as C2. apply ring_eq.
  - intros k. by rewrite A1, B1, (proj1 (all_glist _ _ _)), !ring_list.
  - intros sd. destruct (A2 sd) as (-> & _ & _). destruct (B2 sd) as (-> & _ & _). rewrite ring_now. destruct (prices_of sd _ _ Hb) as (-> & _). by destruct sd.
  - intros sd. destruct (A2 sd) as (_ & _ & ->). destruct (B2 sd) as (_ & _ & ->). destruct (C2 sd) as (_ & -> & _). rewrite !ring_last. destruct (prices_of sd _ _ Hb) as (_ & -> & _).
    cbn [fold_left]. unfold next_last. cbn [fst snd]. rewrite Hs. unfold after_exec. by destruct sd, s.
  - intros sd. destruct (A2 sd) as (_ & -> & _). destruct (B2 sd) as (_ & -> & _). destruct (C2 sd) as (_ & _ & ->). rewrite !ring_seen. destruct (prices_of sd _ _ Hb) as (_ & _ & ->). by destruct sd, s.
Qed.
Lemma reduced_moves sid e e' o o' u m' q evs : fine sid e -> e_ords e !! o_id o = Some o -> o_sym o = sid ->
  o_id o' = o_id o -> o_sym o' = o_sym o -> o_tif o' = o_tif o -> o_leaves o' = o_leaves o - q ->
  eng_ok sid e' -> e_ords e' = reduced_map (e_ords e) o' ->
  prim m' (okind o) (okey o) (if q =? o_leaves o then filter (fun j => j <> o_id o) (queue (e_bk e) (okind o) (okey o)) else queue (e_bk e) (okind o) (okey o)) (e_bk e) (e_bk e') u ->
  e_log e' = e_log e ++ evs ->
  moves sid e (execs evs) e' /\ forall k, orders_of k e' = (if decide (q = o_leaves o) then without (o_id o) else changed o') (orders_of k e).
Proof.
  intros Hg Ho Hs Eid Esym Etif Elv He' Hords Hpr Hlog. unfold reduced_map in Hords. destruct (decide (q = o_leaves o)) as [E|E].
  - rewrite (proj2 (Z.eqb_eq _ _) E) in Hpr. rewrite (proj2 (Z.eqb_eq (o_leaves o') 0)), Eid in Hords by lia. by eapply leaves_ok.
  - rewrite (proj2 (Z.eqb_neq _ _) E) in Hpr. rewrite (proj2 (Z.eqb_neq (o_leaves o') 0)), Eid in Hords by lia. by eapply (alters_ok sid e e' o o').
Qed.
Lemma cut_delete sid e x p e1 : fine sid e -> e_ords e !! o_id x = Some x -> o_sym x = sid -> exec_delete x p (o_leaves x) e = Ok e1 ->
  moves sid e [(x, p, o_leaves x)] e1 /\ ring_of e1 = note_last [(x, p, o_leaves x)] (forget (cut (o_leaves x) x (ring_of e))) /\ (forall j, j <> o_id x -> e_ords e1 !! j = e_ords e !! j).
Proof.
  intros Hg Hx Hs H. destruct (exec_delete_ok sid e x p (o_leaves x) (f_ok _ _ Hg) Hx Hs) as (u & e2 & Heq & He & Hords & Hlog & Hbp & Hpr). rewrite H in Heq. injection Heq as <-.
  destruct (leaves_ok sid e e1 x u _ _ Hg Hx Hs He Hords Hpr Hlog) as [A B].
  change (EExecute x p (o_leaves x) :: lim_evs x sid u ++ [EDeleteOrder (exec_incr (o_leaves x) x)]) with ([EExecute x p (o_leaves x)] ++ lim_evs x sid u ++ [EDeleteOrder (exec_incr (o_leaves x) x)]) in A.
  rewrite !execs_app, lim_execs in A. split; [done|]. split; [|intros j Hj; by rewrite Hords, lookup_delete_ne].
  rewrite cut_crop. eapply after_exec_ring; [|done|done]. intros k. unfold crop. by rewrite decide_True.
Qed.
Lemma cut_reduce sid e r p q e1 : fine sid e -> e_ords e !! o_id r = Some r -> o_sym r = sid -> 0 < q <= o_leaves r -> exec_reduce r p q e = Ok e1 ->
  moves sid e [(r, p, q)] e1 /\ ring_of e1 = note_last [(r, p, q)] (forget (cut q r (ring_of e))) /\ (forall j, j <> o_id r -> e_ords e1 !! j = e_ords e !! j).
Proof.
  intros Hg Hr Hs Hq H. destruct (exec_reduce_ok sid e r p q (f_ok _ _ Hg) Hr Hs Hq) as (u & e2 & Heq & He & Hords & Hlog & Hbp & Hpr). rewrite H in Heq. injection Heq as <-.
  destruct (reduced_moves sid e e1 r (executed q r) u _ q _ Hg Hr Hs eq_refl eq_refl eq_refl eq_refl He Hords Hpr Hlog) as [A B].
  change (EExecute r p q :: red_ev (executed q r) :: lim_evs r sid u) with ([EExecute r p q] ++ [red_ev (executed q r)] ++ lim_evs r sid u) in A.
  rewrite !execs_app, lim_execs in A. assert (Hre : execs [red_ev (executed q r)] = []) by (unfold red_ev; by destruct (_ =? 0)). rewrite Hre in A. split; [done|]. split.
  - rewrite cut_crop. eapply after_exec_ring; [|done|done]. intros k. rewrite B. unfold crop. rewrite after_fill_executed. by destruct (decide _).
  - intros j Hj. rewrite Hords. unfold reduced_map. cbn [o_id executed]. destruct (_ =? 0); [by rewrite lookup_delete_ne|by rewrite lookup_insert_ne].
Qed.
Lemma cut_note f x p q r g : note_last [(r, p, q)] (forget (on_all f (note_last [(x, p, q)] (forget g)))) = note_last [(x, p, q); (r, p, q)] (forget (on_all f g)).
Proof. unfold note_last. cbn [fold_left fst snd]. destruct g as [[] []]. by destruct (o_side x), (o_side r). Qed.
Lemma note_count xs f g : (forall l, (length (f l) <= length l)%nat) -> (waiters (note_last xs (forget (on_all f g))) <= waiters g)%nat /\ (resters (note_last xs (forget (on_all f g))) <= resters g)%nat.
Proof.
  intros H. destruct (note_glist xs (forget (on_all f g))) as [A _]. destruct (forget_glist (on_all f g)) as [B _].
  rewrite (waiters_same (on_all f g)), (resters_same (on_all f g)) by (intros k _; by rewrite A, B). by apply all_count.
Qed.
Lemma pair_off_ok sid bp ap : forall bs os e fl e', fine sid e ->
  (forall b, b ∈ bs -> e_ords e !! o_id b = Some b /\ o_sym b = sid /\ okind b = KBid) -> (forall a, a ∈ os -> e_ords e !! o_id a = Some a /\ o_sym a = sid /\ okind a = KAsk) ->
  NoDup (map o_id bs) -> NoDup (map o_id os) -> match_pairs bp ap (map o_id bs) (map o_id os) e = Ok (fl, e') ->
  fl = Break /\ exists xs, pair_off bs os (ring_of e) = (xs, ring_of e') /\ moves sid e xs e' /\
    (waiters (ring_of e') <= waiters (ring_of e))%nat /\ (resters (ring_of e') <= resters (ring_of e))%nat /\ (bs <> [] -> os <> [] -> (resters (ring_of e') < resters (ring_of e))%nat).
Proof.
  induction bs as [|b bs IH]; intros os e fl e' Hg Hb Ha Nb Na H; cbn [map match_pairs pair_off] in *.
  { injection H as <- <-. split; [done|]. exists []. split; [done|]. split; [by apply moves_refl|]. done. }
  destruct os as [|a os]; cbn [map] in *.
  { injection H as <- <-. split; [done|]. exists []. split; [done|]. split; [by apply moves_refl|]. done. }
  destruct (Hb b ltac:(left)) as (B1 & B2 & B3). destruct (Ha a ltac:(left)) as (A1 & A2 & A3). pose proof (f_ok _ _ Hg) as He.
  rewrite B1, A1 in H. cbn [of_opt rbind] in H.
  pose proof (elem_orders sid e _ b He B1 B2) as Eb. pose proof (elem_orders sid e _ a He A1 A2) as Ea.
  assert (is_aon b = false /\ is_aon a = false) as [Nob Noa] by (split; apply bool_decide_eq_false; by eapply f_aon). rewrite Nob, Noa in H. cbn [orb] in H.
  pose proof (lo_leaves _ _ (mo_live _ (proj1 He) _ _ B1)) as Lb. pose proof (lo_leaves _ _ (mo_live _ (proj1 He) _ _ A1)) as La.
  apply NoDup_cons in Nb as [Nb1 Nb2]. apply NoDup_cons in Na as [Na1 Na2].
  assert (Hsp : exists x r, (if decide (o_leaves a < o_leaves b) then (a, b) else (b, a)) = (x, r) /\ (if o_leaves a <? o_leaves b then (a, b) else (b, a)) = (x, r) /\
     (x = a /\ r = b \/ x = b /\ r = a) /\ o_leaves x <= o_leaves r).
  { destruct (Z.ltb_spec (o_leaves a) (o_leaves b)); [rewrite decide_True by done|rewrite decide_False by lia]; eexists _, _; (split; [done|]); (split; [done|]); (split; [auto|lia]). }
  destruct Hsp as (x & r & E1 & E2 & Hxr & Hle). rewrite E1. rewrite E2 in H. cbn iota in H.
  assert (Hx : e_ords e !! o_id x = Some x /\ o_sym x = sid /\ 0 < o_leaves x /\ x ∈ orders_of (okind x) e /\ (okind x = KBid \/ okind x = KAsk)) by (destruct Hxr as [[-> ->]|[-> ->]]; rewrite ?B3, ?A3 in *; auto 10).
  assert (Hr : e_ords e !! o_id r = Some r /\ o_sym r = sid) by (destruct Hxr as [[-> ->]|[-> ->]]; auto).
  destruct Hx as (Hx & Hxs & Hxl & Hxe & Hxk). destruct Hr as (Hr & Hrs).
  assert (Hne : o_id r <> o_id x). { intros E. rewrite E, Hx in Hr. injection Hr as ->. destruct Hxr as [[-> ->]|[-> ->]]; congruence. }
  destruct (exec_delete x (o_price x) (o_leaves x) e) as [e1| |] eqn:D1; cbn [rbind] in H; try done.
  destruct (cut_delete sid e x _ e1 Hg Hx Hxs D1) as (M1 & R1 & O1).
  destruct (exec_reduce r (o_price x) (o_leaves x) e1) as [e2| |] eqn:D2; cbn [rbind] in H; try done.
  destruct (cut_reduce sid e1 r (o_price x) (o_leaves x) e2 (m_fine _ _ _ _ M1) ltac:(by rewrite O1) Hrs ltac:(lia) D2) as (M2 & R2 & O2).
  assert (Hoth : forall j, j <> o_id b -> j <> o_id a -> e_ords e2 !! j = e_ords e !! j). { intros j J1 J2. rewrite O2, O1; [done|..]; destruct Hxr as [[-> ->]|[-> ->]]; done. }
  assert (Hba : o_id b <> o_id a). { intros E. rewrite E, A1 in B1. injection B1 as ->. congruence. }
  destruct (IH os e2 fl e' (m_fine _ _ _ _ M2)) as (-> & xs & P & M & C1 & C2 & _); [| |done|done|done|].
  { intros y Hy. destruct (Hb y ltac:(by right)) as (Y1 & Y2 & Y3). rewrite Hoth; [done|..].
    - intros E. apply Nb1. rewrite <- E. by apply elem_of_list_fmap_1.
    - intros E. rewrite E, A1 in Y1. injection Y1 as ->. congruence. }
  { intros y Hy. destruct (Ha y ltac:(by right)) as (Y1 & Y2 & Y3). rewrite Hoth; [done|..].
    - intros E. rewrite E, B1 in Y1. injection Y1 as ->. congruence.
    - intros E. apply Na1. rewrite <- E. by apply elem_of_list_fmap_1. }
  split; [done|]. rewrite R1, (cut_crop _ r), cut_note in R2. rewrite (cut_crop _ r), <- R2, P.
  exists ([(x, o_price x, o_leaves x); (r, o_price x, o_leaves x)] ++ xs). split; [done|]. split.
  - eapply moves_trans; [|done]. change [(x, o_price x, o_leaves x); (r, o_price x, o_leaves x)] with ([(x, o_price x, o_leaves x)] ++ [(r, o_price x, o_leaves x)]). by eapply moves_trans.
  - destruct (note_count [(x, o_price x, o_leaves x); (r, o_price x, o_leaves x)] (crop (o_leaves x) r) (cut (o_leaves x) x (ring_of e)) (crop_length _ _)) as [N1 N2]. rewrite <- R2 in N1, N2.
    pose proof (all_count (crop (o_leaves x) x) (ring_of e) (crop_length _ _)) as [N3 N4]. rewrite <- cut_crop in N3, N4.
    assert (N5 : (resters (cut (o_leaves x) x (ring_of e)) < resters (ring_of e))%nat).
    { unfold cut. rewrite decide_True by done. eapply gone_resters; [done|by rewrite ring_list|done]. }
    split; [lia|]. split; [lia|]. intros _ _. lia.
Qed.
Lemma level_front sid e sd p r os L : eng_ok sid e -> cview e (side_kind sd) ((p, r :: os) :: L) -> level_of (flat ((p, r :: os) :: L)) = r :: os /\ o_price r = p.
Proof.
  intros He HL.
  assert (Hkey : forall q rs x, (q, rs) ∈ (p, r :: os) :: L -> x ∈ rs -> o_price x = q).
  { intros q rs x H1 H2. destruct (cview_order sid e _ _ q rs x He HL H1 H2) as (_ & _ & A & B & C). destruct (side_kind_type x _ (lo_type _ _ C) A) as [D E]. destruct (limit_kind x D) as [_ F]. congruence. }
  pose proof (Hkey p (r :: os) r ltac:(left) ltac:(left)) as Hp. split; [|done]. change (flat ((p, r :: os) :: L)) with ((r :: os) ++ flat L).
  unfold level_of. cbn [app]. change (r :: os ++ flat L) with ((r :: os) ++ flat L). rewrite filter_app. assert (filter (fun x => o_price x = o_price r) (flat L) = []) as ->.
  { apply filter_nil. intros x Hx E. apply elem_flat in Hx as (q & rs & Hin & Hx).
    pose proof (cv_sorted _ _ _ HL) as Hst. apply StronglySorted_inv in Hst as [_ Hst]. rewrite Forall_forall in Hst. specialize (Hst _ Hin). cbn in Hst.
    pose proof (Hkey q rs x ltac:(by right) Hx) as E2. rewrite <- E2, E, Hp, better_irrefl in Hst. done. }
  rewrite app_nil_r. apply filter_whole. intros x Hx. rewrite Hp. by apply (Hkey p (r :: os)); [left|].
Qed.
Lemma crossing_ok sid e : eng_ok sid e -> (crossing (ring_of e) <-> crossed e <> None).
Proof.
  intros He. unfold crossing. cbn [ring_of g_buy g_sell half_in q_rest side_kind]. destruct (view_of sid e KBid He) as (LB & HB & <-). destruct (view_of sid e KAsk He) as (LA & HA & <-). unfold crossed.
  destruct LB as [|[p os] LB]; [rewrite (cview_nil sid e KBid He HB); cbn; tauto|]. destruct (cv_q _ _ _ HB p os ltac:(left)) as (Hne & _ & _). destruct os as [|b os]; [done|].
  destruct (cview_front sid e _ p b os LB He HB) as (-> & _ & _). destruct (level_front sid e BUY p b os LB He HB) as [_ Hp]. change (flat ((p, b :: os) :: LB)) with (b :: os ++ flat LB). cbn iota.
  destruct LA as [|[p' os'] LA]; [rewrite (cview_nil sid e KAsk He HA); cbn; tauto|]. destruct (cv_q _ _ _ HA p' os' ltac:(left)) as (Hne' & _ & _). destruct os' as [|a os']; [done|].
  destruct (cview_front sid e _ p' a os' LA He HA) as (-> & _ & _). destruct (level_front sid e SELL p' a os' LA He HA) as [_ Hp']. change (flat ((p', a :: os') :: LA)) with (a :: os' ++ flat LA). cbn iota.
  rewrite Hp, Hp'. destruct (Z.leb_spec p' p); split; [done|done|lia|done].
Qed.
Lemma uncross_ok sid : forall fuel e r e', fine sid e -> match_while fuel e = Ok (r, e') -> r = false /\
  exists xs, (forall n, (total_in (ring_of e) <= n)%nat -> uncross n (ring_of e) = (xs, ring_of e')) /\ moves sid e xs e' /\ (waiters (ring_of e') <= waiters (ring_of e))%nat.
Proof.
  induction fuel as [|fuel IH]; intros e r e' Hg H; cbn [match_while] in H; [done|]. pose proof (f_ok _ _ Hg) as He. pose proof (crossing_ok sid e He) as Hc.
  destruct (crossed e) as [[bp ap]|] eqn:Ec.
  2: { injection H as <- <-. split; [done|]. exists []. split; [|split; [by apply moves_refl|done]]. intros [|n] _; cbn [uncross]; [done|]. rewrite decide_False by (intros X; by apply Hc in X). done. }
  destruct (crossed_some _ _ _ Ec) as (Hbb & Hba & _).
  destruct (view_of sid e KBid He) as (LB & HB & FB). destruct (view_of sid e KAsk He) as (LA & HA & FA).
  assert (HLB : exists b os L, LB = (bp, b :: os) :: L).
  { destruct LB as [|[p os] LB]; [by rewrite (cview_nil sid e KBid He HB) in Hbb|]. destruct (cv_q _ _ _ HB p os ltac:(left)) as (Hne & _ & _). destruct os as [|b os]; [done|].
    destruct (cview_front sid e _ p b os LB He HB) as (E & _ & _). rewrite Hbb in E. injection E as <-. eauto. }
  assert (HLA : exists b os L, LA = (ap, b :: os) :: L).
  { destruct LA as [|[p os] LA]; [by rewrite (cview_nil sid e KAsk He HA) in Hba|]. destruct (cv_q _ _ _ HA p os ltac:(left)) as (Hne & _ & _). destruct os as [|b os]; [done|].
    destruct (cview_front sid e _ p b os LA He HA) as (E & _ & _). rewrite Hba in E. injection E as <-. eauto. }
  destruct HLB as (b & bs & L1 & ->). destruct HLA as (a & os & L2 & ->).
  destruct (cview_find sid e KBid bp (b :: bs) L1 He HB) as (lb & Hlb & Ib). destruct (cview_find sid e KAsk ap (a :: os) L2 He HA) as (la & Hla & Ia).
  rewrite Hlb, Hla in H. cbn [of_opt rbind] in H. rewrite Ib, Ia in H.
  destruct (match_pairs bp ap (map o_id (b :: bs)) (map o_id (a :: os)) e) as [[fl e1]| |] eqn:E1; cbn [rbind] in H; try done.
  destruct (pair_off_ok sid bp ap (b :: bs) (a :: os) e fl e1 Hg) as (-> & xs1 & P1 & M1 & C1 & C2 & C3); [| | | |done|].
  { intros x Hx. destruct (cview_order sid e KBid _ bp (b :: bs) x He HB ltac:(left) Hx) as (X1 & X2 & X3 & _). done. }
  { intros x Hx. destruct (cview_order sid e KAsk _ ap (a :: os) x He HA ltac:(left) Hx) as (X1 & X2 & X3 & _). done. }
  { pose proof (orders_ids sid e KBid He) as Hnd. rewrite <- FB in Hnd. change (flat ((bp, b :: bs) :: L1)) with ((b :: bs) ++ flat L1) in Hnd. rewrite map_app in Hnd. by apply NoDup_app in Hnd as [? _]. }
  { pose proof (orders_ids sid e KAsk He) as Hnd. rewrite <- FA in Hnd. change (flat ((ap, a :: os) :: L2)) with ((a :: os) ++ flat L2) in Hnd. rewrite map_app in Hnd. by apply NoDup_app in Hnd as [? _]. }
  specialize (C3 ltac:(done) ltac:(done)).
  destruct (activate_level KBuyStop (market_ask (e_bk e1)) e1) as [[r2 e2]| |] eqn:E2; cbn [rbind] in H; try done.
  destruct (volley_ok sid KBuyStop BUY e1 r2 e2 (or_introl eq_refl) (m_fine _ _ _ _ M1) E2) as (xs2 & P2 & M2 & W2 & T2 & _).
  destruct (activate_level KSellStop (market_bid (e_bk e2)) e2) as [[r3 e3]| |] eqn:E3; cbn [rbind] in H; try done.
  destruct (volley_ok sid KSellStop SELL e2 r3 e3 (or_introl eq_refl) (m_fine _ _ _ _ M2) E3) as (xs3 & P3 & M3 & W3 & T3 & _).
  destruct (IH e3 r e' (m_fine _ _ _ _ M3) H) as (-> & xs4 & P4 & M4 & W4). split; [done|]. unfold total_in in *.
  exists (xs1 ++ xs2 ++ xs3 ++ xs4). split; [|split; [|lia]].
  - intros n Hn. destruct n as [|n]; [lia|]. cbn [uncross]. rewrite decide_True by (by apply Hc).
    change (q_rest (g_buy (ring_of e))) with (orders_of KBid e). change (q_rest (g_sell (ring_of e))) with (orders_of KAsk e). rewrite <- FB, <- FA.
    rewrite (proj1 (level_front sid e BUY bp b bs L1 He HB)), (proj1 (level_front sid e SELL ap a os L2 He HA)), P1.
    change (q_stops (g_buy (ring_of e1))) with (glist KBuyStop (ring_of e1)). rewrite P2.
    change (q_stops (g_sell (ring_of e2))) with (glist KSellStop (ring_of e2)). rewrite P3. rewrite (P4 n) by lia. done.
  - eapply moves_trans; [done|]. eapply moves_trans; [done|]. by eapply moves_trans.
Qed.
Lemma clear_ok sid : forall fuel e e', fine sid e -> match_loop fuel e = Ok e' ->
  exists xs, (forall n, (waiters (ring_of e) <= n)%nat -> clear n (ring_of e) = (xs, ring_of e')) /\ moves sid e xs e'.
Proof.
  induction fuel as [|fuel IH]; intros e e' Hg H; cbn [match_loop] in H; [done|].
  destruct (match_while (fuel_of e) e) as [[ret e1]| |] eqn:E1; cbn [rbind] in H; try done. destruct (uncross_ok sid _ _ _ _ Hg E1) as (-> & xs1 & P1 & M1 & W1). cbn iota in H.
  destruct (activate_all e1) as [[again e2]| |] eqn:E2; cbn [rbind] in H; try done. destruct (turns_ok sid _ _ _ _ _ (m_fine _ _ _ _ M1) E2) as (t & xs2 & P2 & M2 & Ht & W2 & _ & W3). cbn [orb] in Ht. subst again.
  pose proof (P1 _ (le_n _)) as Q1. pose proof (P2 _ (le_n _)) as Q2. unfold total_in in Q1. destruct t.
  - specialize (W3 eq_refl). destruct (IH e2 e' (m_fine _ _ _ _ M2) H) as (xs3 & P3 & M3). exists (xs1 ++ xs2 ++ xs3). split.
    + intros n Hn. destruct n as [|n]; [lia|]. cbn [clear]. rewrite Q1, Q2. by rewrite (P3 n) by lia.
    + eapply moves_trans; [done|]. by eapply moves_trans.
  - injection H as <-. exists (xs1 ++ xs2). split; [|by eapply moves_trans]. intros [|n] _; cbn [clear]; by rewrite Q1, Q2.
Qed.
Lemma cleared_ok sid e e' : fine sid e -> match_book e = Ok e' -> exists xs, cleared (ring_of e) = (xs, ring_of e') /\ moves sid e xs e'.
Proof. intros Hg H. destruct (clear_ok sid _ _ _ Hg H) as (xs & P & M). exists xs. split; [by apply P|done]. Qed.
Lemma reset_ring e : ring_of (reset_m e) = forget (ring_of e).
Proof. done. Qed.
Lemma finish_ring sid mt e e' er : fine sid e -> finish mt e = Ok (e', er) -> er = OK /\ exists xs g, (if mt then cleared (ring_of e) else ([], ring_of e)) = (xs, g) /\ ring_of e' = forget g /\ moves sid e xs e'.
Proof.
  intros Hg H. unfold finish in H. assert (Hm : forall e1 xs, moves sid e xs e1 -> moves sid e xs (reset_m e1)) by (intros e1 xs M; by eapply moves_same).
  destruct mt.
  - destruct (match_book e) as [e1| |] eqn:E; cbn [rbind] in H; try done. injection H as <- <-. split; [done|]. destruct (cleared_ok sid e e1 Hg E) as (xs & Hc & M). exists xs, (ring_of e1). auto.
  - cbn [rbind] in H. injection H as <- <-. split; [done|]. exists [], (ring_of e). split; [done|]. split; [done|]. apply Hm. by apply moves_refl.
Qed.
