(** * PropsRef.v -- matching is the reference algorithm of Spec7.v: C48. *)
From Coq Require Import ZifyBool.
From stdpp Require Import fin_maps relations sorting.
From Verif Require Import Types Book Engine Manager Factory Validate LevelFacts BookInv EngInv EngPrim Steps StepsOk Refine1 Refine2 Refine3 Refine4 Api StateInv Micro Reach Calls Trades Settle Witness PropsState PropsSettle CallFacts PropsTrades PropsOrders PropsFok PropsFill PropsReject RefMatch Spec Spec2 Spec3 Spec5 Spec6 Spec7.

Lemma cview_emit ev e k L : cview e k L -> cview (emit ev e) k L.
Proof. intros []. by constructor. Qed.
Lemma reference_eq o rs own : reference o rs own =
  let x := arriving o rs in
  if decide (o_tif o = FOK) then
    if decide (o_leaves x <= supply x rs)
    then (map (fun y => (fst y, o_price x, snd y)) (taken x rs) ++ [(x, o_price x, o_leaves x)], remaining x rs, own)
    else ([], rs, own)
  else
    (fills x rs, remaining x rs, if decide (0 < o_leaves (filled x rs) /\ o_tif o = GTC) then place (filled x rs) own else own).
Proof. unfold reference, matched. cbv zeta. destruct (decide (o_tif o = FOK)); [by destruct (decide _)|by destruct (decide _)]. Qed.
Definition meet (o : order) (e : eng) : res (order * eng) :=
  match o_type o with MARKET => match_market o e | _ => match_order o e end.
Lemma meet_ref sid e o L : eng_ok sid e -> fly_ok sid (e_ords e) o -> 0 < o_leaves o -> o_tif o <> AON ->
  cview e (opp (o_side o)) L -> plain_lists L ->
  let x := arriving o (flat L) in let '(xs, rs, _) := reference o (flat L) [] in
  exists o' e1 evs L', meet o e = Ok (o', e1) /\ same_kind x o' /\ e_log e1 = e_log e ++ evs /\ execs evs = xs /\ frame sid (e_ords e) (e_ords e1) /\
    eng_ok sid e1 /\ only_side sid (opp (o_side o)) e e1 /\ cview e1 (opp (o_side o)) L' /\ flat L' = rs /\
    (o_tif o <> FOK -> o' = filled x (flat L) /\ fly_ok sid (e_ords e1) o') /\
    fly_ok sid (e_ords e1) o' /\ quotes e1 = noted (o_side o) (execs evs) (quotes e) /\
    (o_tif o = FOK -> o' = if decide (o_leaves x <= supply x (flat L)) then after_fill (o_leaves x) x else x).
Proof.
  intros He Hfl Hlv Haon Hv Hna x. rewrite reference_eq. cbv zeta. fold x.
  assert (Hx : exists p, u64_range p /\ x = set_price p o).
  { unfold x, arriving. destruct (o_type o), (flat L) as [|r rs] eqn:EL; try (exists (o_price o); split; [by apply Hfl|by destruct o]).
    eexists. split; [|reflexivity]. assert (Hr : r ∈ flat L) by (rewrite EL; left). apply elem_flat in Hr as (p & os & Hin & Hr).
    destruct (cview_order sid e _ L p os r He Hv Hin Hr) as (_ & _ & _ & _ & Hl). pose proof (lo_price _ _ Hl) as Hrp. pose proof (fl_slip _ _ _ Hfl) as Hs. unfold u64_range, MAX64 in *. destruct (o_side o); lia. }
  destruct Hx as (px & Hpx & Ex).
  assert (Hm : meet o e = match_order x e).
  { unfold meet. destruct (o_type o) eqn:Et; try (unfold x, arriving; by rewrite Et). unfold match_market.
    destruct L as [|[p os] L].
    - rewrite (cview_nil sid e _ He Hv). unfold x, arriving. rewrite Et. cbn [flat map concat]. unfold match_order. cbn [match_order_loop]. by rewrite (cview_nil sid e _ He Hv).
    - destruct (cv_q _ _ _ Hv p os) as (Hne & _ & _); [left|]. destruct os as [|r os]; [done|]. clear Hne.
      pose proof (cview_front _ _ _ _ _ _ _ He Hv) as Hf. rewrite (proj1 Hf). f_equal. unfold x, arriving. rewrite Et. cbn [flat map concat app snd].
      destruct (cview_order sid e _ _ p (r :: os) r He Hv ltac:(left) ltac:(left)) as (_ & _ & Hkr & Hpr & Hl).
      destruct (okind_bid_ask r (o_side o) (lo_type _ _ Hl) Hkr) as (_ & Hrp & _). rewrite <- Hrp, Hpr. f_equal.
      pose proof (fl_slip _ _ _ Hfl) as Hs. pose proof (lo_price _ _ Hl) as Hr. rewrite <- Hrp, Hpr in Hr. unfold market_price, u64_range, MAX64 in *. destruct (o_side o).
      + destruct (Z.ltb_spec (18446744073709551615 - o_slip o) p); lia.
      + destruct (Z.ltb_spec p (o_slip o)); lia. }
  rewrite Hm. clear Hm. assert (Es : o_side x = o_side o) by by rewrite Ex. assert (Et : o_tif x = o_tif o) by by rewrite Ex. assert (El : o_leaves x = o_leaves o) by by rewrite Ex.
  assert (Hflx : fly_ok sid (e_ords e) x). { rewrite Ex. by destruct Hfl. }
  assert (Hfr : forall o' e1, match_order x e = Ok (o', e1) -> frame sid (e_ords e) (e_ords e1) /\ fly_ok sid (e_ords e1) o').
  { intros o' e1 Heq. destruct (match_order_ok sid e x He Hflx ltac:(lia)) as (o1 & e2 & Heq2 & Hrt & _). rewrite Heq in Heq2. injection Heq2 as <- <-.
    destruct (tsteps_ok sid _ _ Hrt He Hflx) as (_ & Hf1 & Hsh). split; [exact (sh_frame _ _ _ Hsh)|exact Hf1]. }
  clearbody x. rewrite <- Es in Hv |- *. destruct (decide (o_tif o = FOK)) as [Hf|Hf].
  - pose proof (fl_total _ _ _ Hfl) as Htot. pose proof (total_ge0 sid e He) as Ht0.
    destruct (match_fok_ref sid e x L He ltac:(rewrite El; lia) ltac:(unfold is_fok; by rewrite Et, Hf) Hv Hna) as (o' & e1 & evs & L' & Heq & Hk & Hm1 & Hlog & He1 & Ho1 & Hv1 & Hcase).
    destruct (decide (o_leaves x <= supply x (flat L))) as [Hd|Hd].
    + destruct Hcase as (Hx & Hfl' & Ho'). exists o', e1, evs, L'. split_and!; try done; by eapply Hfr.
    + destruct Hcase as (-> & -> & Ho'). exists o', e1, [], L. split_and!; try done; by eapply Hfr.
  - destruct (match_order_ref sid e x L He Hflx ltac:(lia)) as (e1 & evs & L' & Heq & Hlog & Hx & He1 & Hf1 & Ho1 & Hv1 & Hfl' & Hm1); try done.
    { unfold is_fok. rewrite Et. by apply bool_decide_eq_false. } { unfold is_aon. rewrite Et. by apply bool_decide_eq_false. }
    exists (filled x (flat L)), e1, evs, L'. split_and!; try done; [apply filled_kind|by eapply Hfr|by rewrite Hx].
Qed.

(** The order, once matched, rests or goes. *)
Definition lay (o : order) (e : eng) : eng :=
  if (0 <? o_leaves o) && negb (immediate o) then eng_add o (put o e) else emit (EDeleteOrder o) e.
Lemma meet_lay_ref sid e o L M : eng_ok sid e -> fly_ok sid (e_ords e) o -> 0 < o_leaves o -> o_tif o <> AON ->
  o_type o = LIMIT \/ (o_type o = MARKET /\ immediate o = true) ->
  cview e (opp (o_side o)) L -> plain_lists L -> cview e (side_kind (o_side o)) M ->
  exists o' e1 evs L', meet o e = Ok (o', e1) /\ o_id o' = o_id o /\ immediate o' = immediate o /\
    e_log e1 = e_log e ++ evs /\ matched o (flat L) = (execs evs, flat L', if (0 <? o_leaves o') && negb (immediate o') then Some o' else None) /\
    eng_ok sid e1 /\ frame sid (e_ords e) (e_ords e1) /\ (forall j, e_ords e !! j = None -> e_ords e1 !! j = None) /\
    cview e1 (opp (o_side o)) L' /\ cview e1 (side_kind (o_side o)) M /\
    (forall k, k <> KBid -> k <> KAsk -> get_side k (e_bk e1) = get_side k (e_bk e)) /\
    (e_ords e1 !! o_id o = None -> let e2 := lay o' e1 in exists evs2 M',
       eng_ok sid e2 /\ frame sid (e_ords e) (e_ords e2) /\ e_log e2 = e_log e1 ++ evs2 /\ execs evs2 = [] /\
       cview e2 (opp (o_side o)) L' /\ cview e2 (side_kind (o_side o)) M' /\
       flat M' = (if (0 <? o_leaves o') && negb (immediate o') then place o' (flat M) else flat M) /\
       (forall k, k <> KBid -> k <> KAsk -> get_side k (e_bk e2) = get_side k (e_bk e)) /\ (crossed e = None -> crossed e2 = None)) /\
    ((0 <? o_leaves o') && negb (immediate o') = false -> crossed e = None -> crossed (emit (EDeleteOrder o') e1) = None).
Proof.
  intros He Hfl Hlv Haon Hty Hv Hna HvM. pose proof (meet_ref sid e o L He Hfl Hlv Haon Hv Hna) as H. cbv zeta in H.
  set (x := arriving o (flat L)) in *. assert (Hkk : side_kind (o_side o) <> opp (o_side o)) by by destruct (o_side o).
  destruct (reference o (flat L) []) as [[xs rs] ow] eqn:Eref.
  destruct H as (o' & e1 & evs & L' & Heq & Hk & Hlog & Hxs & Hframe & He1 & Ho1 & Hv1 & Hfl1 & Hrest & _).
  assert (HvM1 : cview e1 (side_kind (o_side o)) M) by exact (cview_other sid (opp (o_side o)) _ e e1 M He Hkk Ho1 HvM).
  assert (Hx : exists p, x = set_price p o). { unfold x, arriving. destruct (o_type o), (flat L); try (exists (o_price o); by destruct o). eexists. reflexivity. }
  destruct Hx as (px & Ex).
  assert (Hxk : o_id x = o_id o /\ o_sym x = o_sym o /\ o_type x = o_type o /\ o_side x = o_side o /\ o_tif x = o_tif o) by by rewrite Ex.
  destruct Hxk as (X1 & X2 & X3 & X4 & X5). destruct Hk as (K1 & K2 & K3 & K4 & K5 & _ & _ & K8 & _).
  assert (Hsides : forall k, k <> KBid -> k <> KAsk -> get_side k (e_bk e1) = get_side k (e_bk e)).
  { intros k H1 H2. eapply os_sides; [done|]. destruct (o_side o); done. }
  assert (Himm : immediate o' = immediate o) by (unfold immediate, is_ioc, is_fok; by rewrite K8, X5).
  assert (Hid : o_id o' = o_id o) by congruence.
  (* crossing, for any own side whose orders are old or out of reach *)
  assert (Hcr : forall e2 M', eng_ok sid e2 -> cview e2 (opp (o_side o)) L' -> cview e2 (side_kind (o_side o)) M' ->
     (forall y, y ∈ flat M' -> y ∈ flat M \/ (o_tif o <> FOK /\ o_type o = LIMIT /\ o_price y = o_price o /\ 0 < o_leaves o' )) -> crossed e = None -> crossed e2 = None).
  { intros e2 M' He2 HvL2 HvM2 Hy Hc.
    assert (Hrs : forall z, z ∈ flat L' -> (exists r, r ∈ flat L /\ o_price r = o_price z) /\
              (o_tif o <> FOK -> o_type o = LIMIT -> 0 < o_leaves o' -> ~ within_limit o (o_price z))).
    { intros z Hz. rewrite Hfl1 in Hz. rewrite reference_eq in Eref. cbv zeta in Eref. fold x in Eref.
      assert (Hrem : z ∈ remaining x (flat L) -> exists r, r ∈ flat L /\ o_price r = o_price z) by apply remaining_prices.
      destruct (decide (o_tif o = FOK)) as [Ef|Ef].
      - split; [|done]. destruct (decide _); injection Eref as _ <- _; [auto|eauto].
      - injection Eref as _ <- _. split; [auto|]. intros _ Et Hl'. destruct (Hrest Ef) as [-> _].
        assert (Exo : x = o) by (unfold x, arriving; by rewrite Et). rewrite Exo in Hz, Hl'. eapply remaining_far; [| |exact Hl'|done].
        + apply flat_sorted; [|by eapply cv_sorted]. rewrite opp_side in Hv. exact (cview_prices sid e _ L He Hv).
        + intros r Hr. apply elem_flat in Hr as (p & os & Hin & Hr). by apply (good_intro sid e _ L He Hv Hna p os r). }
    destruct (o_side o) eqn:Esd; cbn [opp side_kind] in *.
    - apply (crossed_lists sid e2 M' L' He2 HvM2 HvL2). intros a b Ha Hb. destruct (Hrs b Hb) as [(r & Hr & Er) Hfar].
      destruct (Hy a Ha) as [Ha'|(Y1 & Y2 & Y3 & Y4)].
      + rewrite <- Er. by apply (proj1 (crossed_lists sid e M L He HvM Hv) Hc).
      + specialize (Hfar Y1 Y2 Y4). unfold within_limit in Hfar. rewrite Esd in Hfar. lia.
    - apply (crossed_lists sid e2 L' M' He2 HvL2 HvM2). intros b a Hb Ha. destruct (Hrs b Hb) as [(r & Hr & Er) Hfar].
      destruct (Hy a Ha) as [Ha'|(Y1 & Y2 & Y3 & Y4)].
      + rewrite <- Er. by apply (proj1 (crossed_lists sid e L M He Hv HvM) Hc).
      + specialize (Hfar Y1 Y2 Y4). unfold within_limit in Hfar. rewrite Esd in Hfar. lia. }
  exists o', e1, evs, L'. split; [done|]. split; [done|]. split; [done|]. split; [done|]. split.
  { rewrite Hxs, Hfl1. rewrite reference_eq in Eref. cbv zeta in Eref. unfold matched. cbv zeta. fold x in Eref |- *. destruct (decide (o_tif o = FOK)) as [Ef|Ef].
    - assert (Ei : immediate o' = true) by (rewrite Himm; unfold immediate, is_fok; by rewrite Ef, orb_true_r). rewrite Ei, andb_false_r. destruct (decide _); by injection Eref as <- <- _.
    - injection Eref as <- <- _. destruct (Hrest Ef) as [Eo' _]. rewrite <- Eo'. f_equal. rewrite Himm. destruct (decide _) as [[Hp Hg]|Hn].
      + unfold immediate, is_ioc, is_fok. rewrite Hg. cbn. rewrite bool_decide_eq_false_2 by done. by rewrite (proj2 (Z.ltb_lt _ _) Hp).
      + destruct (Z.ltb_spec 0 (o_leaves o')); [|done]. cbn. unfold immediate, is_ioc, is_fok. destruct (o_tif o); try done. exfalso. auto. }
  split; [done|]. split; [done|]. split. { intros j Hj. by eapply os_none. }
  split; [done|]. split; [done|]. split; [exact Hsides|]. split.
  2: { intros _ Hc. apply (Hcr (emit (EDeleteOrder o') e1) M); [by apply emit_ok|by apply cview_emit|by apply cview_emit|auto|done]. }
  intros Hn1. cbv zeta. unfold lay. destruct ((0 <? o_leaves o') && negb (immediate o')) eqn:Ew.
  - pose proof Ew as Ew0. apply andb_true_iff in Ew as [Hpos Him]. apply Z.ltb_lt in Hpos. apply negb_true_iff in Him.
    assert (Hnf : o_tif o <> FOK). { intros E. rewrite Himm in Him. unfold immediate, is_fok in Him. rewrite E, orb_true_r in Him. done. }
    assert (Hlim : o_type o = LIMIT). { destruct Hty as [?|[_ Hi]]; [done|congruence]. }
    destruct (Hrest Hnf) as [Eo' Hfl'].
    assert (Hlive : live_ok (o_id o') o'). { eapply fly_live; [done|done|congruence|done]. }
    destruct (add_ref sid e1 o' M He1) as (e2 & evs2 & M' & Heq2 & He2 & Hlog2 & Hxs2 & _ & Hs2 & Hords2 & HvM2 & HM2 & Hother).
    { by rewrite Hid. } { done. } { apply Hfl'. } { by rewrite K2, X2, (fl_sym _ _ _ Hfl). } { congruence. } { by rewrite K4, X4. }
    assert (Esd' : o_side o' = o_side o) by congruence. rewrite Esd' in *. rewrite Heq2.
    exists evs2, M'. split; [done|]. split. { eapply frame_trans; [done|]. rewrite Hords2. apply frame_insert; [by rewrite Hid|]. by rewrite K2, X2, (fl_sym _ _ _ Hfl). }
    split; [done|]. split; [done|]. split; [apply Hother; [by apply not_eq_sym|done]|]. split; [done|]. split; [done|].
    split. { intros k H1 H2. rewrite Hs2 by (destruct (o_side o); done). auto. }
    eapply Hcr; [done|apply Hother; [by apply not_eq_sym|done]|done|]. intros y Hy. rewrite HM2 in Hy. apply elem_place in Hy as [->|Hy]; [right|by left].
    split; [done|]. split; [done|]. split; [|done]. assert (Exo : x = o) by (unfold x, arriving; by rewrite Hlim). congruence.
  - exists [EDeleteOrder o'], M. split; [by apply emit_ok|]. split; [done|]. split; [done|]. split; [done|].
    split; [by apply cview_emit|]. split; [by apply cview_emit|]. split; [done|]. split; [exact Hsides|]. apply (Hcr (emit (EDeleteOrder o') e1) M); [by apply emit_ok|by apply cview_emit|by apply cview_emit|auto].
Qed.

(** ** Whole calls *)
Lemma omap_ext_in {A B} (f g : A -> option B) (l : list A) : (forall x, f x = g x) -> omap f l = omap g l.
Proof. intros H. induction l as [|a l IH]; cbn; [done|]. rewrite H, IH. done. Qed.
Lemma resting_eng sid e s b0 sd L : get_book sid s = Some b0 -> eng_ok sid e -> cview e (side_kind sd) L -> resting (put_eng sid e s) sid sd = flat L.
Proof.
  intros Hb He Hv. unfold resting. rewrite (get_book_put _ _ _ _ _ Hb), decide_True by done. rewrite <- (flat_levels sid e _ L He Hv). apply omap_ext_in.
  intros j. unfold get_order. destruct (Z.eqb_spec j 0) as [->|]; [|done]. cbn. destruct (e_ords e !! 0) as [o|] eqn:E; [|done].
  pose proof (lo_idpos _ _ (mo_live _ (proj1 He) _ _ E)). lia.
Qed.
Lemma resting_view s i b sd : inv s -> get_book i s = Some b -> exists L, cview (eng_of b s) (side_kind sd) L /\ flat L = resting s i sd.
Proof.
  intros Hi Hb. pose proof (inv_eng _ _ _ Hi Hb) as He. destruct (cview_intro i (eng_of b s) (side_kind sd) He) as (L & _ & _ & Hv). exists L. split; [done|].
  unfold resting. rewrite Hb, <- (flat_levels i _ _ L He Hv). apply omap_ext_in. intros j. by rewrite get_order_inv.
Qed.
Lemma plain_view s i b k L : inv s -> get_book i s = Some b -> no_aon_in s i -> cview (eng_of b s) k L -> plain_lists L.
Proof.
  intros Hi Hb Hn Hv p os r Hin Hr. destruct (cview_order i _ k L p os r (inv_eng _ _ _ Hi Hb) Hv Hin Hr) as (Hm & Hs & _).
  specialize (Hn (o_id r) r). rewrite (get_order_inv _ _ Hi) in Hn. specialize (Hn Hm Hs). unfold is_aon. by apply bool_decide_eq_false.
Qed.
Lemma finish_ref s sid b e2 : inv s -> get_book sid s = Some b -> eng_ok sid e2 -> crossed e2 = None ->
  (forall k, k <> KBid -> k <> KAsk -> get_side k (e_bk e2) = get_side k b) -> no_live_stops s sid ->
  exists e3, finish true e2 = Ok (e3, OK) /\ e_log e3 = e_log e2 /\ e_ords e3 = e_ords e2 /\ crossed e3 = None /\
    forall sd L, cview e2 (side_kind sd) L -> resting (put_eng sid e3 s) sid sd = flat L.
Proof.
  intros Hi Hb He2 Hc Hs Hns. destruct (finish_quiet true e2 Hc) as (e3 & Hf & Hsame).
  { pose proof (no_stops_levels s sid b Hi Hb Hns []) as (A & B & C & D). unfold no_stop_levels, best in *. rewrite !Hs by done. done. }
  pose proof Hsame as (A1 & A2 & (A3 & A4 & _)). exists e3. split; [done|]. split; [done|]. split; [done|].
  split. { unfold crossed in *. by rewrite !(eng_same_best e2 e3 _ Hsame). }
  intros sd L Hv. apply (resting_eng sid e3 s b sd L Hb).
  - destruct He2 as [M2 B2]. split; [by rewrite A1|]. rewrite A1. eapply same_sides_ok; [|done]. split; [done|]. intros k. by rewrite A4.
  - eapply (cview_ext e2); [| |exact Hv]. { intros p. unfold queue. by rewrite A4. } intros p os o _ _. by rewrite A1.
Qed.
Lemma add_meet o e : o_type o = LIMIT \/ o_type o = MARKET /\ immediate o = true -> 
  forall o' e1, meet o (emit (EAddOrder o) e) = Ok (o', e1) -> immediate o' = immediate o -> o_id o' = o_id o -> e_ords e1 !! o_id o = None ->
  add_order true o e = finish true (lay o' e1).
Proof.
  intros Hty o' e1 Hm Him Hid Hn. unfold add_order, meet in *. destruct Hty as [Hty|[Hty Hi]]; rewrite Hty in *.
  - unfold add_limit, add_limit_tail, if_match. rewrite Hm. cbn [rbind]. unfold lay. destruct (_ && _); [|done]. unfold insert_rest. by rewrite Hid, Hn.
  - unfold add_market, if_match. rewrite Hm. cbn [rbind]. unfold lay. by rewrite Him, Hi, andb_false_r.
Qed.
Lemma fly_new s o : inv s -> op_ok s (AddOrder o) -> validate o = OK -> fly_ok (o_sym o) (st_ords s) o /\ 0 < o_leaves o /\ 0 < o_id o /\ (o_type o = MARKET -> immediate o = true).
Proof.
  intros Hi Hop Hval. destruct (validate_ok o Hval (proj1 Hop)) as (Hid & Hlv & _ & Htr & Hm). split; [|done].
  destruct Hop as [(R1&R2&R3&R4&R5&R6&R7&R8&R9&R10&R11) Ht]. constructor; try done; unfold u64_range in *; cbn; lia.
Qed.
Lemma add_ref_core s o b : reach s -> op_ok s (AddOrder o) -> validate o = OK -> st_match s = true -> o_type o = LIMIT \/ o_type o = MARKET -> o_tif o <> AON ->
  get_order (o_id o) s = None -> get_book (o_sym o) s = Some b -> no_aon_in s (o_sym o) ->
  let sid := o_sym o in
  exists e2 evs L' M', step s (AddOrder o) = on_book sid b (fun _ => finish true e2) s /\ eng_ok sid e2 /\ e_log e2 = st_log s ++ evs /\
    (execs evs, flat L', flat M') = reference o (resting s sid (opposite (o_side o))) (resting s sid (o_side o)) /\
    cview e2 (side_kind (opposite (o_side o))) L' /\ cview e2 (side_kind (o_side o)) M' /\
    (forall k, k <> KBid -> k <> KAsk -> get_side k (e_bk e2) = get_side k b) /\ (uncrossed b -> crossed e2 = None).
Proof.
  intros Hr Hop Hval Hmt Hty Haon Hnew Hb Hna sid. pose proof (reach_inv _ Hr) as Hinv. pose proof (inv_eng _ _ _ Hinv Hb) as He.
  destruct (fly_new s o Hinv Hop Hval) as (Hfl & Hlv & Hidp & Hmi). set (e0 := emit (EAddOrder o) (eng_of b s)).
  destruct (resting_view s sid b (opposite (o_side o)) Hinv Hb) as (L & HvL & HL). destruct (resting_view s sid b (o_side o) Hinv Hb) as (M & HvM & HM).
  assert (Hty' : o_type o = LIMIT \/ o_type o = MARKET /\ immediate o = true) by (destruct Hty; auto).
  rewrite get_order_inv in Hnew by done.
  pose proof (plain_view s sid b _ L Hinv Hb Hna HvL) as Hpl. pose proof HvL as HvL0. rewrite <- opp_side in HvL0.
  destruct (meet_lay_ref sid e0 o L M ltac:(by apply emit_ok) Hfl Hlv Haon Hty' ltac:(by apply cview_emit) Hpl ltac:(by apply cview_emit))
    as (o' & e1 & evs & L' & Hm & Hid & Him & Hlog & Href & He1 & _ & Hkeep & _ & _ & _ & Hlay & _). rewrite HL in Href.
  destruct (Hlay (Hkeep _ Hnew)) as (evs2 & M' & He2 & _ & Hlog2 & Hx2 & HvL' & HvM' & HM' & Hs & Hc). rewrite HM in HM'. rewrite opp_side in HvL'.
  exists (lay o' e1), (EAddOrder o :: evs ++ evs2), L', M'. split.
  { cbn [step]. unfold api_add. rewrite Hval. unfold sid. rewrite Hb, Hmt. unfold on_book. fold (eng_of b s). by rewrite (add_meet o (eng_of b s) Hty' o' e1 Hm Him Hid (Hkeep _ Hnew)). }
  split; [done|]. split; [rewrite Hlog2, Hlog; cbn; by rewrite <- !app_assoc|].
  split. { change (execs (EAddOrder o :: evs ++ evs2)) with (execs (evs ++ evs2)). rewrite execs_app, Hx2, app_nil_r. unfold reference. rewrite Href, HM'. f_equal. by destruct (_ && _). }
  split; [done|]. split; [done|]. split; [exact Hs|].
  intros Hu. apply Hc. by apply crossed_uncrossed.
Qed.

(** A new limit or market order (not All-Or-None) in a book with no All-Or-None orders, with
    matching enabled: the executions reported are those of the reference algorithm and afterwards
    the two sides are as it says.  (The book is taken to be uncrossed, which C01 establishes, and
    without live stop orders, since their activation may trade on; see C48_first.) *)
Theorem C48_reference s o s' er evs b : reach s -> op_ok s (AddOrder o) -> call s (AddOrder o) s' er evs ->
  validate o = OK -> st_match s = true -> o_type o = LIMIT \/ o_type o = MARKET -> o_tif o <> AON ->
  get_order (o_id o) s = None -> get_book (o_sym o) s = Some b -> uncrossed b ->
  no_aon_in s (o_sym o) -> no_live_stops s (o_sym o) ->
  er = OK /\ (execs evs, resting s' (o_sym o) (opposite (o_side o)), resting s' (o_sym o) (o_side o)) =
    reference o (resting s (o_sym o) (opposite (o_side o))) (resting s (o_sym o) (o_side o)).
Proof.
  intros Hr Hop [Hstep Hlog] Hval Hmt Hty Haon Hnew Hb Hu Hna Hns. pose proof (reach_inv _ Hr) as Hinv.
  destruct (add_ref_core s o b) as (e2 & evs2 & L' & M' & Heq & He2 & Hlog2 & Href & HvL & HvM & Hs & Hc); try done.
  destruct (finish_ref s (o_sym o) b e2 Hinv Hb He2 (Hc Hu) Hs Hns) as (e3 & Hf & Hl3 & _ & _ & Hres).
  rewrite Heq in Hstep. unfold on_book in Hstep. rewrite Hf in Hstep. cbn [rbind] in Hstep. injection Hstep as <- <-. split; [done|].
  fold (put_eng (o_sym o) e3 s). rewrite (Hres _ _ HvL), (Hres _ _ HvM), <- Href. cbn in Hlog. rewrite Hl3, Hlog2 in Hlog. apply app_inv_head in Hlog. by subst.
Qed.
Print Assumptions C48_reference.
(** With live stop orders: the executions of the reference algorithm are reported first; what
    comes after them is due to stop orders the call activates. *)
Theorem C48_first s o s' er evs b : reach s -> op_ok s (AddOrder o) -> call s (AddOrder o) s' er evs ->
  validate o = OK -> st_match s = true -> o_type o = LIMIT \/ o_type o = MARKET -> o_tif o <> AON ->
  get_order (o_id o) s = None -> get_book (o_sym o) s = Some b -> no_aon_in s (o_sym o) ->
  exists more, execs evs = fst (fst (reference o (resting s (o_sym o) (opposite (o_side o))) (resting s (o_sym o) (o_side o)))) ++ more.
Proof.
  intros Hr Hop [Hstep Hlog] Hval Hmt Hty Haon Hnew Hb Hna. pose proof (reach_inv _ Hr) as Hinv.
  destruct (add_ref_core s o b) as (e2 & evs2 & L' & M' & Heq & He2 & Hlog2 & Href & HvL & HvM & Hs & Hc); try done.
  destruct (finish_none (W:=True) true (o_sym o) _ He2) as (e4 & er4 & Hfin & Hen).
  destruct (ending_micro _ _ (o_sym o) (wide True) _ _ _ Hen ltac:(by split) (allows_wide _ _ _ (or_introl I)) (fun _ => I) (fun _ => I)) as [evs4 Hu].
  assert (e_log e4 = e_log e2 ++ evs4) as Hl4. { by apply (usteps_ok (o_sym o) (wide True) _ _ _ Hu ltac:(by split)). }
  rewrite Heq in Hstep. unfold on_book in Hstep. rewrite Hfin in Hstep. cbn [rbind] in Hstep. injection Hstep as <- <-.
  cbn in Hlog. rewrite Hl4, Hlog2, <- app_assoc in Hlog. apply app_inv_head in Hlog. subst evs. rewrite <- Href, execs_app. cbn. eauto.
Qed.
Print Assumptions C48_first.

(** ** A concrete case *)
Definition ex_ref : list op := setup ++ [EnableMatching; SL 1 100 5; SL 2 100 5; SL 3 101 5; BL 4 90 7].
Lemma all_live (P : order -> Prop) `{forall o, Decision (P o)} s : forallb (fun x => bool_decide (P (snd x))) (map_to_list (st_ords s)) = true -> forall j o, get_order j s = Some o -> P o.
Proof.
  intros Hf j o Hj. unfold get_order in Hj. destruct (j =? 0); [discriminate|]. apply elem_of_map_to_list, elem_of_list_In in Hj.
  pose proof (proj1 (forallb_forall _ _) Hf _ Hj) as H1. by apply bool_decide_eq_true in H1.
Qed.
Lemma plain_of s i : (forall j o, get_order j s = Some o -> o_type o = LIMIT /\ o_tif o = GTC) -> no_aon_in s i /\ no_live_stops s i.
Proof. intros H. split; intros j o Hj _; destruct (H j o Hj) as [E1 E2]; [by rewrite E2|done]. Qed.
Lemma uncrossed_of b : (match s_best (b_bids b), s_best (b_asks b) with Some p, Some q => p <? q | _, _ => true end) = true -> uncrossed b.
Proof. intros H bid ask Hb Ha. rewrite Hb, Ha in H. lia. Qed.
Lemma ex_ref_plain : (no_aon_in (hist ex_ref) 0 /\ no_live_stops (hist ex_ref) 0) /\ uncrossed (the_book (hist ex_ref)) /\
  st_match (hist ex_ref) = true /\ get_book 0 (hist ex_ref) = Some (the_book (hist ex_ref)).
Proof.
  split. { apply plain_of. apply (all_live (fun o => o_type o = LIMIT /\ o_tif o = GTC)). vm_compute. reflexivity. }
  split. { apply uncrossed_of. vm_compute. reflexivity. } split; vm_compute; reflexivity.
Qed.
(** ids and quantities of the executions, and ids and leaves of the two sides *)
Definition brief (x : list (order * Z * Z) * list order * list order) : list (Z * Z * Z) * list (Z * Z) * list (Z * Z) :=
  (map (fun y => (o_id (fst (fst y)), snd (fst y), snd y)) (fst (fst x)), map (fun o => (o_id o, o_leaves o)) (snd (fst x)), map (fun o => (o_id o, o_leaves o)) (snd x)).
Definition ex_result (o : order) := brief (reference o (resting (hist ex_ref) 0 (opposite (o_side o))) (resting (hist ex_ref) 0 (o_side o))).
Example C48_limit_example : let o := LimitOrder 5 0 BUY 100 12 GTC MAX64 in meets ex_ref (AddOrder o) OK /\ get_order 5 (hist ex_ref) = None /\
  ex_result o = ([(1, 100, 5); (5, 100, 5); (2, 100, 5); (5, 100, 5)], [(3, 5)], [(5, 2); (4, 7)]).
Proof. split; [meet|]. split; vm_compute; reflexivity. Qed.
Example C48_market_example : let o := MarketOrder 5 0 BUY 12 3 in meets ex_ref (AddOrder o) OK /\
  ex_result o = ([(1, 100, 5); (5, 100, 5); (2, 100, 5); (5, 100, 5); (3, 101, 2); (5, 101, 2)], [(3, 3)], [(4, 7)]).
Proof. split; [meet|]. vm_compute; reflexivity. Qed.
Example C48_fok_example : let o := LimitOrder 5 0 BUY 101 12 FOK MAX64 in let o2 := LimitOrder 5 0 BUY 100 12 FOK MAX64 in
  meets ex_ref (AddOrder o) OK /\ meets ex_ref (AddOrder o2) OK /\
  ex_result o = ([(1, 101, 5); (2, 101, 5); (3, 101, 2); (5, 101, 12)], [(3, 3)], [(4, 7)]) /\ ex_result o2 = ([], [(1, 5); (2, 5); (3, 5)], [(4, 7)]).
Proof. split; [meet|]. split; [meet|]. split; vm_compute; reflexivity. Qed.
(** With a live buy stop at 105 the call goes on after the reference's executions. *)
Example C48_first_example : let ops := setup ++ [EnableMatching; SL 1 100 5; SL 3 106 5; AddOrder (StopOrder 4 0 BUY 105 2 GTC MAX64)] in
  let o := LimitOrder 5 0 BUY 100 12 GTC MAX64 in
  meets ops (AddOrder o) OK /\ map (fun y => (o_id (fst (fst y)), snd (fst y), snd y)) (execs (news (hist ops) (AddOrder o))) =
    [(1, 100, 5); (5, 100, 5); (3, 106, 2); (4, 106, 2)].
Proof. split; [meet|]. vm_compute; reflexivity. Qed.
