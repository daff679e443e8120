(** * Refine3.v -- trailing stop recalculation and the activation cascade. *)
From Coq Require Import ZifyBool.
From stdpp Require Import fin_maps relations.
From Verif Require Import Types Book Engine LevelFacts BookInv EngInv EngPrim Steps StepsOk Refine1 Refine2.

(** ** Trailing stop prices *)
Definition tm_same (b b' : book) : Prop :=
  trailing_market_bid b' = trailing_market_bid b /\ trailing_market_ask b' = trailing_market_ask b.
Lemma calc_tm o b b' : tm_same b b' -> calc_trailing o b' = calc_trailing o b.
Proof. intros [H1 H2]. unfold calc_trailing. by rewrite H1, H2. Qed.
Lemma calc_fix o o' b : o_side o' = o_side o -> o_tdist o' = o_tdist o -> o_tstep o' = o_tstep o ->
  o_stop o' = calc_trailing o b -> calc_trailing o' b = o_stop o'.
Proof.
  unfold calc_trailing. intros -> -> ->.
  destruct (if o_tdist o <? 0 then _ else _) as [dist step].
  destruct (o_side o).
  - set (new := if _ <? _ then _ else _).
    destruct ((new <? o_stop o) && (u64 step <=? o_stop o - new)) eqn:E; intros ->.
    + by rewrite Z.ltb_irrefl.
    + by rewrite E.
  - set (new := if _ <? _ then _ else _).
    destruct ((o_stop o <? new) && (u64 step <=? new - o_stop o)) eqn:E; intros ->.
    + by rewrite Z.ltb_irrefl.
    + by rewrite E.
Qed.
Lemma retrail_tail new o : is_trailing o = true ->
  o_tdist (retrail new o) = o_tdist o /\ o_tstep (retrail new o) = o_tstep o.
Proof. unfold is_trailing, is_trailing_stop, is_trailing_stop_limit, retrail. destruct (o_type o) eqn:E; cbn; done. Qed.

Definition trail_kind (k : kind) : option oside :=
  match k with KTrailBuy => Some BUY | KTrailSell => Some SELL | _ => None end.
Lemma okind_trail x k s : trail_kind k = Some s -> okind x = k -> is_trailing x = true /\ o_side x = s /\ okey x = o_stop x.
Proof.
  unfold okind, is_trailing, is_trailing_stop, is_trailing_stop_limit, okey. intros Hk <-.
  destruct (o_type x), (o_side x); cbn in *; by simplify_eq.
Qed.

(** What recalculation leaves alone. *)
Record rkeeps (k : kind) (e e' : eng) : Prop := {
  rk_sides : forall k', k' <> k -> get_side k' (e_bk e') = get_side k' (e_bk e);
  rk_prices : bprices (e_bk e') = bprices (e_bk e);
  rk_ords : forall j x, okind x <> k -> (e_ords e !! j = Some x <-> e_ords e' !! j = Some x);
}.
Lemma rkeeps_refl k e : rkeeps k e e.
Proof. done. Qed.
Lemma rkeeps_trans k a b c : rkeeps k a b -> rkeeps k b c -> rkeeps k a c.
Proof.
  intros [A1 A2 A3] [B1 B2 B3]. constructor; [|congruence|].
  - intros k' H. by rewrite B1, A1.
  - intros j x Hx. by rewrite (A3 j x Hx), (B3 j x Hx).
Qed.
Lemma bprices_inj b b' : bprices b' = bprices b ->
  b_last_bid b' = b_last_bid b /\ b_last_ask b' = b_last_ask b /\ b_match_bid b' = b_match_bid b /\
  b_match_ask b' = b_match_ask b /\ b_trail_bid b' = b_trail_bid b /\ b_trail_ask b' = b_trail_ask b.
Proof. unfold bprices. intros [=]. done. Qed.
Lemma rkeeps_tm k s e e' : trail_kind k = Some s -> rkeeps k e e' ->
  tm_same (e_bk e) (e_bk e') /\ market_ask (e_bk e') = market_ask (e_bk e) /\ market_bid (e_bk e') = market_bid (e_bk e).
Proof.
  intros Hk [Hs Hp _]. apply bprices_inj in Hp as (E1 & E2 & E3 & E4 & _).
  assert (Hb : b_bids (e_bk e') = b_bids (e_bk e)). { apply (Hs KBid). by destruct k. }
  assert (Ha : b_asks (e_bk e') = b_asks (e_bk e)). { apply (Hs KAsk). by destruct k. }
  unfold tm_same, trailing_market_bid, trailing_market_ask, market_ask, market_bid, best_bid_price, best_ask_price.
  by rewrite E1, E2, E3, E4, Hb, Ha.
Qed.

(** Orders whose stop price is out of date. *)
Definition unst (b : book) (k : kind) (x : order) : Prop := okind x = k /\ calc_trailing x b <> o_stop x.
Global Instance unst_dec b k x : Decision (unst b k x).
Proof. unfold unst. apply _. Defined.
Definition nunst (k : kind) (e : eng) : nat := size (filter (fun x => unst (e_bk e) k (snd x)) (e_ords e)).
Lemma nunst_le k e : (nunst k e <= size (e_ords e))%nat.
Proof. unfold nunst. rewrite <- !size_dom. apply subseteq_size. apply dom_filter_subseteq. Qed.

(** One order moves. *)
Definition tquiet (sid : Z) (k : kind) (market : Z) (e : eng) : Prop :=
  forall j x, e_ords e !! j = Some x -> o_sym x = sid -> okind x = k -> 0 < o_tdist x -> arb k (o_stop x) market = false.
Definition act_market (s : oside) (b : book) : Z := match s with BUY => market_ask b | SELL => market_bid b end.
Lemma best_price_range sid e : eng_ok sid e -> u64_range (best_bid_price (e_bk e)) /\ u64_range (best_ask_price (e_bk e)).
Proof.
  intros He. unfold best_bid_price, best_ask_price. split.
  - destruct (s_best (b_bids (e_bk e))) eqn:E; [|unfold u64_range, MAX64; lia]. by apply (best_range sid e KBid).
  - destruct (s_best (b_asks (e_bk e))) eqn:E; [|unfold u64_range, MAX64; lia]. by apply (best_range sid e KAsk).
Qed.
Lemma calc_beyond sid e x k s : eng_ok sid e -> trail_kind k = Some s -> okind x = k -> u64_range (o_stop x) -> trailing_ok x ->
  0 < o_tdist x -> calc_trailing x (e_bk e) <> o_stop x ->
  arb k (calc_trailing x (e_bk e)) (act_market s (e_bk e)) = false.
Proof.
  intros He Hk Hx Hst Htr Hd. destruct (okind_trail x k s Hk Hx) as (Hit & Hs & _).
  assert (Hd' : 0 < o_tdist x < TWO63).
  { destruct Htr as [?|?]; [|lia|lia]. unfold is_trailing, is_trailing_stop, is_trailing_stop_limit in Hit.
    destruct (o_type x); cbn in Hit; auto; discriminate. }
  destruct (best_price_range sid e He) as [Hrb Hra]. unfold u64_range, TWO63 in *.
  unfold calc_trailing. rewrite Hs. rewrite (proj2 (Z.ltb_ge (o_tdist x) 0)) by lia.
  destruct s; unfold arb, act_market, market_ask, market_bid, trailing_market_ask, trailing_market_bid;
    (destruct k; cbn in Hk; try discriminate); cbn [desc].
  - set (m := Z.max _ _). assert (best_ask_price (e_bk e) <= m) by (unfold m; lia).
    rewrite (u64_id (MAX64 - o_tdist x)) by (unfold MAX64, TWO64; lia).
    destruct (Z.ltb_spec m (MAX64 - o_tdist x)).
    + rewrite u64_id by (unfold MAX64, TWO64 in *; lia). destruct (_ && _) eqn:E; lia.
    + destruct (_ && _) eqn:E; lia.
  - set (m := Z.min _ _). assert (m <= best_bid_price (e_bk e)) by (unfold m; lia).
    rewrite (u64_id (o_tdist x)) by (unfold TWO64; lia).
    destruct (Z.ltb_spec (o_tdist x) m).
    + rewrite u64_id by (unfold MAX64, TWO64 in *; lia). destruct (_ && _) eqn:E; lia.
    + destruct (_ && _) eqn:E; lia.
Qed.

Lemma filter_id (P : Z -> Prop) `{!forall x, Decision (P x)} (l : list Z) : (forall j, j ∈ l -> P j) -> filter P l = l.
Proof.
  induction l as [|a l IH]; intros HP; [done|]. rewrite filter_cons_True by (apply HP; left).
  f_equal. apply IH. intros j Hj. apply HP. by right.
Qed.
Section steps.
Context {F W : Prop}.
Local Notation mstep := (mstep F W).
Lemma trail_move sid e o k s : eng_ok sid e -> e_ords e !! o_id o = Some o -> o_sym o = sid -> trail_kind k = Some s -> okind o = k ->
  calc_trailing o (e_bk e) <> o_stop o ->
  let o' := retrail (calc_trailing o (e_bk e)) o in
  exists e1, eng_sub_delete o e = Ok e1 /\
    let e' := eng_add o' (put o' (emit (EUpdateOrder o') e1)) in
    mstep (e, None) (e', None) /\ eng_ok sid e' /\ rkeeps k e e' /\ e_ords e' = <[o_id o := o']> (e_ords e) /\
    okind o' = k /\ o_sym o' = sid /\ o_id o' = o_id o /\ calc_trailing o' (e_bk e') = o_stop o' /\
    (forall p, queue (e_bk e') k p =
       (if p =? okey o' then filter (fun j => j <> o_id o) (queue (e_bk e) k p) ++ [o_id o]
        else if p =? okey o then filter (fun j => j <> o_id o) (queue (e_bk e) k p) else queue (e_bk e) k p)).
Proof.
  intros He Ho Hs Hk Hok Hne o'.
  destruct (okind_trail o k s Hk Hok) as (Htr & Hsd & Hkey).
  destruct (eng_del_ok sid e o He Ho Hs) as (u & e1 & Hdel & Hords & Hbk1 & Hlog1 & Hpr1 & Hp1).
  exists e1. split; [done|]. intros e'.
  assert (Hst : mstep (e, None) (e', None)).
  { apply ms_trail; try done. rewrite Hs. symmetry. eapply bk_id, He. }
  pose proof (mstep_ok sid _ _ Hst (conj He I)) as [[Hok' _] _ _ _]. cbn in Hok'.
  split; [done|]. split; [done|].
  destruct (retrail_place (calc_trailing o (e_bk e)) o Htr) as (Ei & Es & Et & Esd & Est & El).
  destruct (retrail_tail (calc_trailing o (e_bk e)) o Htr) as (Ed & Estp).
  fold o' in Ei, Es, Et, Esd, Est, El, Ed, Estp.
  assert (Hk' : okind o' = k). { unfold okind in *. by rewrite Et, Esd. }
  assert (Hput : put o' (emit (EUpdateOrder o') e1) = put o' (drop_id (o_id o) (emit (EUpdateOrder o') e1))).
  { unfold put, drop_id, set_ords; cbn. f_equal. rewrite Ei. by rewrite insert_delete_insert. }
  assert (Htot : total (delete (o_id o) (e_ords e)) + o_leaves o < TWO64).
  { pose proof (mo_total _ (proj1 He)) as Ht. rewrite (total_delete _ _ _ Ho) in Ht. lia. }
  pose proof (mo_live _ (proj1 He) _ _ Ho) as Hl.
  destruct (drop_eng_ok sid e o e1 He Ho Hs Hdel) as [He1 _].
  destruct (eng_add_ok sid (drop_id (o_id o) (emit (EUpdateOrder o') e1)) o') as (u2 & e2 & Heq2 & Hok2 & Hords2 & _ & Hpr2 & Hp2).
  { done. }
  { cbn. rewrite Ei. apply lookup_delete. }
  { rewrite Ei. apply retrail_live; [done| |done]. apply calc_trailing_range, Hl. }
  { cbn. by rewrite Hords, El. }
  { congruence. }
  assert (E' : e' = e2). { unfold e'. by rewrite Hput. } clear Heq2. clearbody e'. subst e'. rename e2 into e'.
  assert (Hordsx : e_ords e' = <[o_id o := o']> (e_ords e)).
  { cbn in Hords2. rewrite Hords2, Hords, Ei. apply insert_delete_insert. }
  assert (Hrk : rkeeps k e e').
  { constructor.
    - intros k' Hk1. rewrite Hk' in Hp2. rewrite Hok in Hp1. rewrite (pr_sides _ _ _ _ _ _ _ Hp2 k' Hk1).
      cbn. by rewrite (pr_sides _ _ _ _ _ _ _ Hp1 k' Hk1).
    - rewrite Hpr2. cbn. done.
    - intros j x Hx. rewrite Hordsx. destruct (decide (o_id o = j)) as [<-|Hnj].
      + rewrite lookup_insert, Ho. split; intros [= ->]; done.
      + by rewrite lookup_insert_ne. }
  split; [done|]. split; [done|].
  split; [done|]. split; [congruence|]. split; [done|]. split.
  { rewrite (calc_tm _ _ _ (proj1 (rkeeps_tm k s e e' Hk Hrk))). by apply (calc_fix o). }
  intros p. rewrite Hk' in Hp2. rewrite Hok in Hp1.
  rewrite (pr_queue _ _ _ _ _ _ _ Hp2). cbn [e_bk drop_id set_ords emit].
  rewrite !(pr_queue _ _ _ _ _ _ _ Hp1).
  destruct (Z.eqb_spec p (okey o')) as [->|Hne1].
  - rewrite Ei. f_equal. destruct (Z.eqb_spec (okey o') (okey o)) as [E|E]; [by rewrite E|].
    symmetry. apply filter_id. intros j Hj ->. destruct (queue_facts sid e k (okey o') (o_id o) He Hj) as (x & Hx & _ & _ & _ & Hkx & _). congruence.
  - destruct (Z.eqb_spec p (okey o)) as [->|]; done.
Qed.

Lemma nunst_move k e e' o o' : e_ords e !! o_id o = Some o -> e_ords e' = <[o_id o := o']> (e_ords e) ->
  tm_same (e_bk e) (e_bk e') -> unst (e_bk e) k o -> ~ unst (e_bk e') k o' ->
  (nunst k e' < nunst k e)%nat.
Proof.
  intros Ho Hords Htm Hu Hs. unfold nunst. rewrite Hords.
  assert (Hext : filter (fun x : Z * order => unst (e_bk e') k (snd x)) (<[o_id o := o']> (e_ords e)) =
                 delete (o_id o) (filter (fun x : Z * order => unst (e_bk e) k (snd x)) (e_ords e))).
  { apply map_eq. intros j. apply option_eq. intros x.
    rewrite map_filter_lookup_Some. cbn. destruct (decide (o_id o = j)) as [<-|Hne].
    - rewrite lookup_insert, lookup_delete. split; [intros [[= <-] ?]; done|done].
    - rewrite lookup_insert_ne, lookup_delete_ne, map_filter_lookup_Some by done. cbn.
      unfold unst. by rewrite (calc_tm _ _ _ Htm). }
  rewrite Hext. rewrite map_size_delete.
  assert (Hin : filter (fun x : Z * order => unst (e_bk e) k (snd x)) (e_ords e) !! o_id o = Some o).
  { by apply map_filter_lookup_Some. }
  rewrite Hin. clear Hext. set (M := filter _ _) in *.
  assert (size M <> 0%nat); [|lia]. intros H. apply map_size_empty_iff in H. rewrite H in Hin. by rewrite lookup_empty in Hin.
Qed.

Lemma recalc_ids_ok sid k s : trail_kind k = Some s -> forall ids rc e,
  eng_ok sid e -> NoDup ids ->
  (forall i, i ∈ ids -> exists o, e_ords e !! i = Some o /\ o_sym o = sid /\ okind o = k) ->
  exists r e', recalc_ids ids rc e = Ok (r, e') /\ rtc mstep (e, None) (e', None) /\ eng_ok sid e' /\ rkeeps k e e' /\
    (nunst k e' <= nunst k e)%nat /\
    (r = true -> rc = true \/ (nunst k e' < nunst k e)%nat) /\
    (r = false -> rc = false /\ e' = e /\ forall i o, i ∈ ids -> e_ords e !! i = Some o -> ~ unst (e_bk e) k o) /\
    (forall i o, e_ords e !! i = Some o -> ~ unst (e_bk e) k o -> e_ords e' !! i = Some o) /\
    (tquiet sid k (act_market s (e_bk e)) e -> tquiet sid k (act_market s (e_bk e)) e').
Proof.
  intros Hk. induction ids as [|i ids IH]; intros rc e He Hnd Hin.
  { exists rc, e. split; [done|]. split; [apply rtc_refl|]. split; [done|]. split; [apply rkeeps_refl|]. split; [done|].
    split; [by left|]. split; [|done]. intros ->. split; [done|]. split; [done|]. intros i o Hi. by apply elem_of_nil in Hi. }
  apply NoDup_cons in Hnd as [Hni Hnd].
  destruct (Hin i) as (o & Ho & Hs & Hok); [left|].
  pose proof (lo_id _ _ (mo_live _ (proj1 He) _ _ Ho)) as Hid.
  cbn [recalc_ids]. rewrite Ho. cbn [of_opt rbind].
  destruct (Z.eqb_spec (calc_trailing o (e_bk e)) (o_stop o)) as [Eq|Nq].
  - destruct (IH rc e He Hnd) as (r & e' & Heq & Hrtc & He' & Hrk & Hle & Ht & Hf & Hst & Htq).
    { intros j Hj. apply Hin. by right. }
    exists r, e'. split; [done|]. split; [done|]. split; [done|]. split; [done|]. split; [done|]. split; [done|].
    split; [|done]. intros Hr. destruct (Hf Hr) as (? & ? & Hall). split; [done|]. split; [done|].
    intros j x Hj Hx. apply elem_of_cons in Hj as [->|Hj]; [|by eapply Hall].
    assert (x = o) by congruence. subst x. intros [_ Hu]. done.
  - assert (Ho' : e_ords e !! o_id o = Some o) by by rewrite Hid.
    destruct (trail_move sid e o k s He Ho' Hs Hk Hok Nq) as (e1 & Hdel & Hm & He1 & Hrk1 & Hords1 & Hk1 & Hs1 & Hi1 & Hc1 & Hq1).
    rewrite Hdel. cbn [rbind].
    set (o' := retrail (calc_trailing o (e_bk e)) o) in *.
    set (e2 := eng_add o' (put o' (emit (EUpdateOrder o') e1))) in *.
    destruct (rkeeps_tm k s e e2 Hk Hrk1) as (Htm & Hma & Hmb).
    assert (Ham : act_market s (e_bk e2) = act_market s (e_bk e)) by (by destruct s).
    assert (Hlt : (nunst k e2 < nunst k e)%nat).
    { eapply nunst_move; try done. intros [_ ?]. done. }
    destruct (IH true e2 He1 Hnd) as (r & e' & Heq & Hrtc & He' & Hrk & Hle & Ht & Hf & Hst & Htq).
    { intros j Hj. destruct (Hin j) as (x & Hx & ? & ?); [by right|]. exists x. split; [|done].
      rewrite Hords1, lookup_insert_ne; [done|]. rewrite Hid. intros ->. done. }
    exists r, e'. split; [done|]. split; [by eapply rtc_l|]. split; [done|]. split; [by eapply rkeeps_trans|].
    split; [lia|]. split; [right; lia|]. split; [|split].
    + intros Hr. by destruct (Hf Hr).
    + intros j x Hx Hnu. apply Hst.
      * rewrite Hords1, lookup_insert_ne; [done|]. intros <-. assert (x = o) by congruence. subst x. by apply Hnu.
      * unfold unst in *. by rewrite (calc_tm _ _ _ Htm).
    + intros Hq. rewrite <- Ham. apply Htq. rewrite Ham. intros j x Hx Hxs Hxk Hd. rewrite Hords1 in Hx.
      destruct (decide (o_id o = j)) as [<-|Hne].
      * rewrite lookup_insert in Hx. injection Hx as <-.
        destruct (okind_trail o k s Hk Hok) as (Htr & _).
        destruct (retrail_place (calc_trailing o (e_bk e)) o Htr) as (_ & _ & _ & _ & Est & _). fold o' in Est. rewrite Est.
        destruct (retrail_tail (calc_trailing o (e_bk e)) o Htr) as (Ed & _). fold o' in Ed.
        pose proof (mo_live _ (proj1 He) _ _ Ho) as Hl.
        eapply calc_beyond; try done; [apply Hl|apply Hl|lia].
      * rewrite lookup_insert_ne in Hx by done. by eapply Hq.
Qed.

(** ** Number of levels *)
Lemma levels_le sid e k : eng_ok sid e -> (length (lvls k e) <= size (e_ords e))%nat.
Proof.
  intros [Hm Hb]. pose proof (bk_side _ _ _ Hb k) as Hs. pose proof (sd_sorted _ _ _ _ Hs) as Hsort. fold (lvls k e) in Hsort.
  set (f := fun l : level => match l_ids l with i :: _ => i | [] => 0 end).
  assert (Hf : forall l, l ∈ lvls k e -> exists o, e_ords e !! f l = Some o /\ okey o = l_price l).
  { intros l Hl. pose proof (sorted_find _ _ _ Hsort Hl) as Hfind.
    pose proof (sd_lvls _ _ _ _ Hs _ _ Hfind) as Hlo. pose proof (lv_ne _ _ _ _ Hlo) as Hne.
    unfold f. destruct (l_ids l) as [|i ids] eqn:E; [done|].
    destruct (lv_in _ _ _ _ Hlo i) as (o & Ho & _ & _ & Hk); [rewrite E; left|]. eauto. }
  assert (Hnd : NoDup (map f (lvls k e))).
  { revert Hf Hsort. generalize (lvls k e). intros ls. induction ls as [|a ls IH]; intros Hf Hsort; cbn; [constructor|].
    apply sorted_cons_inv in Hsort as [Hsort Hbef]. constructor.
    - intros Hin. apply elem_of_list_fmap in Hin as (l & Efl & Hl).
      destruct (Hf a) as (o & Ho & Hko); [left|]. destruct (Hf l) as (o' & Ho' & Hko'); [by right|].
      rewrite Efl in Ho. assert (o = o') by congruence. subst o'.
      pose proof (Hbef l Hl) as Hb'. unfold before in Hb'. apply better_neq in Hb'. congruence.
    - apply IH; [|done]. intros l Hl. apply Hf. by right. }
  rewrite <- (map_length f), <- size_dom, <- (size_list_to_set (C:=gset Z) (map f (lvls k e)) Hnd).
  apply subseteq_size. intros i Hi. apply elem_of_list_to_set in Hi.
  apply elem_of_list_fmap in Hi as (l & -> & Hl). destruct (Hf l Hl) as (o & Ho & _). apply elem_of_dom. eauto.
Qed.
Definition rem_of (k : kind) (cur : option Z) (e : eng) : nat :=
  match cur with Some p => length (from_level p (lvls k e)) | None => 0 end.
Lemma from_length p ls : (length (from_level p ls) <= length ls)%nat.
Proof. induction ls as [|a ls IH]; cbn; [lia|]. destruct (_ =? _); cbn; lia. Qed.
Lemma rem_next k p e : sorted k (lvls k e) -> find_level p (lvls k e) <> None ->
  rem_of k (Some p) e = S (rem_of k (next_level p (lvls k e)) e) /\
  (forall q, next_level p (lvls k e) = Some q -> find_level q (lvls k e) <> None).
Proof.
  unfold rem_of, next_level. generalize (lvls k e). intros ls. induction ls as [|a ls IH]; cbn; [done|].
  intros Hs Hf. apply sorted_cons_inv in Hs as [Hs Hbef].
  destruct (Z.eqb_spec (l_price a) p) as [E|E].
  - destruct ls as [|b ls]; cbn; [split; [done|done]|]. 
    assert (l_price a <> l_price b) as Hab. { eapply better_neq. apply Hbef. left. }
    rewrite (proj2 (Z.eqb_neq _ _) Hab), Z.eqb_refl. cbn. split; [done|].
    intros q [= <-]. rewrite (proj2 (Z.eqb_neq _ _) Hab), Z.eqb_refl. done.
  - destruct (IH Hs Hf) as [H1 H2].
    destruct (from_level p ls) as [|x [|y r]] eqn:Ef; cbn in *; [split; [done|done]|split; [done|done]|].
    assert (Hy : y ∈ ls).
    { destruct (from_level_suffix p ls) as [pre Hpre]. rewrite Ef in Hpre. rewrite Hpre. apply elem_of_app. right. right. left. }
    assert (l_price a <> l_price y) as Hay. { eapply better_neq. by apply Hbef. }
    rewrite (proj2 (Z.eqb_neq _ _) Hay). split; [done|]. intros q [= <-].
    rewrite (proj2 (Z.eqb_neq _ _) Hay). by apply H2.
Qed.
Lemma find_queue sid e k p : eng_ok sid e -> find_level p (lvls k e) <> None <-> queue (e_bk e) k p <> [].
Proof.
  intros He. unfold lvls. rewrite (book_view _ _ _ k p (proj2 He)). unfold lvl_at. by destruct (queue (e_bk e) k p).
Qed.

Lemma recalc_walk_ok sid k s N : trail_kind k = Some s -> forall fuel prev cur e,
  eng_ok sid e -> (size (e_ords e) <= N)%nat ->
  (forall p, cur = Some p -> queue (e_bk e) k p <> []) ->
  (forall q, prev = Some q -> exists i o, i ∈ queue (e_bk e) k q /\ e_ords e !! i = Some o /\ ~ unst (e_bk e) k o) ->
  (nunst k e * (N + 2) + rem_of k cur e + 1 <= fuel)%nat ->
  exists e', recalc_walk fuel k prev cur e = Ok e' /\ rtc mstep (e, None) (e', None) /\ eng_ok sid e' /\ rkeeps k e e' /\
    (tquiet sid k (act_market s (e_bk e)) e -> tquiet sid k (act_market s (e_bk e)) e').
Proof.
  intros Hk. induction fuel as [|fuel IH]; intros prev cur e He HN Hcur Hprev Hfuel; [lia|].
  cbn [recalc_walk]. destruct cur as [p|].
  2: { exists e. split; [done|]. split; [apply rtc_refl|]. split; [done|]. split; [apply rkeeps_refl|done]. }
  specialize (Hcur p eq_refl).
  pose proof (proj2 (find_queue sid e k p He) Hcur) as Hfind.
  unfold lvls at 1. rewrite (book_view _ _ _ k p (proj2 He)), lvl_at_ne by done. cbn [of_opt rbind l_ids].
  destruct (recalc_ids_ok sid k s Hk (queue (e_bk e) k p) false e He) as (r & e1 & Heq & Hrtc & He1 & Hrk & Hle & Ht & Hf & Hst & Htq).
  { eapply queue_nodup, He. }
  { intros i Hi. destruct (queue_facts sid e k p i He Hi) as (o & Ho & _ & ? & ? & _). eauto. }
  rewrite Heq. cbn [rbind].
  pose proof (msteps_ok sid _ _ Hrtc (conj He I)) as [_ _ Hsz _]. cbn in Hsz.
  destruct (rkeeps_tm k s e e1 Hk Hrk) as (Htm & Hma & Hmb).
  assert (Ham : act_market s (e_bk e1) = act_market s (e_bk e)) by (by destruct s).
  destruct r.
  - destruct (Ht eq_refl) as [?|Hlt]; [done|].
    assert (Hprev1 : forall q, prev = Some q -> exists i o, i ∈ queue (e_bk e1) k q /\ e_ords e1 !! i = Some o /\ ~ unst (e_bk e1) k o).
    { intros q Hq. destruct (Hprev q Hq) as (i & o & Hi & Ho & Hnu). pose proof (Hst _ _ Ho Hnu) as Ho1.
      exists i, o. split; [|split; [done|]].
      - destruct (queue_facts sid e k q i He Hi) as (o2 & Ho2 & _ & Hs2 & Hk2 & Hp2 & _).
        assert (o2 = o) by congruence. subst o2. apply (queue_in _ _ _ _ _ _ (proj2 He1)). eauto.
      - unfold unst in *. by rewrite (calc_tm _ _ _ Htm). }
    set (cur1 := match prev with Some q => Some q | None => best k e1 end).
    destruct (IH prev cur1 e1) as (e' & Heq' & Hrtc' & He' & Hrk' & Htq'); try done.
    + lia.
    + intros p1 Hp1. unfold cur1 in Hp1. destruct prev as [q|].
      * injection Hp1 as ->. destruct (Hprev1 p1 eq_refl) as (i & _ & Hi & _). intros E. rewrite E in Hi. by apply elem_of_nil in Hi.
      * eapply best_some; [apply He1|done].
    + assert (rem_of k cur1 e1 <= N)%nat.
      { unfold rem_of. destruct cur1; [|lia]. pose proof (from_length z (lvls k e1)). pose proof (levels_le sid e1 k He1). lia. }
      assert (1 <= rem_of k (Some p) e)%nat.
      { cbn. pose proof (from_level_find p (lvls k e)) as Hx. destruct (find_level p (lvls k e)); [|done].
        destruct Hx as [rr ->]. cbn. lia. }
      nia.
    + exists e'. split; [done|]. split; [by etrans|]. split; [done|]. split; [by eapply rkeeps_trans|].
      intros Hq. rewrite <- Ham. apply Htq'. rewrite Ham. auto.
  - destruct (Hf eq_refl) as (_ & -> & Hall).
    pose proof (sd_sorted _ _ _ _ (bk_side _ _ _ (proj2 He) k)) as Hsort. fold (lvls k e) in Hsort.
    destruct (rem_next k p e Hsort Hfind) as [Hrem Hnext].
    destruct (IH (Some p) (next_level p (lvls k e)) e) as (e' & Heq' & ?); try done.
    + intros q Hq. apply (find_queue sid e k q He). by apply Hnext.
    + intros q [= <-]. destruct (queue (e_bk e) k p) as [|i ids] eqn:E; [done|].
      destruct (queue_facts sid e k p i He) as (o & Ho & _); [rewrite E; left|].
      exists i, o. split; [left|]. split; [done|]. eapply Hall; [left|done].
    + lia.
    + eauto.
Qed.

Definition trail_of (s : oside) : kind := match s with BUY => KTrailBuy | SELL => KTrailSell end.
(** What RecalculateTrailingStopPrice leaves alone. *)
Record skeeps (k : kind) (e e' : eng) : Prop := {
  sk_sides : forall k', k' <> k -> get_side k' (e_bk e') = get_side k' (e_bk e);
  sk_prices : b_last_bid (e_bk e') = b_last_bid (e_bk e) /\ b_last_ask (e_bk e') = b_last_ask (e_bk e) /\
              b_match_bid (e_bk e') = b_match_bid (e_bk e) /\ b_match_ask (e_bk e') = b_match_ask (e_bk e);
  sk_ords : forall j x, okind x <> k -> (e_ords e !! j = Some x <-> e_ords e' !! j = Some x);
}.
Lemma skeeps_market s e e' : skeeps (trail_of s) e e' ->
  market_ask (e_bk e') = market_ask (e_bk e) /\ market_bid (e_bk e') = market_bid (e_bk e).
Proof.
  intros [Hs (E1 & E2 & E3 & E4) _].
  assert (Hb : b_bids (e_bk e') = b_bids (e_bk e)). { apply (Hs KBid). by destruct s. }
  assert (Ha : b_asks (e_bk e') = b_asks (e_bk e)). { apply (Hs KAsk). by destruct s. }
  unfold market_ask, market_bid, best_bid_price, best_ask_price. by rewrite E3, E4, Hb, Ha.
Qed.
Lemma walk_skeeps k e b e' : same_sides (e_bk e) b ->
  b_last_bid b = b_last_bid (e_bk e) -> b_last_ask b = b_last_ask (e_bk e) ->
  b_match_bid b = b_match_bid (e_bk e) -> b_match_ask b = b_match_ask (e_bk e) ->
  rkeeps k (set_bk b e) e' -> skeeps k e e'.
Proof.
  intros [_ Hsd] E1 E2 E3 E4 [Hs Hp Ho]. apply bprices_inj in Hp as (F1 & F2 & F3 & F4 & _). cbn in *.
  constructor; [|repeat split; congruence|done]. intros k' Hk. by rewrite Hs, Hsd.
Qed.
Lemma recalc_ok sid s e : eng_ok sid e ->
  exists e', recalc s e = Ok e' /\ rtc mstep (e, None) (e', None) /\ eng_ok sid e' /\ skeeps (trail_of s) e e' /\
    (tquiet sid (trail_of s) (act_market s (e_bk e)) e -> tquiet sid (trail_of s) (act_market s (e_bk e)) e').
Proof.
  intros He.
  assert (Hrefl : exists e', Ok e = Ok e' /\ rtc mstep (e, None) (e', None) /\ eng_ok sid e' /\ skeeps (trail_of s) e e' /\
    (tquiet sid (trail_of s) (act_market s (e_bk e)) e -> tquiet sid (trail_of s) (act_market s (e_bk e)) e')).
  { exists e. split; [done|]. split; [apply rtc_refl|]. done. }
  assert (Hgen : forall b (c : bool), b = match s with
                             | BUY => set_trail_ask (trailing_market_ask (e_bk e)) (e_bk e)
                             | SELL => set_trail_bid (trailing_market_bid (e_bk e)) (e_bk e) end ->
    exists e', (if c then Ok (set_bk b e) else recalc_walk (walk_fuel (set_bk b e)) (trail_of s) None (best (trail_of s) (set_bk b e)) (set_bk b e)) = Ok e' /\
     rtc mstep (e, None) (e', None) /\ eng_ok sid e' /\ skeeps (trail_of s) e e' /\
    (tquiet sid (trail_of s) (act_market s (e_bk e)) e -> tquiet sid (trail_of s) (act_market s (e_bk e)) e')).
  { intros b c Hb. set (e0 := set_bk b e).
    assert (Hss : same_sides (e_bk e) b). { subst b. destruct s; apply same_sides_prices. }
    assert (Hst : mstep (e, None) (e0, None)). { unfold e0. rewrite Hb. apply ms_trailprice. }
    assert (He0 : eng_ok sid e0) by (by apply set_bk_ok).
    assert (Hsk : skeeps (trail_of s) e e0). { eapply walk_skeeps; [exact Hss|subst b; by destruct s ..|apply rkeeps_refl]. }
    assert (Ham : act_market s (e_bk e0) = act_market s (e_bk e)).
    { destruct (skeeps_market s e e0 Hsk). by destruct s. }
    destruct c.
    - exists e0. split; [done|]. split; [by apply rtc_once|]. done.
    - assert (Htk : trail_kind (trail_of s) = Some s) by by destruct s.
      destruct (recalc_walk_ok sid (trail_of s) s (size (e_ords e)) Htk (walk_fuel e0) None (best (trail_of s) e0) e0) as (e' & Heq & Hrtc & He' & Hrk & Htq); try done.
      + intros p Hp. eapply best_some; [apply He0|done].
      + unfold walk_fuel. pose proof (nunst_le (trail_of s) e0).
        assert (rem_of (trail_of s) (best (trail_of s) e0) e0 <= size (e_ords e0))%nat.
        { unfold rem_of. destruct (best _ e0); [|lia]. pose proof (from_length z (lvls (trail_of s) e0)). pose proof (levels_le sid e0 (trail_of s) He0). lia. }
        cbn [e_ords e0 set_bk] in *. nia.
      + exists e'. split; [done|]. split; [by eapply rtc_l|]. split; [done|]. split.
        * eapply walk_skeeps; [exact Hss|subst b; by destruct s ..|exact Hrk].
        * intros Hq. rewrite <- Ham. apply Htq. by rewrite Ham. }
  unfold recalc. destruct s.
  - destruct (best KAsk e); [|done]. apply (Hgen _ (b_trail_ask (e_bk e) <=? trailing_market_ask (e_bk e)) eq_refl).
  - destruct (best KBid e); [|done]. apply (Hgen _ (trailing_market_bid (e_bk e) <=? b_trail_bid (e_bk e)) eq_refl).
Qed.

(** ** The activation cascade *)
(** No stop order is triggered with respect to the engine's current market prices (trailing
    orders: only those with an absolute trailing distance). *)
Definition calm (sid : Z) (e : eng) : Prop :=
  forall j x, e_ords e !! j = Some x -> o_sym x = sid -> stop_type x = true -> (is_trailing x = true -> 0 < o_tdist x) ->
    arb (okind x) (o_stop x) (act_market (o_side x) (e_bk e)) = false.
Lemma quiet_all sid e k market p : eng_ok sid e -> quiet k market e -> queue (e_bk e) k p <> [] -> arb k p market = false.
Proof.
  intros He Hq Hp. destruct (best_exists _ _ _ k p (proj2 He) Hp) as (b & Hb & Hc).
  specialize (Hq b Hb). destruct Hc as [->|Hc]; [done|]. unfold better, arb in *. destruct (desc k); lia.
Qed.
Lemma quiet_tquiet sid e k s market : eng_ok sid e -> trail_kind k = Some s -> quiet k market e -> tquiet sid k market e.
Proof.
  intros He Hk Hq j x Hx Hs Hkx _. destruct (okind_trail x k s Hk Hkx) as (_ & _ & <-).
  eapply quiet_all; [done|done|]. pose proof (bk_full _ _ _ (proj2 He) _ _ Hx Hs) as Hin. rewrite Hkx in Hin.
  intros E. rewrite E in Hin. by apply elem_of_nil in Hin.
Qed.

Lemma activate_pair_ok sid k1 k2 s e : eng_ok sid e -> stop_side k1 = Some s -> stop_side k2 = Some s ->
  exists r e', (do '(r1, e) <- activate_level k1 (act_market s (e_bk e)) e;
                (if (r1 : bool) then Ok (true, e) else activate_level k2 (act_market s (e_bk e)) e)) = Ok (r, e') /\
    rtc mstep (e, None) (e', None) /\
    (r = false -> e' = e /\ quiet k1 (act_market s (e_bk e)) e /\ quiet k2 (act_market s (e_bk e)) e) /\
    (r = true -> (nstops (e_ords e') < nstops (e_ords e))%nat).
Proof.
  intros He H1 H2.
  assert (Hre : reached s (act_market s (e_bk e)) (e_bk e)).
  { destruct s; [by eapply market_ask_reached|by eapply market_bid_reached]. }
  destruct (activate_level_ok (F:=F) (W:=W) sid k1 s _ e He H1 Hre) as (r1 & e1 & Heq & Hrtc & Hf & Ht).
  rewrite Heq. cbn [rbind]. destruct r1.
  - exists true, e1. split; [done|]. split; [done|]. split; [done|]. auto.
  - destruct (Hf eq_refl) as [-> Hq1].
    destruct (activate_level_ok (F:=F) (W:=W) sid k2 s _ e He H2 Hre) as (r2 & e2 & Heq2 & Hrtc2 & Hf2 & Ht2).
    exists r2, e2. split; [done|]. split; [done|]. split; [|done].
    intros Hr. destruct (Hf2 Hr). done.
Qed.

Lemma activate_round_eq e :
  activate_round e =
  (do '(r1, e) <- (do '(r1, e) <- activate_level KBuyStop (act_market BUY (e_bk e)) e;
                   (if (r1 : bool) then Ok (true, e) else activate_level KTrailBuy (act_market BUY (e_bk e)) e));
   do e <- recalc BUY e;
   do '(r2, e) <- (do '(r1, e) <- activate_level KSellStop (act_market SELL (e_bk e)) e;
                   (if (r1 : bool) then Ok (true, e) else activate_level KTrailSell (act_market SELL (e_bk e)) e));
   do e <- recalc SELL e;
   Ok (orb r1 r2, e)).
Proof.
  unfold activate_round, act_market. destruct (activate_level KBuyStop (market_ask (e_bk e)) e) as [[r e1]| |]; cbn [rbind]; [|done|done].
  destruct (if r then Ok (true, e1) else activate_level KTrailBuy (market_ask (e_bk e1)) e1) as [[r1 e2]| |]; cbn [rbind]; [|done|done].
  destruct (recalc BUY e2) as [e3| |]; cbn [rbind]; [|done|done].
  destruct (activate_level KSellStop (market_bid (e_bk e3)) e3) as [[r4 e4]| |]; cbn [rbind]; done.
Qed.

Lemma activate_round_ok sid e : eng_ok sid e ->
  exists r e', activate_round e = Ok (r, e') /\ rtc mstep (e, None) (e', None) /\ eng_ok sid e' /\
    (r = true -> (nstops (e_ords e') < nstops (e_ords e))%nat) /\
    (r = false -> (forall s, get_side (opp s) (e_bk e') = get_side (opp s) (e_bk e)) /\ calm sid e').
Proof.
  intros He. rewrite activate_round_eq.
  destruct (activate_pair_ok sid KBuyStop KTrailBuy BUY e He eq_refl eq_refl) as (r1 & e1 & Heq1 & Hrtc1 & Hf1 & Ht1).
  rewrite Heq1. cbn [rbind].
  pose proof (msteps_ok sid _ _ Hrtc1 (conj He I)) as [[He1 _] _ _ Hn1]. cbn in He1, Hn1.
  destruct (recalc_ok sid BUY e1 He1) as (e2 & Heq2 & Hrtc2 & He2 & Hsk2 & Htq2).
  rewrite Heq2. cbn [rbind].
  pose proof (msteps_ok sid _ _ Hrtc2 (conj He1 I)) as [_ _ _ Hn2]. cbn in Hn2.
  destruct (activate_pair_ok sid KSellStop KTrailSell SELL e2 He2 eq_refl eq_refl) as (r3 & e3 & Heq3 & Hrtc3 & Hf3 & Ht3).
  rewrite Heq3. cbn [rbind].
  pose proof (msteps_ok sid _ _ Hrtc3 (conj He2 I)) as [[He3 _] _ _ Hn3]. cbn in He3, Hn3.
  destruct (recalc_ok sid SELL e3 He3) as (e4 & Heq4 & Hrtc4 & He4 & Hsk4 & Htq4).
  rewrite Heq4. cbn [rbind].
  pose proof (msteps_ok sid _ _ Hrtc4 (conj He3 I)) as [_ _ _ Hn4]. cbn in Hn4.
  exists (r1 || r3), e4. split; [done|]. split; [etrans; [done|]; etrans; [done|]; by etrans|]. split; [done|]. split.
  - intros Hr. destruct r1; [specialize (Ht1 eq_refl); lia|]. cbn in Hr. subst r3. specialize (Ht3 eq_refl). lia.
  - intros Hr. apply orb_false_iff in Hr as [-> ->].
    destruct (Hf1 eq_refl) as (-> & Hq1 & Hq1'). destruct (Hf3 eq_refl) as (-> & Hq3 & Hq3').
    split.
    { intros s. rewrite (sk_sides _ _ _ Hsk4) by (by destruct s). rewrite (sk_sides _ _ _ Hsk2) by (by destruct s). done. }
    destruct (skeeps_market BUY e e2 Hsk2) as [Ma2 Mb2].
    destruct (skeeps_market SELL e2 e4 Hsk4) as [Ma4 Mb4].
    intros j x Hx Hxs Hst Htr.
    assert (Hin : queue (e_bk e4) (okind x) (okey x) <> []).
    { pose proof (bk_full _ _ _ (proj2 He4) _ _ Hx Hxs) as Hin. intros E. rewrite E in Hin. by apply elem_of_nil in Hin. }
    assert (Hkey : okey x = o_stop x).
    { unfold stop_type, is_limit, is_market in Hst. unfold okey. by destruct (o_type x). }
    rewrite Hkey in Hin.
    destruct (okind x) eqn:Ek.
    1,2: exfalso; clear -Ek Hst; unfold okind, stop_type, is_limit, is_market in *; destruct (o_type x), (o_side x); cbn in *; try congruence; done.
    + assert (Hsd : o_side x = BUY) by (clear -Ek; unfold okind in *; destruct (o_type x), (o_side x); cbn in *; congruence).
      rewrite Hsd. cbn [act_market]. rewrite Ma4, Ma2. eapply (quiet_all sid e); [done|done|].
      unfold queue in *. rewrite (sk_sides _ _ _ Hsk4), (sk_sides _ _ _ Hsk2) in Hin by done. done.
    + assert (Hsd : o_side x = SELL) by (clear -Ek; unfold okind in *; destruct (o_type x), (o_side x); cbn in *; congruence).
      rewrite Hsd. cbn [act_market]. rewrite Mb4. eapply (quiet_all sid e2); [done|done|].
      unfold queue in *. rewrite (sk_sides _ _ _ Hsk4) in Hin by done. done.
    + destruct (okind_trail x KTrailBuy BUY eq_refl Ek) as (Hit & Hsd & _). rewrite Hsd. cbn [act_market]. rewrite Ma4, Ma2.
      eapply Htq2; [eapply quiet_tquiet; done| |done|done|auto].
      apply (sk_ords _ _ _ Hsk4 j x); [|done]. rewrite Ek. done.
    + destruct (okind_trail x KTrailSell SELL eq_refl Ek) as (Hit & Hsd & _). rewrite Hsd. cbn [act_market]. rewrite Mb4.
      eapply Htq4; [eapply quiet_tquiet; done| done |done|done|auto].
Qed.

Lemma activate_loop_ok sid : forall fuel r0 e, eng_ok sid e -> (nstops (e_ords e) < fuel)%nat ->
  exists r e', activate_loop fuel r0 e = Ok (r, e') /\ rtc mstep (e, None) (e', None) /\ eng_ok sid e' /\ calm sid e' /\
    (r = true -> r0 = true \/ (nstops (e_ords e') < nstops (e_ords e))%nat) /\
    (r = false -> r0 = false /\ forall s, get_side (opp s) (e_bk e') = get_side (opp s) (e_bk e)).
Proof.
  induction fuel as [|fuel IH]; intros r0 e He Hfuel; [lia|]. cbn [activate_loop].
  destruct (activate_round_ok sid e He) as (r & e1 & Heq & Hrtc & He1 & Ht & Hf). rewrite Heq. cbn [rbind].
  destruct r.
  - specialize (Ht eq_refl). destruct (IH true e1 He1 ltac:(lia)) as (r & e' & Heq' & Hrtc' & He' & Hc & Ht' & Hf').
    exists r, e'. split; [done|]. split; [by etrans|]. split; [done|]. split; [done|].
    pose proof (msteps_ok sid _ _ Hrtc' (conj He1 I)) as [_ _ _ Hn]. cbn in Hn.
    split; [intros _; right; lia|]. intros Hr. by destruct (Hf' Hr).
  - destruct (Hf eq_refl) as [Hs Hc]. exists r0, e1. split; [done|]. split; [done|]. split; [done|]. split; [done|].
    split; [by left|]. done.
Qed.
Lemma activate_all_ok sid e : eng_ok sid e ->
  exists r e', activate_all e = Ok (r, e') /\ rtc mstep (e, None) (e', None) /\ eng_ok sid e' /\ calm sid e' /\
    (r = true -> (nstops (e_ords e') < nstops (e_ords e))%nat) /\
    (r = false -> forall s, get_side (opp s) (e_bk e') = get_side (opp s) (e_bk e)).
Proof.
  intros He. unfold activate_all, fuel_of. pose proof (nstops_le (e_ords e)).
  destruct (activate_loop_ok sid (S (size (e_ords e))) false e He ltac:(lia)) as (r & e' & ? & ? & ? & ? & Ht & Hf).
  exists r, e'. repeat (split; [done|]). split; [|intros Hr; by destruct (Hf Hr)].
  intros Hr. by destruct (Ht Hr).
Qed.
End steps.
