(** * PropsBlocked.v -- C01 with All-Or-None orders: a book is left crossed only when the order at the top cannot be filled. *)
From Coq Require Import ZifyBool.
From stdpp Require Import fin_maps relations.
From Verif Require Import Types Book Engine Manager Factory LevelFacts BookInv EngInv EngPrim Steps StepsOk Refine1 Refine2 Refine3 Refine4 Api StateInv Micro Reach Calls Settle RefMatch Witness PropsState PropsSettle Spec Spec2 Spec18.
Open Scope Z_scope. Open Scope list_scope.

Definition sumL (os : list order) : Z := sumZ (map o_leaves os).
Definition plain (o : order) : Prop := is_aon o = false /\ 0 < o_leaves o.
Lemma sumL_nonneg os : Forall plain os -> 0 <= sumL os.
Proof. induction 1 as [|o os [_ Ho] _ IH]; [done|]. change (sumL (o :: os)) with (o_leaves o + sumL os). lia. Qed.
Lemma loop_zero f : forall ll sl lo so req avail, chain2_loop f ll sl lo so req avail = Ok 0 -> ll <> [] -> lo <> [] -> (sl = [] -> so = []) ->
  Forall plain so -> Forall (Forall plain) (tail sl) -> 0 <= avail < req -> req < TWO64 -> avail + sumL so + sumZ (map sumL (tail sl)) < req.
Proof.
  induction f as [|f IH]; intros ll sl lo so req avail E Hll Hlo Hsl Hso Hs Ha Hr; cbn [chain2_loop] in E; [done|].
  destruct ll as [|l llt]; [done|]. destruct sl as [|s slt].
  { rewrite (Hsl eq_refl). cbn. lia. }
  destruct lo as [|o lot]; [done|]. destruct so as [|x so].
  - destruct slt as [|s' slt].
    + cbn. lia.
    + cbn [tail] in *. apply Forall_cons in Hs as [Hs1 Hs2]. pose proof (IH (l :: llt) (s' :: slt) (o :: lot) s' req avail E ltac:(done) ltac:(done) ltac:(done) Hs1 Hs2 Ha Hr) as H.
      cbn [tail map] in *. unfold sumZ in *. cbn [foldr]. change (sumL []) with 0. lia.
  - apply Forall_cons in Hso as [[Hx1 Hx2] Hso]. rewrite Hx1 in E.
    assert (u64 (req - avail) = req - avail) as Hu. { unfold u64. apply Z.mod_small. unfold TWO64 in *. lia. }
    rewrite Hu in E. assert (u64 (avail + Z.min (o_leaves x) (req - avail)) = avail + Z.min (o_leaves x) (req - avail)) as Hu2. { unfold u64. apply Z.mod_small. unfold TWO64 in *. lia. }
    rewrite Hu2 in E. destruct (Z.eqb_spec req (avail + Z.min (o_leaves x) (req - avail))) as [E1|E1]; [injection E; lia|].
    destruct (Z.ltb_spec req (avail + Z.min (o_leaves x) (req - avail))); [lia|].
    pose proof (IH (l :: llt) (s :: slt) (o :: lot) so req _ E ltac:(done) ltac:(done) ltac:(done) Hso Hs ltac:(lia) Hr) as H'. cbn [tail] in *.
    unfold sumL in *. cbn [map]. unfold sumZ in *. cbn [foldr]. lia.
Qed.
Lemma sumL_osum (m : gmap Z order) ids : forall os, mapM (fun i => m !! i) ids = Some os -> osum o_leaves m ids = sumL os.
Proof.
  induction ids as [|i ids IH]; intros os E; [by injection E as <-|]. cbn in E. destruct (m !! i) as [o|] eqn:Ho; [|done]. cbn in E.
  destruct (mapM (fun i => m !! i) ids) as [os'|] eqn:Em; [|done]. cbn in E. injection E as <-.
  unfold sumL, sumZ. cbn [map foldr osum]. rewrite Ho. specialize (IH _ eq_refl). unfold sumL, sumZ in IH. fold (osum o_leaves m ids). lia.
Qed.
Lemma resolve_total m ls : (forall l, l ∈ ls -> li_total (l_info l) = osum o_leaves m (l_ids l)) -> forall L, resolve m ls = Some L ->
  sumZ (map (fun l => li_total (l_info l)) ls) = sumZ (map sumL (map snd L)).
Proof.
  unfold resolve. induction ls as [|l ls IH]; intros Hl L E; [by injection E as <-|]. cbn in E.
  destruct (mapM (fun i => m !! i) (l_ids l)) as [os|] eqn:Eo; [|done]. cbn in E.
  match type of E with context [mapM ?f ls] => destruct (mapM f ls) as [L'|] eqn:EL end; [|done]. cbn in E. injection E as <-.
  unfold sumZ in *. cbn [map foldr snd]. rewrite (IH (fun l' H => Hl l' (elem_of_list_further _ _ _ H)) _ eq_refl). rewrite Hl by left. by rewrite (sumL_osum _ _ _ Eo).
Qed.
Lemma offered_view sid e k L : eng_ok sid e -> resolve (e_ords e) (lvls k e) = Some L -> offered (get_side k (e_bk e)) = sumZ (map sumL (map snd L)).
Proof.
  intros [Hm Hb] HL. unfold offered. apply (resolve_total (e_ords e)); [|done]. intros l Hl. eapply lv_total, level_of_side; [by apply bk_side|done].
Qed.
Lemma head_order s sid e k p o os L : (forall j, get_order j s = e_ords e !! j) -> eng_ok sid e -> cview e k ((p, o :: os) :: L) -> first_order s (get_side k (e_bk e)) o.
Proof.
  intros Hg He Hv. pose proof (cview_front _ _ _ _ _ _ _ He Hv) as (Hb & (rest & Hq) & Ho).
  destruct (cview_find _ _ _ _ _ _ He Hv) as (l & Hl & Hids). exists l.
  assert (l ∈ s_lvls (get_side k (e_bk e)) /\ l_price l = p) as [Hin Hp] by (split; [by eapply find_level_elem|by eapply find_level_price]). split; [done|]. split; [rewrite Hp; exact Hb|].
  rewrite Hids. split; [done|]. by rewrite Hg.
Qed.
Lemma aon_blocked s sid e : (forall j, get_order j s = e_ords e !! j) -> eng_ok sid e -> aon_cross sid e -> blocked s sid (e_bk e).
Proof.
  intros Hg He (i & z & Hz & Hzs & Hzt & Hza & bp & ap & Hcr & Hch & Hq).
  destruct (crossed_some _ _ _ Hcr) as (Hbb & Hba & Hle).
  destruct (best_lvls _ _ _ _ He Hbb) as [Hfb Hnb]. destruct (best_lvls _ _ _ _ He Hba) as [Hfa Hna].
  destruct (cview_intro sid e KBid He) as (LB & HLB & Hfst & HvB).
  destruct (cview_intro sid e KAsk He) as (LA & HLA & Hfst' & HvA).
  unfold chain2, chain_levels in Hch. rewrite Hfb, Hfa, HLB, HLA in Hch. cbn [of_opt rbind] in Hch.
  pose proof (offered_view _ _ _ _ He HLB) as HoB. pose proof (offered_view _ _ _ _ He HLA) as HoA. 
  destruct LB as [|[pb osb] LB]; [by destruct (lvls KBid e)|].
  destruct LA as [|[pa osa] LA]; [by destruct (lvls KAsk e)|].
  destruct (cv_q _ _ _ HvB pb osb) as (Hne & _ & _); [left|]. destruct osb as [|x bt]; [done|].
  destruct (cv_q _ _ _ HvA pa osa) as (Hne' & _ & _); [left|]. destruct osa as [|y at_]; [done|].
  assert (Hid : o_id z = i) by exact (eq_sym (lo_id _ _ (mo_live _ (proj1 He) _ _ Hz))) || exact (lo_id _ _ (mo_live _ (proj1 He) _ _ Hz)).
  exists bp, ap, x, y, z. split; [done|]. split; [done|]. split; [done|]. split; [by apply (head_order s sid e KBid pb x bt LB)|]. split; [by apply (head_order s sid e KAsk pa y at_ LA)|].
  assert (Hplain : forall k d L, cview e k L -> k = (match d with BUY => KBid | SELL => KAsk end) -> none_aon s sid d -> Forall (Forall plain) (map snd L)).
  { intros k d L Hv Hk Hn. apply Forall_map, Forall_forall. intros [p os] Hin. cbn. apply Forall_forall. intros o Ho.
    destruct (cview_order sid e k L p os o He Hv Hin Ho) as (Hm & Hs & Hok & _ & Hl).
    split; [|by apply lo_leaves in Hl]. unfold is_aon. apply bool_decide_eq_false. apply (Hn (o_id o)); [by rewrite Hg|done| |];
      subst k; pose proof (lo_type _ _ Hl) as Hty; unfold okind, is_limit in Hok; destruct d, (o_type o), (o_side o); (done || by cbn in Hok). }
  pose proof (mo_total _ (proj1 He)) as Htot.
  pose proof (live_le_total _ _ _ _ _ He (cview_front _ _ _ _ _ _ _ He HvB)) as Hlx. pose proof (live_le_total _ _ _ _ _ He (cview_front _ _ _ _ _ _ _ He HvA)) as Hly.
  cbn [map snd] in Hch. split; [|split].
  - rewrite Hg, Hid. split; [done|]. split; [done|]. split; [done|]. split; [unfold is_aon in Hza; by apply bool_decide_eq_true in Hza|].
    destruct Hq as [Hq|Hq]; destruct (queue_facts sid e _ _ _ He Hq) as (z' & Hz' & _ & _ & Hk & Hp & _); rewrite Hid in Hz'; assert (z' = z) as -> by congruence;
      unfold okind in Hk; unfold okey in Hp; rewrite Hzt in Hk, Hp; destruct (o_side z); done.
  - intros Hn. pose proof (Hplain KAsk SELL _ HvA eq_refl Hn) as Hpl. cbn [map snd] in Hpl, HoA. apply Forall_cons in Hpl as [Hp1 Hp2].
    assert (Hay : is_aon y = false) by (apply Forall_cons in Hp1 as [[H _] _]; exact H). rewrite Hay in Hch.
    rewrite andb_false_r in Hch. cbn [andb orb] in Hch. rewrite andb_false_r in Hch. cbn [orb] in Hch.
    pose proof (loop_zero _ _ _ _ _ _ _ Hch ltac:(done) ltac:(done) ltac:(done) Hp1 Hp2) as H. cbn [tail] in H.
    change (b_asks (e_bk e)) with (get_side KAsk (e_bk e)). rewrite HoA. unfold sumZ in *. cbn [foldr map]. unfold TWO64 in *. lia.
  - intros Hn Hy. pose proof (Hplain KBid BUY _ HvB eq_refl Hn) as Hpl. cbn [map snd] in Hpl, HoB. apply Forall_cons in Hpl as [Hp1 Hp2].
    assert (Hax : is_aon x = false) by (apply Forall_cons in Hp1 as [[H _] _]; exact H).
    assert (Hay : is_aon y = true) by (unfold is_aon; by apply bool_decide_eq_true). rewrite Hax, Hay in Hch. cbn [andb orb negb] in Hch.
    pose proof (loop_zero _ _ _ _ _ _ _ Hch ltac:(done) ltac:(done) ltac:(done) Hp1 Hp2) as H. cbn [tail] in H.
    change (b_bids (e_bk e)) with (get_side KBid (e_bk e)). rewrite HoB. unfold sumZ in *. cbn [foldr map]. unfold TWO64 in *. lia.
Qed.

(** After a successful order call with matching enabled the book of the call is uncrossed or blocked. *)
Theorem C01_blocked_partial s a s' i evs : reach s -> op_ok s a -> order_call a = true -> st_match s = true ->
  call s a s' OK evs -> call_symbol s a = Some i ->
  exists b, get_book i s' = Some b /\ (uncrossed b \/ blocked s' i b).
Proof.
  intros Hr Hop Hoc Hmt Hc Hsy. destruct (call_outcome _ _ _ _ _ Hr Hop Hoc Hc) as (Hinv & Ho & Hinv').
  rewrite (call_symbol_target s a Hinv) in Hsy. destruct Hc as [_ Hlog].
  destruct (outcome_end s a s' OK evs Hinv Ho eq_refl Hlog) as (sid & b & e2 & Hb & Htg & -> & He2 & _ & Hend & Hfr).
  rewrite Hsy in Htg. injection Htg as <-. exists (reset_matching (e_bk e2)). split; [rewrite (get_book_put _ _ _ _ _ Hb); by rewrite decide_True|].
  destruct (Hend Hmt) as [Hx|[X1 X2]].
  - right. apply (aon_blocked (put_eng i (reset_m e2) s) i e2); [|done|done]. intros j. by rewrite get_order_inv.
  - left. apply crossed_uncrossed in X1. exact X1.
Qed.
Print Assumptions C01_blocked_partial.
(** The same for Match() and EnableMatching(), all books. *)
Lemma first_untouched s s' i b k o : inv s -> inv s' -> get_book i s = Some b -> untouched s s' i -> first_order s (get_side k b) o -> first_order s' (get_side k b) o.
Proof.
  intros Hi Hi' Hb [_ Hu] (l & Hl & Hbest & Hh & Ho). exists l. split; [done|]. split; [done|]. split; [done|].
  rewrite get_order_inv in * by done. apply Hu; [|done].
  destruct (lv_in _ _ _ _ (level_of_side _ _ _ _ _ (bk_side _ _ _ (iv_book _ Hi _ _ Hb) k) Hl) (o_id o)) as (o' & Ho' & Hs & _).
  { destruct (l_ids l) as [|j ids]; [done|]. cbn in Hh. injection Hh as ->. left. }
  congruence.
Qed.
Definition bset (s : state) (i : Z) : Prop := forall b, get_book i s = Some b -> uncrossed b \/ blocked s i b.
Lemma untouched_bset s s' i : inv s -> inv s' -> untouched s s' i -> bset s i -> bset s' i.
Proof.
  intros Hi Hi' Hut Hs b Hb. pose proof Hut as [Hu1 Hu2]. rewrite Hu1 in Hb.
  destruct (Hs b Hb) as [H|(bid & ask & x & y & z & H1 & H2 & H3 & H4 & H5 & (Z1 & Z2 & Z3) & H7 & H8)]; [by left|right].
  assert (Hn : forall d, none_aon s' i d -> none_aon s i d).
  { intros d H j o Ho Hs'. apply (H j); [|done]. rewrite get_order_inv in * by done. by apply Hu2. }
  exists bid, ask, x, y, z. split; [done|]. split; [done|]. split; [done|].
  split; [by apply (first_untouched s s' i b KBid)|]. split; [by apply (first_untouched s s' i b KAsk)|].
  split; [split; [|done]; rewrite get_order_inv in * by done; by apply Hu2|]. split; intros H; [apply H7|apply H8]; by apply Hn.
Qed.
Lemma match_books_bset idx : forall s s', inv s -> NoDup idx -> match_books idx s = Ok s' ->
  inv s' /\ (forall n, n ∈ idx -> bset s' (Z.of_nat n)) /\ (forall i, (forall n, n ∈ idx -> i <> Z.of_nat n) -> untouched s s' i).
Proof.
  induction idx as [|n idx IH]; intros s s' Hinv Hnd Hm; cbn [match_books] in Hm.
  { injection Hm as <-. split; [done|]. split; [by intros ? ?%elem_of_nil|]. intros. apply untouched_refl. }
  apply NoDup_cons in Hnd as [Hn Hnd].
  destruct (get_book (Z.of_nat n) s) as [b|] eqn:Hb.
  2: { destruct (IH s s' Hinv Hnd Hm) as (Hi & Hs & Hu). split; [done|]. split.
    - intros m [->|Hm']%elem_of_cons; [|by apply Hs]. intros b Hb'.
      destruct (Hu (Z.of_nat n)) as [E _]. { intros m Hm' E%Nat2Z.inj. by subst. }
      rewrite E in Hb'. congruence.
    - intros i Hi'. apply Hu. intros m Hm'. apply Hi'. by right. }
  pose proof (inv_eng s _ b Hinv Hb) as He.
  destruct (match_book_ok (F:=False) (W:=False) (Z.of_nat n) (eng_of b s) He) as (e' & Heq & Hr & He' & Hend).
  rewrite (on_book_run (Z.of_nat n) b _ s e' tt) in Hm by (by rewrite Heq). cbn [rbind] in Hm.
  assert (Hfr : frame (Z.of_nat n) (st_ords s) (e_ords e')). { by destruct (msteps_ok (Z.of_nat n) _ _ Hr (conj He I)). }
  assert (Hip : inv (put_eng (Z.of_nat n) e' s)) by (by eapply put_inv).
  destruct (IH (put_eng (Z.of_nat n) e' s) s') as (Hi & Hs & Hu); [done|done|done|].
  split; [done|]. split.
  - intros m [->|Hm']%elem_of_cons; [|by apply Hs].
    eapply (untouched_bset (put_eng (Z.of_nat n) e' s)); [done|done| |]. { apply Hu. intros m Hm' E%Nat2Z.inj. by subst. }
    intros b' Hb'. rewrite (get_book_put _ _ _ _ _ Hb), decide_True in Hb' by done. injection Hb' as <-.
    destruct Hend as [Hx|[X1 _]]; [right; apply aon_blocked; [|done|done]; intros j; by rewrite get_order_inv|left; by apply crossed_uncrossed in X1].
  - intros i Hi'. eapply untouched_trans; [|apply Hu; intros m Hm'; apply Hi'; by right].
    eapply put_untouched; [done|done|]. apply Hi'. left.
Qed.
Lemma match_all_bset s s' : inv s -> match_all s = Ok s' -> forall i, bset s' i.
Proof.
  intros Hinv Em i b Hb. unfold match_all in Em. destruct (match_books_bset _ s s' Hinv (NoDup_seq _ _) Em) as (Hi & Hs & Hu).
  assert (Hex : exists n, i = Z.of_nat n /\ (n < length (st_books s))%nat).
  { destruct (decide (0 <= i < Z.of_nat (length (st_books s)))) as [Hr'|Hno].
    - exists (Z.to_nat i). split; lia.
    - exfalso. destruct (Hu i) as [E _]. { intros n Hn E. apply elem_of_seq in Hn. lia. }
      rewrite E in Hb. unfold get_book, vfind, vget, vsize in Hb.
      destruct ((0 <=? i) && (i <? Z.of_nat (length (st_books s)))) eqn:Eb; [lia|done]. }
  destruct Hex as (n & -> & Hn). apply Hs; [apply elem_of_seq; lia|done].
Qed.
Theorem C01_match_blocked_partial s a s' evs i b : reach s -> a = Match \/ a = EnableMatching -> call s a s' OK evs -> get_book i s' = Some b ->
  uncrossed b \/ blocked s' i b.
Proof.
  intros Hr Ha [Hst _] Hb. pose proof (reach_inv _ Hr) as Hinv. destruct Ha as [-> | ->]; cbn [step] in Hst.
  - destruct (match_all s) as [s1| |] eqn:Em; [|done|done]. cbn in Hst. injection Hst as ->. by eapply (match_all_bset s s').
  - match type of Hst with context [match_all ?t] => destruct (match_all t) as [s1| |] eqn:Em; [|done|done]; assert (Hi : inv t) by (by destruct Hinv) end.
    cbn in Hst. injection Hst as ->. by eapply match_all_bset.
Qed.
Print Assumptions C01_match_blocked_partial.
(** A crossed book: an All-Or-None buy order of 10 above a sell order of 5; adding a sell order of 4 leaves it crossed, adding one
    more unit fills it. *)
Definition ex_blocked : list op := setup ++ [EnableMatching; SL 1 100 5; LIM BUY 2 101 10 AON].
Example C01_blocked_example : let s := hist ex_blocked in
  reach s /\ op_ok s (SL 3 101 4) /\ order_call (SL 3 101 4) = true /\ st_match s = true /\ call_symbol s (SL 3 101 4) = Some 0 /\
  call s (SL 3 101 4) (after s (SL 3 101 4)) OK (news s (SL 3 101 4)) /\
  s_best (b_bids (the_book (after s (SL 3 101 4)))) = Some 101 /\ s_best (b_asks (the_book (after s (SL 3 101 4)))) = Some 100 /\
  s_best (b_bids (the_book (after (after s (SL 3 101 4)) (SL 4 101 1)))) = None /\
  s_best (b_asks (the_book (after (after s (SL 3 101 4)) (SL 4 101 1)))) = None.
Proof.
  split; [apply hist_reach|]. split; [apply op_okb_ok; vm_compute; reflexivity|]. split; [done|]. split; [vm_compute; reflexivity|].
  split; [vm_compute; reflexivity|]. split; [apply hist_call; vm_compute; reflexivity|].
  split; [vm_compute; reflexivity|]. split; [vm_compute; reflexivity|]. split; vm_compute; reflexivity.
Qed.
