(** * Settle.v -- what matching leaves behind: crossed books, triggered stop orders, matching
    prices. *)
From Coq Require Import ZifyBool.
From stdpp Require Import fin_maps relations.
From Verif Require Import Types Book Engine Manager LevelFacts BookInv EngInv EngPrim Steps StepsOk Refine1 Refine2 Refine3 Refine4 Api Validate StateInv Micro Reach Calls Spec.

Lemma qsub_keeps k e e' : keeps k e e' -> qsub (e_bk e) (e_bk e').
Proof.
  intros [H1 H2 _ _ _] k' p. destruct (decide (k' = k)) as [->|Hk]; [apply H2|]. unfold queue. by rewrite H1.
Qed.
Lemma crossed_uncrossed e : crossed e = None <-> uncrossed (e_bk e).
Proof.
  unfold crossed, uncrossed, best; cbn [get_side]. destruct (s_best (b_bids (e_bk e))) as [bp|]; [|split; [intros _ ? ? [=]|done]].
  destruct (s_best (b_asks (e_bk e))) as [ap|]; [|split; [intros _ ? ? _ [=]|done]].
  destruct (Z.leb_spec ap bp); split; try done.
  - intros Hu. specialize (Hu _ _ eq_refl eq_refl). lia.
  - intros _ ? ? [= <-] [= <-]. lia.
Qed.

Lemma fstep_qsub {F W} sid c c' : fstep F W c c' -> cfg_ok sid c -> qsub (e_bk (fst c)) (e_bk (fst c')).
Proof.
  intros (Hst & H1 & H2) [He Hf].
  inversion Hst as [e o e' o' Ht|e o p Hty Hb|e o Hty Hre|e o Hfr Hlv Hty Htif|e o Hmv
    |e b a bp ap x r e' Hbb Hba Hcr Hqb Hb Hqa Ha Hnb Hna Hxr Hle (e1 & Hx & Hr)
    |e b a bp ap x k1 k2 v v1 e1 v2 e' Hbb Hba Hcr Hqb Hb Hqa Ha Hax Hv Hk Hc1 Hc2
    |e o e1 Ho Hs Hty Hre Hdel|e o e1 o' Ho Hs Htr Hne Hdel|e s]; subst; cbn in *; try (by destruct H1); try (by destruct H2); try apply qsub_refl.
  eapply qsub_keeps. by eapply tstep_keeps.
Qed.
Lemma fsteps_qsub {F W} sid c c' : rtc (fstep F W) c c' -> cfg_ok sid c -> qsub (e_bk (fst c)) (e_bk (fst c')).
Proof.
  induction 1 as [c|c c1 c' Hst _ IH]; intros Hc; [apply qsub_refl|]. eapply qsub_trans; [by eapply fstep_qsub|].
  apply IH. by eapply fsteps_cfg; [apply rtc_once|].
Qed.
(** ** Settled books *)
Definition aon_top (sid : Z) (e : eng) : Prop :=
  exists i x, e_ords e !! i = Some x /\ o_sym x = sid /\ o_type x = LIMIT /\ is_aon x = true /\ crossed e <> None.
Lemma cross_top sid e : aon_cross sid e \/ matched sid e -> aon_top sid e \/ matched sid e.
Proof. intros [(i & x & H1 & H2 & H3 & H4 & bp & ap & H5 & _)|H]; [left|by right]. exists i, x. rewrite H5. done. Qed.
Definition settled (s : state) (i : Z) : Prop :=
  forall b, get_book i s = Some b -> aon_top i (eng_of b s) \/ matched i (eng_of b s).
Lemma settled_ext i e e' : e_bk e' = e_bk e -> (forall j o, o_sym o = i -> e_ords e' !! j = Some o <-> e_ords e !! j = Some o) ->
  (aon_top i e \/ matched i e) -> aon_top i e' \/ matched i e'.
Proof.
  intros Hb Ho. assert (Hcr : crossed e' = crossed e) by (unfold crossed, best; by rewrite Hb).
  intros [(j & x & H1 & H2 & H3 & H4 & H5)|[H1 H2]].
  - left. exists j, x. rewrite Hcr. split; [by apply Ho|done].
  - right. split; [by rewrite Hcr|]. intros j x Hj Hs Ht Htr. rewrite Hb. eapply H2; try done. by apply Ho.
Qed.
Definition untouched (s s' : state) (i : Z) : Prop :=
  get_book i s' = get_book i s /\ forall j o, o_sym o = i -> st_ords s' !! j = Some o <-> st_ords s !! j = Some o.
Lemma put_untouched s sid b e i : get_book sid s = Some b -> frame sid (st_ords s) (e_ords e) -> i <> sid -> untouched s (put_eng sid e s) i.
Proof.
  intros Hb Hf Hi. split; [rewrite (get_book_put _ _ _ _ _ Hb); by rewrite decide_False|].
  intros j o Ho. cbn. symmetry. apply Hf. congruence.
Qed.
Lemma untouched_trans s1 s2 s3 i : untouched s1 s2 i -> untouched s2 s3 i -> untouched s1 s3 i.
Proof. intros [A1 A2] [B1 B2]. split; [congruence|]. intros j o Ho. rewrite (B2 j o Ho). by apply A2. Qed.
Lemma untouched_refl s i : untouched s s i.
Proof. done. Qed.
Lemma untouched_settled s s' i : untouched s s' i -> settled s i -> settled s' i.
Proof.
  intros [H1 H2] Hs b Hb. rewrite H1 in Hb. eapply (settled_ext i (eng_of b s)); [done| |by apply Hs]. exact H2.
Qed.

Lemma match_books_settled idx : forall s s', inv s -> NoDup idx -> match_books idx s = Ok s' ->
  inv s' /\ (forall n, n ∈ idx -> settled s' (Z.of_nat n)) /\ (forall i, (forall n, n ∈ idx -> i <> Z.of_nat n) -> untouched s s' i).
Proof.
  induction idx as [|n idx IH]; intros s s' Hinv Hnd Hm; cbn [match_books] in Hm.
  { injection Hm as <-. split; [done|]. split; [by intros ? ?%elem_of_nil|]. intros. apply untouched_refl. }
  apply NoDup_cons in Hnd as [Hn Hnd].
  destruct (get_book (Z.of_nat n) s) as [b|] eqn:Hb.
  2: { destruct (IH s s' Hinv Hnd Hm) as (Hi & Hs & Hu). split; [done|].
    split.
    - intros m [->|Hm']%elem_of_cons; [|by apply Hs]. intros b Hb'. 
      destruct (Hu (Z.of_nat n)) as [E _]. { intros m Hm' E%Nat2Z.inj. by subst. }
      rewrite E in Hb'. congruence.
    - intros i Hi'. apply Hu. intros m Hm'. apply Hi'. by right. }
  pose proof (inv_eng s _ b Hinv Hb) as He.
  destruct (match_book_ok (F:=False) (W:=False) (Z.of_nat n) (eng_of b s) He) as (e' & Heq & Hr & He' & Hend).
  rewrite (on_book_run (Z.of_nat n) b _ s e' tt) in Hm by (by rewrite Heq). cbn [rbind] in Hm.
  assert (Hfr : frame (Z.of_nat n) (st_ords s) (e_ords e')).
  { by destruct (msteps_ok (Z.of_nat n) _ _ Hr (conj He I)). }
  destruct (IH (put_eng (Z.of_nat n) e' s) s') as (Hi & Hs & Hu); [by eapply put_inv|done|done|].
  split; [done|]. split.
  - intros m [->|Hm']%elem_of_cons; [|by apply Hs].
    eapply untouched_settled. { apply Hu. intros m Hm' E%Nat2Z.inj. by subst. }
    intros b' Hb'. rewrite (get_book_put _ _ _ _ _ Hb), decide_True in Hb' by done. injection Hb' as <-.
    eapply (settled_ext _ e'); [done|done|]. by apply cross_top.
  - intros i Hi'. eapply untouched_trans; [|apply Hu; intros m Hm'; apply Hi'; by right].
    eapply put_untouched; [done|done|]. apply Hi'. left.
Qed.
Lemma match_all_settled s s' : inv s -> match_all s = Ok s' -> inv s' /\ forall i, settled s' i.
Proof.
  intros Hinv Hm. destruct (match_books_settled _ s s' Hinv (NoDup_seq _ _) Hm) as (Hi & Hs & Hu). split; [done|].
  intros i b Hb.
  assert (Hex : exists n, i = Z.of_nat n /\ (n < length (st_books s))%nat).
  { destruct (decide (0 <= i < Z.of_nat (length (st_books s)))) as [Hr|Hno].
    - exists (Z.to_nat i). split; lia.
    - exfalso. destruct (Hu i) as [E _]. { intros n Hn E. apply elem_of_seq in Hn. lia. }
      rewrite E in Hb. unfold get_book, vfind, vget, vsize in Hb.
      destruct ((0 <=? i) && (i <? Z.of_nat (length (st_books s)))) eqn:Eb; [lia|done]. }
  destruct Hex as (n & -> & Hn). apply Hs; [apply elem_of_seq; lia|done].
Qed.

(** ** Order calls *)
Lemma outcome_settled s a s' er : inv s -> outcome s a s' er -> st_match s = true ->
  forall i, untouched s s' i \/
    (er = OK /\ exists b e2, get_book i s = Some b /\ s' = put_eng i (reset_m e2) s /\ (aon_cross i e2 \/ matched i e2)) \/
    (er = ORDER_DUPLICATE /\ exists b b', get_book i s = Some b /\ get_book i s' = Some b' /\ qsub b b').
Proof.
  intros Hinv Ho Hmt i. inversion Ho as [|sid b c e' ? Hb Htg Hhd Hc Hfr Hend]; subst; [by left|].
  assert (Hfr' : frame sid (st_ords s) (e_ords e')). { eapply frame_trans; [done|]. by eapply ending_frame. }
  destruct (decide (i = sid)) as [->|Hi]; [|left; by eapply put_untouched].
  destruct (head_hstep s sid b a c Hinv Hb Htg Hhd) as [hevs Hh].
  inversion Hend as [e1 e2 H1 H2 Hmf Hms He2 ->|e1 o o1 Ho' Hfl Hmf Hd1 Hd2 Hlv He1 ->]; subst; right.
  - left. split; [done|]. exists b, e2. split; [done|]. split; [done|]. by apply Hms.
  - right. split; [done|]. exists b, (e_bk e1). split; [done|]. split.
    { rewrite (get_book_put _ _ _ _ _ Hb), decide_True by done. done. }
    eapply qsub_trans; [exact (hstep_qsub _ _ _ _ _ Hh)|]. exact (fsteps_qsub _ _ _ Hfl Hc).
Qed.

(** Every book is uncrossed or of a symbol with a live All-Or-None limit order. *)
Definition aon_live (s : state) (i : Z) : Prop :=
  exists j o, st_ords s !! j = Some o /\ o_sym o = i /\ o_type o = LIMIT /\ o_tif o = AON.
Definition xset (s : state) (i : Z) : Prop := forall b, get_book i s = Some b -> uncrossed b \/ aon_live s i.
Lemma settled_xset s i : settled s i -> xset s i.
Proof.
  intros H b Hb. destruct (H b Hb) as [(j & x & X1 & X2 & X3 & X4 & X5)|[X1 X2]].
  - right. exists j, x. split; [done|]. split; [done|]. split; [done|]. unfold is_aon in X4. by apply bool_decide_eq_true in X4.
  - left. by apply crossed_uncrossed in X1.
Qed.
Lemma untouched_xset s s' i : untouched s s' i -> xset s i -> xset s' i.
Proof.
  intros [H1 H2] Hs b Hb. rewrite H1 in Hb. destruct (Hs b Hb) as [?|(j & o & X1 & X2 & X3)]; [by left|right].
  exists j, o. split; [by apply H2|done].
Qed.
Lemma outcome_xset s a s' er : inv s -> outcome s a s' er -> st_match s = true -> er <> ORDER_DUPLICATE ->
  (forall i, xset s i) -> forall i, xset s' i.
Proof.
  intros Hinv Ho Hmt Hnd Hx i. destruct (outcome_settled s a s' er Hinv Ho Hmt i) as [Hu|[(-> & b & e2 & Hb & -> & He)|[-> _]]]; [|..|done].
  - by eapply untouched_xset.
  - intros b' Hb'. rewrite (get_book_put _ _ _ _ _ Hb), decide_True in Hb' by done. injection Hb' as <-.
    destruct He as [(j & x & X1 & X2 & X3 & X4 & X5)|[X1 X2]].
    + right. exists j, x. split; [done|]. split; [done|]. split; [done|]. unfold is_aon in X4. by apply bool_decide_eq_true in X4.
    + left. by apply crossed_uncrossed in X1.
Qed.
Lemma outcome_uncrossed s a s' er : inv s -> outcome s a s' er -> st_match s = true -> no_live_aon s' ->
  all_uncrossed s -> all_uncrossed s'.
Proof.
  intros Hinv Ho Hmt Hna Hx i b' Hb'. pose proof (outcome_inv _ _ _ _ Hinv Ho) as Hinv'.
  destruct (outcome_settled s a s' er Hinv Ho Hmt i) as [Hu|[(-> & b & e2 & Hb & -> & He)|(_ & b & b1 & Hb & Hb1 & Hq)]].
  - destruct Hu as [E _]. rewrite E in Hb'. by eapply Hx.
  - rewrite (get_book_put _ _ _ _ _ Hb), decide_True in Hb' by done. injection Hb' as <-.
    destruct He as [(j & x & X1 & X2 & X3 & X4 & X5)|[X1 X2]].
    + exfalso. apply (Hna j x X1). unfold is_aon in X4. by apply bool_decide_eq_true in X4.
    + by apply crossed_uncrossed in X1.
  - assert (b1 = b') as -> by congruence. eapply uncrossed_qsub; [by apply (iv_book _ Hinv)|by apply (iv_book _ Hinv')|done|by eapply Hx].
Qed.

Lemma step_match s a s' er : inv s -> op_ok s a -> step s a = Ok (s', er) ->
  st_match s' = match a with EnableMatching => true | DisableMatching => false | _ => st_match s end.
Proof.
  intros Hinv Hop Hst. pose proof (step_result _ _ _ _ Hinv Hop Hst) as Hr.
  assert (Ho : forall s a s' er, outcome s a s' er -> st_match s' = st_match s) by (by intros ? ? ? ? H; inversion H).
  inversion Hr as [? ? ? Hord Hout|i o ? H1 H2 Hout|i o s1 ? ? Ho1 Hi1 Hop1 Ho2|? Hm|? Hm| | | | | | | | | |]; subst; try done.
  - rewrite (Ho _ _ _ _ Hout). by destruct a.
  - rewrite (Ho _ _ _ _ Ho2). by rewrite (Ho _ _ _ _ Ho1).
  - by destruct (mrun_match _ _ Hm) as [-> _].
  - by destruct (mrun_match _ _ Hm) as [-> _].
Qed.
Lemma outcome_match s a s' er : outcome s a s' er -> st_match s' = st_match s.
Proof. by inversion 1. Qed.

Lemma new_book_uncrossed sy : uncrossed (new_book sy).
Proof. intros ? ? [=]. Qed.
Lemma step_uncrossed s a s' er : inv s -> op_ok s a -> step s a = Ok (s', er) -> no_live_aon s -> adds_no_aon a ->
  (st_match s = true -> all_uncrossed s) -> st_match s' = true \/ a = Match -> all_uncrossed s'.
Proof.
  intros Hinv Hop Hst Hna Had Hx Hmt.
  assert (Hna' : no_live_aon s').
  { destruct (call_exists s a Hinv Hop) as (s1 & er1 & evs & Hc). pose proof Hc as [Hst1 _]. rewrite Hst in Hst1. injection Hst1 as <- <-.
    destruct (call_q (fun o => o_tif o <> AON) s a s' er evs closed_tif (aon_keeps a Had) Hinv Hop Hc Hna) as [H _]. exact H. }
  rewrite (step_match s a s' er Hinv Hop Hst) in Hmt. pose proof (step_result _ _ _ _ Hinv Hop Hst) as Hr.
  assert (Hmatch : forall s0, inv s0 -> match_all s0 = Ok s' -> all_uncrossed s').
  { intros s0 Hi0 Hm i b Hb. destruct (match_all_settled s0 s' Hi0 Hm) as [Hi' Hs].
    destruct (settled_xset _ _ (Hs i) b Hb) as [?|(j & o & X1 & _ & _ & X4)]; [done|]. by destruct (Hna' j o X1). }
  inversion Hr as [? ? ? Hord Hout|i o ? H1 H2 Hout|i o s1 ? ? Ho1 Hi1 Hop1 Ho2|? Hm|? Hm| |sy v Hg Hv|sy v Hg Hi Hv|i Hg|i sy v Hg Hv|sy Hg|sy v Hg Hg' Hv|sy reg v Hg Hg' Hv|i Hg|i b v Hg Hv]; subst.
  - assert (Hm : st_match s = true) by (destruct Hmt as [? | ->]; [by destruct a|done]). by eapply outcome_uncrossed; eauto.
  - destruct Hmt as [Hmt|?]; [|done]. by apply Hx.
  - destruct Hmt as [Hmt|?]; [|done]. eapply (outcome_uncrossed s1); [done|done| |done|].
    { by rewrite (outcome_match _ _ _ _ Ho1). }
    eapply (outcome_uncrossed s _ s1 OK); [done|exact Ho1|done| |by apply Hx].
    intros j x Hj. 
    destruct (outcome_segs True s (DeleteOrder i) s1 OK Hinv ltac:(by destruct Hop) eq_refl Ho1 ltac:(by left)) as (l & evs & Hs & Hl & _).
    destruct (segs_q (wide True) _ _ _ _ _ closed_tif Hs) as [Hq _]; [|exact Hna|by eapply Hq].
    eapply Forall_impl; [done|]. by intros ? ->.
  - cbn [step] in Hst. destruct (match_all s) as [s1| |] eqn:Em; [|done|done]. cbn in Hst. injection Hst as ->. by eapply Hmatch.
  - cbn [step] in Hst. destruct (match_all (set_matching true s)) as [s1| |] eqn:Em; [|done|done]. cbn in Hst. injection Hst as ->.
    eapply Hmatch; [|done]. by apply inv_matching.
  - by destruct Hmt.
  - destruct Hmt as [Hmt|?]; [|done]. by apply Hx.
  - destruct Hmt as [Hmt|?]; [|done]. by apply Hx.
  - destruct Hmt as [Hmt|?]; [|done]. by apply Hx.
  - destruct Hmt as [Hmt|?]; [|done]. by apply Hx.
  - destruct Hmt as [Hmt|?]; [|done]. by apply Hx.
  - destruct Hmt as [Hmt|?]; [|done]. intros i b Hb. unfold get_book in Hb. cbn in Hb. rewrite Hv in Hb. by eapply Hx.
  - destruct Hmt as [Hmt|?]; [|done]. intros i b Hb. unfold get_book in Hb. cbn in Hb. rewrite Hv in Hb.
    destruct (decide _); [injection Hb as <-; apply new_book_uncrossed|by eapply Hx].
  - destruct Hmt as [Hmt|?]; [|done]. by apply Hx.
  - destruct Hmt as [Hmt|?]; [|done]. intros j b' Hb. unfold get_book in Hb. cbn in Hb. rewrite Hv in Hb.
    destruct (decide _); [done|by eapply Hx].
Qed.

(** ** Matching prices remember executions of the call *)
Definition price_from (sd : oside) (evs : list event) (p : Z) : Prop := exists x q, (x, p, q) ∈ execs evs /\ o_side x = sd.
Definition mprices (evs : list event) (b b' : book) : Prop :=
  (b_match_bid b' = b_match_bid b \/ b_match_bid b' = 0 \/ price_from BUY evs (b_match_bid b')) /\
  (b_match_ask b' = b_match_ask b \/ b_match_ask b' = MAX64 \/ price_from SELL evs (b_match_ask b')).
Lemma price_from_l sd a b p : price_from sd a p -> price_from sd (a ++ b) p.
Proof. intros (x & q & H & Hs). exists x, q. split; [|done]. unfold execs in *. rewrite omap_app. apply elem_of_app. by left. Qed.
Lemma price_from_r sd a b p : price_from sd b p -> price_from sd (a ++ b) p.
Proof. intros (x & q & H & Hs). exists x, q. split; [|done]. unfold execs in *. rewrite omap_app. apply elem_of_app. by right. Qed.
Lemma mprices_trans a b b1 b2 b3 : mprices a b1 b2 -> mprices b b2 b3 -> mprices (a ++ b) b1 b3.
Proof.
  intros [A1 A2] [B1 B2]. split.
  - destruct B1 as [-> |[-> |B1]]; [|auto|right; right; by apply price_from_r].
    destruct A1 as [-> |[-> |A1]]; [auto|auto|right; right; by apply price_from_l].
  - destruct B2 as [-> |[-> |B1']]; [|auto|right; right; by apply price_from_r].
    destruct A2 as [-> |[-> |A1']]; [auto|auto|right; right; by apply price_from_l].
Qed.
Lemma mprices_eq evs b b' : bprices b' = bprices b -> mprices evs b b'.
Proof. intros H. apply bprices_inj in H as (_ & _ & H1 & H2 & _). split; auto. Qed.
Lemma mprices_reset evs s p b b' : bprices b' = bprices (after_exec s p b) -> mprices evs b b'.
Proof.
  intros H. apply bprices_inj in H as (_ & _ & H1 & H2 & _). split; right; left; [exact H1|exact H2].
Qed.
Lemma mprices_exec evs b b' x p q : bprices b' = bprices (update_matching (o_side x) p (update_last (o_side x) p b)) -> (x, p, q) ∈ execs evs -> mprices evs b b'.
Proof.
  intros H Hin. apply bprices_inj in H as (_ & _ & H1 & H2 & _).
  destruct (o_side x) eqn:E; cbn in H1, H2; split; try (by left); right; right; rewrite ?H1, ?H2; by exists x, q.
Qed.
Lemma execs_head x p q evs : (x, p, q) ∈ execs (EExecute x p q :: evs).
Proof. left. Qed.
Lemma usteps_mprices sid A c evs c' : usteps sid A c evs c' -> cfg_ok sid c -> mprices evs (e_bk (fst c)) (e_bk (fst c')).
Proof.
  revert c evs c'. apply (usteps_ind_ok sid A (fun c evs c' => mprices evs (e_bk (fst c)) (e_bk (fst c')))); [intros; by apply mprices_eq|].
  intros c evs c1 evs' c' _ Hu _ IH. eapply mprices_trans; [|exact IH]. clear IH.
  inversion Hu as [e f r p q u e' Q Hr Hs Ht Hq Hx He' Hords Hlog Hpr Hp
    |e f r p u e' Q Hr Hs Ht Hx He' Hords Hlog Hpr Hp|e o p q Hq Hw Hfa|e o p Hty Hb|e o Hty Hre
    |e o u e' Hfr Hlv Hty Htif He' Hords Hlog Hpr Hp|e o Hmv|e o u e' Ho Hs Hty Hre He' Hords Hlog Hpr Hp
    |e o u1 b1 u2 e' o' Ho Hs Htr Hne He' Hords Hlog Hpr Hp1 Hp2|e s|e]; subst; cbn [fst]; try (by apply mprices_eq).
  - by eapply mprices_reset.
  - by eapply mprices_reset.
  - eapply (mprices_exec _ _ _ o p q); [done|apply execs_head].
  - destruct s; (split; by left).
  - split; auto.
Qed.
Lemma hstep_mprices sid e a evs c : hstep sid e a evs c -> mprices evs (e_bk e) (e_bk (fst c)).
Proof.
  intros Hh. inversion Hh as [o o' Hsym Hval|i q0 o u e' q o' Q' Ho Hid Hsym Hq He' Hords Hlog Hpr Hp
    |mit i p q o u e' o' evs' Q' Ho Hid Hsym Hq He' Hords Hlog Hpr Hp
    |i ni p q o u e' o' Q' evs' Ho Hid Hsym Hq Hni Hty He' Hords Hlog Hpr Hp
    |i o u e' Q' evs' Ho Hid Hsym He' Hords Hlog Hpr Hp
    |a' i price q0 o u e' q o' Q' evs' Ha Ho Hid Hsym Hq He' Hords Hlog Hpr Hp]; subst; cbn [fst]; try (by apply mprices_eq).
  unfold evs'. eapply (mprices_exec _ _ _ o price q); [exact Hpr|apply execs_head].
Qed.

(** The state after a successful order call with matching on, before the matching price is reset. *)
Lemma outcome_end s a s' er evs : inv s -> outcome s a s' er -> er = OK -> st_log s' = st_log s ++ evs ->
  exists sid b e2, get_book sid s = Some b /\ target s a = Some sid /\ s' = put_eng sid (reset_m e2) s /\ eng_ok sid e2 /\
    mprices evs b (e_bk e2) /\ (st_match s = true -> aon_cross sid e2 \/ matched sid e2) /\ frame sid (st_ords s) (e_ords e2).
Proof.
  intros Hinv Ho Her Hlog. inversion Ho as [? Hn|sid b c e' ? Hb Htg Hhd Hc Hfr Hend]; subst; [done|].
  destruct (head_hstep s sid b a c Hinv Hb Htg Hhd) as [hevs Hh].
  pose proof (ending_frame _ _ _ _ _ Hend Hc) as Hfr2.
  inversion Hend as [e1 e2 H1 H2 Hmf Hms He2 E'|]; subst.
  exists sid, b, e2. split; [done|]. split; [done|]. split; [done|]. split; [done|]. split; [|split; [done|by eapply frame_trans]].
  assert (rtc (mstep (st_match s = false) (mod_stop s a)) c (e2, None)) as Hr.
  { destruct H1 as [->|(c1 & Hfl & _ & _ & Hl)]; [done|]. eapply rtc_transitive; [by apply fsteps_msteps|]. by eapply rtc_l. }
  destruct (msteps_micro sid (wide True) _ _ (msteps_mono _ _ _ _ _ _ (fun _ => I) (fun _ => I) Hr) Hc (allows_wide _ _ _ (or_introl I))) as [uevs Hu].
  pose proof (hstep_mprices _ _ _ _ _ Hh) as M1. pose proof (usteps_mprices _ _ _ _ _ Hu Hc) as M2. cbn [fst] in M2.
  destruct (usteps_ok _ _ _ _ _ Hu Hc) as [_ L2]. cbn [fst] in L2. pose proof (hstep_log _ _ _ _ _ Hh) as L1.
  cbn in Hlog. rewrite L2, L1 in Hlog. cbn in Hlog. rewrite <- app_assoc in Hlog. apply app_inv_head in Hlog. subst evs.
  by eapply mprices_trans.
Qed.
