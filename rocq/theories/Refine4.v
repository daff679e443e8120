(** * Refine4.v -- crossed books: chains over both sides, pairs, and Match(book). *)
From Coq Require Import ZifyBool.
From stdpp Require Import fin_maps relations.
From Verif Require Import Types Book Engine LevelFacts BookInv EngInv EngPrim Steps StepsOk Refine1 Refine2 Refine3.

(** ** CalculateMatchingChain over both sides terminates *)
Definition wsum (l : list (list order)) : nat := sum_list (map (fun l => S (length l)) l).
Lemma chain2_loop_ok : forall fuel ll sl lo so req avail,
  0 <= req < TWO64 -> 0 <= avail < TWO64 ->
  (length lo + length so + wsum (tail ll) + wsum (tail sl) + (match ll, sl with [], _ | _, [] => 0 | _, _ => 1 end) < fuel)%nat ->
  exists v, chain2_loop fuel ll sl lo so req avail = Ok v /\ 0 <= v < TWO64.
Proof.
  induction fuel as [|fuel IH]; intros ll sl lo so req avail Hr Ha Hf; [lia|].
  cbn [chain2_loop]. destruct ll as [|l ll]; [by exists 0|]. destruct sl as [|s sl]; [by exists 0|].
  cbn [tail] in Hf.
  destruct lo as [|x lo].
  - destruct so as [|y so].
    + apply IH; [done|done|]. destruct ll as [|l1 ll], sl as [|s1 sl]; unfold wsum in *; cbn in *; lia.
    + apply IH; [done|done|]. destruct ll as [|l1 ll]; unfold wsum in *; cbn in *; lia.
  - destruct so as [|y so].
    + apply IH; [done|done|]. destruct sl as [|s1 sl]; unfold wsum in *; cbn in *; lia.
    + set (q := if is_aon y then _ else _).
      pose proof (u64_bounds (avail + q)).
      destruct (req =? u64 (avail + q)); [by exists req|].
      destruct (req <? u64 (avail + q)); apply IH; try done; unfold wsum in *; cbn in *; lia.
Qed.
Lemma map_snd_ne (L : list (Z * list order)) x : L = x :: tail L -> map snd L = snd x :: map snd (tail L).
Proof. destruct L; [done|]. cbn. congruence. Qed.
Lemma chain2_ok sid e bp ap : eng_ok sid e -> best KBid e = Some bp -> best KAsk e = Some ap ->
  exists v, chain2 bp ap e = Ok v /\ 0 <= v < TWO64.
Proof.
  intros He Hb Ha.
  destruct (best_lvls _ _ _ _ He Hb) as [Hfb Hnb]. destruct (best_lvls _ _ _ _ He Ha) as [Hfa Hna].
  destruct (cview_intro sid e KBid He) as (LB & HLB & Hfst & HvB).
  destruct (cview_intro sid e KAsk He) as (LA & HLA & Hfst' & HvA).
  unfold chain2, chain_levels. rewrite Hfb, Hfa, HLB, HLA. cbn [of_opt rbind].
  destruct LB as [|[pb osb] LB]; [destruct (lvls KBid e); done|].
  destruct LA as [|[pa osa] LA]; [destruct (lvls KAsk e); done|].
  destruct (cv_q _ _ _ HvB pb osb) as (Hne & _ & Hob); [left|]. destruct osb as [|b bt]; [done|].
  destruct (cv_q _ _ _ HvA pa osa) as (Hne' & _ & Hoa); [left|]. destruct osa as [|a at_]; [done|].
  pose proof (cview_front _ _ _ _ _ _ _ He HvB) as HfB. pose proof (live_le_total _ _ _ _ _ He HfB).
  pose proof (cview_front _ _ _ _ _ _ _ He HvA) as HfA. pose proof (live_le_total _ _ _ _ _ He HfA).
  pose proof (mo_total _ (proj1 He)).
  cbn [map snd]. set (sw := _ || _). unfold c2_fuel.
  destruct sw; apply chain2_loop_ok; try lia; try (unfold TWO64; lia); unfold wsum; cbn; lia.
Qed.

(** ** One crossed pair of plain orders *)
Record psame (x r : Z) (e e' : eng) : Prop := {
  ps_in : forall k p i, i <> x -> i <> r -> i ∈ queue (e_bk e) k p -> i ∈ queue (e_bk e') k p;
  ps_ne : forall k p, queue (e_bk e') k p <> [] -> queue (e_bk e) k p <> [];
  ps_ords : forall i, i <> x -> i <> r -> e_ords e' !! i = e_ords e !! i;
}.
Lemma exec_delete_psame sid e x price q e1 : eng_ok sid e -> e_ords e !! o_id x = Some x -> o_sym x = sid ->
  exec_delete x price q e = Ok e1 -> eng_ok sid e1 /\ psame (o_id x) (o_id x) e e1 /\ e_ords e1 = delete (o_id x) (e_ords e).
Proof.
  intros He Hx Hs Hex.
  destruct (exec_delete_ok sid e x price q He Hx Hs) as (u & e1' & Heq & Hok & Hords & _ & _ & Hp).
  rewrite Hex in Heq. injection Heq as <-. split; [done|]. split; [|done].
  pose proof (prim_queue _ _ _ _ _ _ _ Hp) as Hq. constructor.
  - intros k p i Hi _ Hin. rewrite Hq. destruct (decide _) as [[-> ->]|]; [|done]. by apply elem_of_list_filter.
  - intros k p. rewrite Hq. destruct (decide _) as [[-> ->]|]; [|done]. intros Hne E. apply Hne. by rewrite E.
  - intros i Hi _. rewrite Hords. by rewrite lookup_delete_ne.
Qed.
Lemma exec_reduce_psame sid e x price q e1 : eng_ok sid e -> e_ords e !! o_id x = Some x -> o_sym x = sid -> 0 < q <= o_leaves x ->
  exec_reduce x price q e = Ok e1 -> eng_ok sid e1 /\ psame (o_id x) (o_id x) e e1.
Proof.
  intros He Hx Hs Hq0 Hex.
  destruct (exec_reduce_ok sid e x price q He Hx Hs Hq0) as (u & e1' & Heq & Hok & Hords & _ & _ & Hp).
  rewrite Hex in Heq. injection Heq as <-. split; [done|].
  pose proof (prim_queue _ _ _ _ _ _ _ Hp) as Hq. constructor.
  - intros k p i Hi _ Hin. rewrite Hq. destruct (decide _) as [[-> ->]|]; [|done].
    destruct (q =? o_leaves x); [|done]. by apply elem_of_list_filter.
  - intros k p. rewrite Hq. destruct (decide _) as [[-> ->]|]; [|done].
    destruct (q =? o_leaves x); [|done]. intros Hne E. apply Hne. by rewrite E.
  - intros i Hi _. rewrite Hords. by rewrite reduced_ne.
Qed.
Lemma psame_best sid e e' x r k p : eng_ok sid e -> eng_ok sid e' -> psame x r e e' -> best k e = Some p ->
  queue (e_bk e') k p <> [] -> best k e' = Some p.
Proof.
  intros He He' Hp Hb Hne. apply (best_char _ _ _ _ _ (proj2 He')). split; [done|].
  intros q Hq. apply (ps_ne _ _ _ _ Hp) in Hq. eapply best_some; [apply He|done|done].
Qed.

(** A live All-Or-None limit order stands at the top of a crossed book, and no matching chain was found. *)
Definition stuck (e : eng) (x : order) : Prop :=
  exists bp ap, crossed e = Some (bp, ap) /\ chain2 bp ap e = Ok 0 /\ (o_id x ∈ queue (e_bk e) KBid bp \/ o_id x ∈ queue (e_bk e) KAsk ap).
Definition aon_cross (sid : Z) (e : eng) : Prop :=
  exists i x, e_ords e !! i = Some x /\ o_sym x = sid /\ o_type x = LIMIT /\ is_aon x = true /\ stuck e x.

Lemma front_eq e k p r i rest : front e k p r -> queue (e_bk e) k p = i :: rest -> o_id r = i.
Proof. intros (_ & (rest' & Hq) & _) E. congruence. Qed.

(** The chain branch. *)
Section steps.
Context {F W : Prop}.
Local Notation mstep := (mstep F W).
Lemma pairs_chain_ok sid e bp ap b a : eng_ok sid e ->
  best KBid e = Some bp -> best KAsk e = Some ap -> ap <= bp ->
  o_id b ∈ queue (e_bk e) KBid bp -> e_ords e !! o_id b = Some b ->
  o_id a ∈ queue (e_bk e) KAsk ap -> e_ords e !! o_id a = Some a ->
  is_aon b || is_aon a = true ->
  exists fl e', (do chain <- chain2 bp ap e;
        if chain =? 0 then Ok (Return, e) else
        if is_aon b then
          do e' <- exec_chain KBid bp (o_price b) chain e;
          do e' <- exec_chain KAsk ap (o_price b) chain e';
          Ok (Break, e')
        else
          do e' <- exec_chain KAsk ap (o_price a) chain e;
          do e' <- exec_chain KBid bp (o_price a) chain e';
          Ok (Break, e')) = Ok (fl, e') /\ rtc mstep (e, None) (e', None) /\
    (fl = Return -> e' = e /\ chain2 bp ap e = Ok 0) /\
    (fl = Break -> (exists br ar, queue (e_bk e) KBid bp = o_id b :: br /\ queue (e_bk e) KAsk ap = o_id a :: ar) ->
       (size (e_ords e') < size (e_ords e))%nat).
Proof.
  intros He Hbb Hba Hcr Hqb Hb Hqa Ha Haon.
  destruct (chain2_ok sid e bp ap He Hbb Hba) as (v & Hv & Hvr). rewrite Hv. cbn [rbind].
  destruct (Z.eqb_spec v 0) as [Ev|Ev].
  { exists Return, e. split; [done|]. split; [apply rtc_refl|]. by subst v. }
  assert (Hgen : forall x k1 k2 p1 p2 rest1, is_aon x = true -> best k1 e = Some p1 -> best k2 e = Some p2 -> k1 <> k2 ->
     e_ords e !! o_id x = Some x ->
     exists e1 e', exec_chain k1 p1 (o_price x) v e = Ok e1 /\ exec_chain k2 p2 (o_price x) v e1 = Ok e' /\
       (exists v1 v2, rtc (cxstep false k1 (o_price x)) (v, e) (v1, e1) /\ rtc (cxstep false k2 (o_price x)) (v, e1) (v2, e')) /\
       (queue (e_bk e) k1 p1 = o_id x :: rest1 -> (size (e_ords e') < size (e_ords e))%nat)).
  { intros x k1 k2 p1 p2 rest1 Hx Hb1 Hb2 Hk Hxm.
    destruct (exec_chain_loose sid k1 (o_price x) p1 e v He Hb1 Hvr) as (v1 & e1 & Heq1 & Hr1 & Ht1).
    pose proof (cxsteps_ok _ _ _ _ _ sid Hr1 He ltac:(cbn; lia)) as (He1 & Hsh1 & _). cbn in He1, Hsh1.
    pose proof (cxsteps_keeps sid _ _ _ _ _ Hr1 He ltac:(cbn; lia)) as Hkp. cbn in Hkp.
    assert (Hb2' : best k2 e1 = Some p2). { unfold best. rewrite (kp_sides _ _ _ Hkp) by done. done. }
    destruct (exec_chain_loose sid k2 (o_price x) p2 e1 v He1 Hb2' Hvr) as (v2 & e2 & Heq2 & Hr2 & _).
    pose proof (cxsteps_ok _ _ _ _ _ sid Hr2 He1 ltac:(cbn; lia)) as (He2 & Hsh2 & _). cbn in He2, Hsh2.
    exists e1, e2. split; [done|]. split; [done|]. split; [eauto|].
    intros Hq. specialize (Ht1 Ev).
    assert (Hfirst : exists c, cxstep false k1 (o_price x) (v, e) c /\ rtc (cxstep false k1 (o_price x)) c (v1, e1)).
    { inversion Ht1; subst; [eexists; split; [done|apply rtc_refl]|]. eexists. split; [done|]. by apply tc_rtc. }
    destruct Hfirst as ([v0 e0] & Hst & Hrest).
    assert (Hsz : (size (e_ords e0) < size (e_ords e))%nat).
    { inversion Hst as [? ? p r ? Hv0 Hf Hra Ht Hex|? ? p r ? Hv0 Hf Hra Ht Hex]; subst;
        (assert (p = p1) by (destruct Hf as (Hfb & _); congruence)); subst p;
        pose proof (front_eq _ _ _ _ _ _ Hf Hq) as Hid; destruct Hf as (_ & _ & Hr); rewrite Hid in Hr;
        (assert (r = x) by congruence); subst r; [|congruence].
      destruct (queue_facts sid e k1 p1 (o_id x) He) as (x' & Hx' & _ & Hs & _); [rewrite Hq; left|].
      assert (x' = x) by congruence. subst x'.
      destruct (exec_delete_psame sid e x _ _ _ He Hxm Hs Hex) as (_ & _ & ->).
      rewrite (size_delete _ _ _ Hxm). lia. }
    assert (He0 : eng_ok sid e0 /\ 0 <= v0 < TWO64).
    { destruct (cxstep_ok _ _ _ _ _ _ _ _ Hst He ltac:(lia)) as (? & _ & ?). done. }
    destruct He0 as [He0 Hv0].
    pose proof (cxsteps_ok _ _ _ _ _ sid Hrest He0 Hv0) as (_ & Hsh3 & _). cbn in Hsh3.
    destruct Hsh2, Hsh3. lia. }
  destruct (is_aon b) eqn:Eb.
  - destruct (Hgen b KBid KAsk bp ap (tail (queue (e_bk e) KBid bp)) Eb Hbb Hba ltac:(done) Hb) as (e1 & e' & Heq1 & Heq2 & (v1 & v2 & Hr1 & Hr2) & Hsz).
    rewrite Heq1. cbn [rbind]. rewrite Heq2. cbn [rbind]. exists Break, e'. split; [done|]. split.
    + apply rtc_once. eapply (ms_pchain F W e b a bp ap b KBid KAsk v v1 e1 v2 e'); try done; [lia|]. left. done.
    + split; [done|]. intros _ (br & ar & Hqb' & _). apply Hsz. rewrite Hqb'. done.
  - cbn in Haon.
    destruct (Hgen a KAsk KBid ap bp (tail (queue (e_bk e) KAsk ap)) Haon Hba Hbb ltac:(done) Ha) as (e1 & e' & Heq1 & Heq2 & (v1 & v2 & Hr1 & Hr2) & Hsz).
    rewrite Heq1. cbn [rbind]. rewrite Heq2. cbn [rbind]. exists Break, e'. split; [done|]. split.
    + apply rtc_once. eapply (ms_pchain F W e b a bp ap a KAsk KBid v v1 e1 v2 e'); try done; [lia|]. right. done.
    + split; [done|]. intros _ (br & ar & _ & Hqa'). apply Hsz. rewrite Hqa'. done.
Qed.

Lemma crossed_intro e bp ap : best KBid e = Some bp -> best KAsk e = Some ap -> ap <= bp -> crossed e = Some (bp, ap).
Proof. unfold crossed. intros -> -> H. rewrite (proj2 (Z.leb_le _ _) H). done. Qed.

(** ** The loop over pairs *)
Lemma match_pairs_ok sid bp ap : ap <= bp -> forall bids asks e,
  eng_ok sid e -> NoDup bids -> NoDup asks ->
  (forall i, i ∈ bids -> i ∈ queue (e_bk e) KBid bp) -> (forall i, i ∈ asks -> i ∈ queue (e_bk e) KAsk ap) ->
  (bids <> [] -> best KBid e = Some bp) -> (asks <> [] -> best KAsk e = Some ap) ->
  exists fl e', match_pairs bp ap bids asks e = Ok (fl, e') /\ rtc mstep (e, None) (e', None) /\ eng_ok sid e' /\
    (fl = Return -> aon_cross sid e') /\
    (fl = Break -> bids <> [] -> asks <> [] -> bids = queue (e_bk e) KBid bp -> asks = queue (e_bk e) KAsk ap ->
       (size (e_ords e') < size (e_ords e))%nat).
Proof.
  intros Hcr. induction bids as [|bi bids IH]; intros asks e He Hndb Hnda Hinb Hina Hbb Hba.
  { exists Break, e. split; [done|]. split; [apply rtc_refl|]. done. }
  destruct asks as [|ai asks].
  { exists Break, e. split; [done|]. split; [apply rtc_refl|]. done. }
  cbn [match_pairs].
  specialize (Hbb ltac:(done)). specialize (Hba ltac:(done)).
  destruct (queue_facts sid e KBid bp bi He) as (b & Hb & Hbid & Hbs & Hbk & Hbp & Hbl). { apply Hinb. left. }
  destruct (queue_facts sid e KAsk ap ai He) as (a & Ha & Haid & Has & Hak & Hap & Hal). { apply Hina. left. }
  rewrite Hb, Ha. cbn [of_opt rbind].
  assert (Hqb : o_id b ∈ queue (e_bk e) KBid bp) by (rewrite Hbid; apply Hinb; left).
  assert (Hqa : o_id a ∈ queue (e_bk e) KAsk ap) by (rewrite Haid; apply Hina; left).
  assert (Hb' : e_ords e !! o_id b = Some b) by by rewrite Hbid.
  assert (Ha' : e_ords e !! o_id a = Some a) by by rewrite Haid.
  destruct (okind_bid_ask b SELL (lo_type _ _ Hbl) Hbk) as (Hbt & _).
  destruct (okind_bid_ask a BUY (lo_type _ _ Hal) Hak) as (Hat & _).
  destruct (is_aon b || is_aon a) eqn:Eaon.
  - destruct (pairs_chain_ok sid e bp ap b a He Hbb Hba Hcr Hqb Hb' Hqa Ha' Eaon) as (fl & e' & Heq & Hrtc & Hret & Hbrk).
    pose proof (msteps_ok sid _ _ Hrtc (conj He I)) as [[He' _] _ _ _].
    exists fl, e'. split; [done|]. split; [done|]. split; [done|]. split.
    + intros Hr. destruct (Hret Hr) as [-> Hch]. apply orb_true_iff in Eaon as [E|E].
      * exists (o_id b), b. repeat (split; [done|]). exists bp, ap. split; [by apply crossed_intro|]. split; [done|by left].
      * exists (o_id a), a. repeat (split; [done|]). exists bp, ap. split; [by apply crossed_intro|]. split; [done|by right].
    + intros Hb1 _ _ E1 E2. apply (Hbrk Hb1). exists bids, asks. rewrite Hbid, Haid. done.
  - apply orb_false_iff in Eaon as [Enb Ena].
    set (xr := if o_leaves a <? o_leaves b then (a, b) else (b, a)).
    assert (Hxr : exists x r, xr = (x, r) /\ (x = b /\ r = a \/ x = a /\ r = b) /\ o_leaves x <= o_leaves r).
    { unfold xr. destruct (Z.ltb_spec (o_leaves a) (o_leaves b)); eexists _, _; (split; [done|]); split; auto; lia. }
    destruct Hxr as (x & r & -> & Hcase & Hle).
    assert (Hx : e_ords e !! o_id x = Some x /\ o_sym x = sid /\ 0 < o_leaves x).
    { destruct Hcase as [[-> ->]|[-> ->]]; (split; [done|]); (split; [done|]); by eapply lo_leaves. }
    assert (Hr : e_ords e !! o_id r = Some r /\ o_sym r = sid).
    { destruct Hcase as [[-> ->]|[-> ->]]; done. }
    destruct Hx as (Hx & Hxs & Hxl). destruct Hr as [Hr Hrs].
    assert (Hne : o_id r <> o_id x). { destruct Hcase as [[-> ->]|[-> ->]]; congruence. }
    destruct (exec_delete_ok sid e x (o_price x) (o_leaves x) He Hx Hxs) as (u1 & e1 & Heq1 & _).
    destruct (exec_delete_psame sid e x _ _ e1 He Hx Hxs Heq1) as (He1 & Hps1 & Hords1).
    rewrite Heq1. cbn [rbind].
    assert (Hr1 : e_ords e1 !! o_id r = Some r). { rewrite Hords1, lookup_delete_ne; done. }
    destruct (exec_reduce_ok sid e1 r (o_price x) (o_leaves x) He1 Hr1 Hrs ltac:(lia)) as (u2 & e2 & Heq2 & _ & Hords2 & _).
    destruct (exec_reduce_psame sid e1 r (o_price x) (o_leaves x) e2 He1 Hr1 Hrs ltac:(lia) Heq2) as (He2 & Hps2).
    rewrite Heq2. cbn [rbind].
    assert (Hst : mstep (e, None) (e2, None)).
    { eapply (ms_pair F W e b a bp ap x r e2); try done. exists e1. done. }
    assert (Hsz : (size (e_ords e2) < size (e_ords e))%nat).
    { rewrite Hords2. pose proof (size_reduced (e_ords e1) r (executed (o_leaves x) r) Hr1 ltac:(done)).
      assert (E1 : size (e_ords e1) = size (delete (o_id x) (e_ords e))) by by rewrite Hords1.
      rewrite (size_delete _ _ _ Hx). lia. }
    apply NoDup_cons in Hndb as [Hnib Hndb]. apply NoDup_cons in Hnda as [Hnia Hnda].
    assert (Hother : forall j, j <> o_id b -> j <> o_id a -> j <> o_id x /\ j <> o_id r).
    { destruct Hcase as [[-> ->]|[-> ->]]; done. }
    assert (Hinb2 : forall i, i ∈ bids -> i ∈ queue (e_bk e2) KBid bp).
    { intros i Hi. destruct (Hother i) as [H1 H2].
      - rewrite Hbid. intros ->. done.
      - intros ->. destruct (queue_facts sid e KBid bp (o_id a) He) as (y & Hy & _ & _ & Hyk & _); [apply Hinb; by right|]. congruence.
      - apply (ps_in _ _ _ _ Hps2); [done|done|]. apply (ps_in _ _ _ _ Hps1); [done|done|]. apply Hinb. by right. }
    assert (Hina2 : forall i, i ∈ asks -> i ∈ queue (e_bk e2) KAsk ap).
    { intros i Hi. destruct (Hother i) as [H1 H2].
      - intros ->. destruct (queue_facts sid e KAsk ap (o_id b) He) as (y & Hy & _ & _ & Hyk & _); [apply Hina; by right|]. congruence.
      - rewrite Haid. intros ->. done.
      - apply (ps_in _ _ _ _ Hps2); [done|done|]. apply (ps_in _ _ _ _ Hps1); [done|done|]. apply Hina. by right. }
    destruct (IH asks e2 He2 Hndb Hnda Hinb2 Hina2) as (fl & e' & Heq & Hrtc & He' & Hret & _).
    { intros Hnn. destruct bids as [|j bids]; [done|].
      assert (Hq2 : queue (e_bk e2) KBid bp <> []). { intros E. specialize (Hinb2 j ltac:(left)). rewrite E in Hinb2. by apply elem_of_nil in Hinb2. }
      eapply (psame_best sid e1 e2); try done. eapply (psame_best sid e e1); try done. by apply (ps_ne _ _ _ _ Hps2). }
    { intros Hnn. destruct asks as [|j asks]; [done|].
      assert (Hq2 : queue (e_bk e2) KAsk ap <> []). { intros E. specialize (Hina2 j ltac:(left)). rewrite E in Hina2. by apply elem_of_nil in Hina2. }
      eapply (psame_best sid e1 e2); try done. eapply (psame_best sid e e1); try done. by apply (ps_ne _ _ _ _ Hps2). }
    exists fl, e'. split; [done|]. split; [by eapply rtc_l|]. split; [done|]. split; [done|].
    intros _ _ _ _ _. pose proof (msteps_ok sid _ _ Hrtc (conj He2 I)) as [_ _ Hsz' _]. cbn in Hsz'. lia.
Qed.

Lemma crossed_some e bp ap : crossed e = Some (bp, ap) -> best KBid e = Some bp /\ best KAsk e = Some ap /\ ap <= bp.
Proof.
  unfold crossed. destruct (best KBid e), (best KAsk e); try done. destruct (Z.leb_spec z0 z); [|done]. by intros [= <- <-].
Qed.
Lemma match_while_ok sid : forall fuel e, eng_ok sid e -> (size (e_ords e) < fuel)%nat ->
  exists r e', match_while fuel e = Ok (r, e') /\ rtc mstep (e, None) (e', None) /\ eng_ok sid e' /\
    (r = true -> aon_cross sid e') /\ (r = false -> crossed e' = None).
Proof.
  induction fuel as [|fuel IH]; intros e He Hfuel; [lia|]. cbn [match_while].
  destruct (crossed e) as [[bp ap]|] eqn:Ec.
  2: { exists false, e. split; [done|]. split; [apply rtc_refl|]. done. }
  destruct (crossed_some _ _ _ Ec) as (Hbb & Hba & Hcr).
  destruct (best_some _ _ _ _ _ (proj2 He) Hbb) as [Hqb _]. destruct (best_some _ _ _ _ _ (proj2 He) Hba) as [Hqa _].
  unfold lvls. rewrite (book_view _ _ _ KBid bp (proj2 He)), lvl_at_ne by done. cbn [of_opt rbind l_ids].
  rewrite (book_view _ _ _ KAsk ap (proj2 He)), lvl_at_ne by done. cbn [of_opt rbind l_ids].
  destruct (match_pairs_ok sid bp ap Hcr (queue (e_bk e) KBid bp) (queue (e_bk e) KAsk ap) e He) as (fl & e1 & Heq & Hrtc & He1 & Hret & Hbrk); try done.
  { eapply queue_nodup, He. } { eapply queue_nodup, He. }
  rewrite Heq. cbn [rbind]. destruct fl.
  - exists true, e1. split; [done|]. split; [done|]. split; [done|]. split; [|done]. intros _. by apply Hret.
  - specialize (Hbrk eq_refl Hqb Hqa eq_refl eq_refl).
    destruct (activate_level_ok (F:=F) (W:=W) sid KBuyStop BUY _ e1 He1 eq_refl (market_ask_reached _ _ He1)) as (r2 & e2 & Heq2 & Hrtc2 & _).
    rewrite Heq2. cbn [rbind].
    pose proof (msteps_ok sid _ _ Hrtc2 (conj He1 I)) as [[He2 _] _ Hsz2 _]. cbn in He2, Hsz2.
    destruct (activate_level_ok (F:=F) (W:=W) sid KSellStop SELL _ e2 He2 eq_refl (market_bid_reached _ _ He2)) as (r3 & e3 & Heq3 & Hrtc3 & _).
    rewrite Heq3. cbn [rbind].
    pose proof (msteps_ok sid _ _ Hrtc3 (conj He2 I)) as [[He3 _] _ Hsz3 _]. cbn in He3, Hsz3.
    destruct (IH e3 He3 ltac:(lia)) as (r & e' & Heq' & Hrtc' & ?).
    exists r, e'. split; [done|]. split; [|done]. etrans; [done|]. etrans; [done|]. by etrans.
Qed.

(** What Match(book) achieves. *)
Definition matched (sid : Z) (e : eng) : Prop := crossed e = None /\ calm sid e.
Lemma crossed_sides e e' : (forall s, get_side (opp s) (e_bk e') = get_side (opp s) (e_bk e)) -> crossed e' = crossed e.
Proof. intros H. unfold crossed, best. by rewrite (H BUY : get_side KAsk _ = _), (H SELL : get_side KBid _ = _). Qed.
Lemma match_loop_ok sid : forall fuel e, eng_ok sid e -> (nstops (e_ords e) < fuel)%nat ->
  exists e', match_loop fuel e = Ok e' /\ rtc mstep (e, None) (e', None) /\ eng_ok sid e' /\
    (aon_cross sid e' \/ matched sid e').
Proof.
  induction fuel as [|fuel IH]; intros e He Hfuel; [lia|]. cbn [match_loop].
  destruct (match_while_ok sid (fuel_of e) e He ltac:(unfold fuel_of; lia)) as (r & e1 & Heq & Hrtc & He1 & Ht & Hf).
  rewrite Heq. cbn [rbind]. pose proof (msteps_ok sid _ _ Hrtc (conj He I)) as [_ _ _ Hn1]. cbn in Hn1.
  destruct r.
  { exists e1. split; [done|]. split; [done|]. split; [done|]. left. auto. }
  specialize (Hf eq_refl).
  destruct (activate_all_ok (F:=F) (W:=W) sid e1 He1) as (r & e2 & Heq2 & Hrtc2 & He2 & Hc & Ht2 & Hf2).
  rewrite Heq2. cbn [rbind]. destruct r.
  - specialize (Ht2 eq_refl). destruct (IH e2 He2 ltac:(lia)) as (e' & Heq' & Hrtc' & ?).
    exists e'. split; [done|]. split; [|done]. etrans; [done|]. by etrans.
  - specialize (Hf2 eq_refl). exists e2. split; [done|]. split; [by etrans|]. split; [done|]. right.
    split; [|done]. by rewrite (crossed_sides e1).
Qed.
Theorem match_book_ok sid e : eng_ok sid e ->
  exists e', match_book e = Ok e' /\ rtc mstep (e, None) (e', None) /\ eng_ok sid e' /\
    (aon_cross sid e' \/ matched sid e').
Proof.
  intros He. unfold match_book, fuel_of. apply match_loop_ok; [done|]. pose proof (nstops_le (e_ords e)). lia.
Qed.
End steps.
