(** * Refine1.v -- matching chains and MatchOrder as elementary actions. *)
From Coq Require Import ZifyBool.
From stdpp Require Import fin_maps relations.
From Verif Require Import Types Book Engine LevelFacts BookInv EngInv EngPrim Steps StepsOk.

(** ** A collection as a list of queues of orders *)
Record cview (e : eng) (k : kind) (L : list (Z * list order)) : Prop := {
  cv_sorted : StronglySorted (fun a b => better k (fst a) (fst b) = true) L;
  cv_q : forall p os, (p, os) ∈ L -> os <> [] /\ queue (e_bk e) k p = map o_id os /\
            (forall o, o ∈ os -> e_ords e !! o_id o = Some o);
  cv_all : forall q, queue (e_bk e) k q <> [] -> q ∈ map fst L;
}.
Lemma mapM_ids sid m k p ids : map_ok m -> (forall i, i ∈ ids -> in_queue m sid k p i) ->
  exists os, mapM (fun i => m !! i) ids = Some os /\ ids = map o_id os /\ (forall o, o ∈ os -> m !! o_id o = Some o).
Proof.
  intros Hm. induction ids as [|i ids IH]; intros Hin.
  { exists []. split; [done|]. split; [done|]. intros o Ho. by apply elem_of_nil in Ho. }
  destruct IH as (os & Hos & -> & Hall). { intros j Hj. apply Hin. by right. }
  destruct (Hin i) as (o & Ho & _); [left|].
  pose proof (lo_id _ _ (mo_live _ Hm _ _ Ho)) as Hid.
  exists (o :: os). cbn. rewrite Ho. cbn. rewrite Hos. cbn. split; [done|]. split; [by rewrite Hid|].
  intros x Hx. apply elem_of_cons in Hx as [->|Hx]; [by rewrite Hid|auto].
Qed.
Lemma resolve_view sid m k ls : map_ok m -> (forall l, l ∈ ls -> level_ok m sid k l) ->
  exists L, resolve m ls = Some L /\ map fst L = map l_price ls /\
    (forall p os, (p, os) ∈ L -> exists l, l ∈ ls /\ l_price l = p /\ l_ids l = map o_id os /\
       (forall o, o ∈ os -> m !! o_id o = Some o)).
Proof.
  intros Hm. induction ls as [|l ls IH]; intros Hin.
  { exists []. split; [done|]. split; [done|]. intros p os H. by apply elem_of_nil in H. }
  destruct IH as (L & HL & Hf & Hall). { intros j Hj. apply Hin. by right. }
  pose proof (Hin l ltac:(left)) as Hl.
  destruct (mapM_ids sid m k (l_price l) (l_ids l) Hm (lv_in _ _ _ _ Hl)) as (os & Hos & Hids & Ho).
  exists ((l_price l, os) :: L). unfold resolve in *. cbn. rewrite Hos. cbn. rewrite HL. cbn.
  split; [done|]. split; [by rewrite Hf|].
  intros p os' Hp. apply elem_of_cons in Hp as [[= -> ->]|Hp].
  - exists l. split; [left|]. done.
  - destruct (Hall _ _ Hp) as (l' & Hl' & ?). exists l'. split; [by right|done].
Qed.
Lemma cview_intro sid e k : eng_ok sid e ->
  exists L, resolve (e_ords e) (lvls k e) = Some L /\ map fst L = map l_price (lvls k e) /\ cview e k L.
Proof.
  intros [Hm Hb]. pose proof (bk_side _ _ _ Hb k) as Hs.
  destruct (resolve_view sid (e_ords e) k (lvls k e) Hm) as (L & HL & Hf & Hall).
  { intros l Hl. eapply sd_lvls; [done|]. eapply sorted_find; [by eapply sd_sorted|done]. }
  exists L. split; [done|]. split; [done|]. constructor.
  - pose proof (sd_sorted _ _ _ _ Hs) as Hsort. apply sorted_map in Hsort. fold (lvls k e) in Hsort.
    rewrite <- Hf in Hsort. clear -Hsort. induction L as [|a L IH]; [constructor|].
    cbn in Hsort. apply StronglySorted_inv in Hsort as [H1 H2]. constructor; [auto|].
    apply Forall_map in H2. done.
  - intros p os Hp. destruct (Hall _ _ Hp) as (l & Hl & <- & Hids & Ho).
    pose proof (sorted_find _ _ _ (sd_sorted _ _ _ _ Hs) Hl) as Hfind.
    pose proof (lv_ne _ _ _ _ (sd_lvls _ _ _ _ Hs _ _ Hfind)) as Hne.
    split; [|split; [|done]].
    + intros ->. cbn in Hids. done.
    + unfold queue, ids_at. fold (lvls k e) in Hfind. unfold lvls in Hfind. by rewrite Hfind.
  - intros q Hq. unfold queue, ids_at in Hq.
    destruct (find_level q (s_lvls (get_side k (e_bk e)))) as [l|] eqn:E; [|done].
    rewrite Hf. apply elem_of_list_fmap. exists l. split; [symmetry; by eapply find_level_price|].
    by eapply find_level_elem.
Qed.
Lemma cview_front sid e k p r os L : eng_ok sid e -> cview e k ((p, r :: os) :: L) -> front e k p r.
Proof.
  intros [Hm Hb] Hv. destruct (cv_q _ _ _ Hv p (r :: os)) as (_ & Hq & Ho); [left|].
  split; [|split].
  - unfold best. apply (best_char _ _ _ _ _ Hb). split; [by rewrite Hq|].
    intros q Hqn. apply (cv_all _ _ _ Hv) in Hqn. cbn in Hqn. apply elem_of_cons in Hqn as [->|Hqn]; [by left|].
    right. pose proof (cv_sorted _ _ _ Hv) as Hs. apply StronglySorted_inv in Hs as [_ Hs].
    apply elem_of_list_fmap in Hqn as ((p' & os') & -> & Hin). rewrite Forall_forall in Hs. by apply (Hs (p', os')).
  - exists (map o_id os). by rewrite Hq.
  - apply Ho. left.
Qed.
Lemma filter_front (i : Z) ids : NoDup (i :: ids) -> filter (fun j => j <> i) (i :: ids) = ids.
Proof.
  intros Hnd. apply NoDup_cons in Hnd as [Hi _]. rewrite filter_cons_False by tauto.
  clear -Hi. induction ids as [|j ids IH]; [done|]. rewrite filter_cons_True.
  - f_equal. apply IH. intros H. apply Hi. by right.
  - intros ->. apply Hi. left.
Qed.
Lemma cview_pop sid e e1 k p r os L : eng_ok sid e -> cview e k ((p, r :: os) :: L) ->
  (forall q, queue (e_bk e1) k q = if q =? p then filter (fun j => j <> o_id r) (queue (e_bk e) k p) else queue (e_bk e) k q) ->
  (forall j, j <> o_id r -> e_ords e1 !! j = e_ords e !! j) ->
  cview e1 k (match os with [] => L | _ => (p, os) :: L end) /\ queue (e_bk e1) k p = map o_id os.
Proof.
  intros He Hv Hq1 Ho1. pose proof He as [Hm Hb].
  destruct (cv_q _ _ _ Hv p (r :: os)) as (_ & Hq & Ho); [left|].
  pose proof (queue_nodup _ _ _ k p Hb) as Hnd. rewrite Hq in Hnd. cbn in Hnd.
  assert (Hp1 : queue (e_bk e1) k p = map o_id os).
  { rewrite Hq1, Z.eqb_refl, Hq. cbn [map]. by apply filter_front. }
  pose proof (cv_sorted _ _ _ Hv) as Hs. apply StronglySorted_inv in Hs as [Hs1 Hs2].
  rewrite Forall_forall in Hs2.
  assert (HL : forall p' os', (p', os') ∈ L -> p' <> p).
  { intros p' os' Hin ->. pose proof (Hs2 _ Hin) as Hbt. cbn in Hbt. by rewrite better_irrefl in Hbt. }
  assert (HqL : forall p' os', (p', os') ∈ L -> os' <> [] /\ queue (e_bk e1) k p' = map o_id os' /\
                 (forall o, o ∈ os' -> e_ords e1 !! o_id o = Some o)).
  { intros p' os' Hin. destruct (cv_q _ _ _ Hv p' os') as (Hne & Hq' & Ho'); [by right|].
    pose proof (HL _ _ Hin) as Hpp. split; [done|]. split.
    - rewrite Hq1. by rewrite (proj2 (Z.eqb_neq p' p)).
    - intros o Hoin. rewrite Ho1; [auto|]. intros E.
      destruct (queue_facts sid e k p' (o_id o) He) as (x & Hx & _ & _ & _ & Hk & _).
      { rewrite Hq'. apply elem_of_list_fmap. eauto. }
      destruct (queue_facts sid e k p (o_id r) He) as (y & Hy & _ & _ & _ & Hk' & _).
      { rewrite Hq. left. }
      rewrite E in Hx. congruence. }
  split; [|done]. destruct os as [|r2 os].
  - constructor; [done|done|]. intros q0 Hqn. rewrite Hq1 in Hqn. destruct (Z.eqb_spec q0 p) as [Eq0|Hne].
    + rewrite Hq in Hqn. cbn [map] in Hqn. rewrite filter_front in Hqn; done.
    + apply (cv_all _ _ _ Hv) in Hqn. cbn in Hqn. by apply elem_of_cons in Hqn as [?|?].
  - constructor.
    + constructor; [done|]. rewrite Forall_forall. intros x Hx. apply (Hs2 x Hx).
    + intros p' os' Hin. apply elem_of_cons in Hin as [[= -> ->]|Hin]; [|auto].
      split; [done|]. split; [done|]. intros o Hoin. rewrite Ho1; [apply Ho; by right|].
      intros E. apply NoDup_cons in Hnd as [Hni _]. apply Hni. rewrite <- E. apply elem_of_list_fmap. eauto.
    + intros q0 Hqn. cbn. rewrite Hq1 in Hqn. destruct (Z.eqb_spec q0 p) as [Eq0|Hne]; [subst q0; left|].
      apply (cv_all _ _ _ Hv) in Hqn. cbn in Hqn. by apply elem_of_cons in Hqn as [?|?]; [|right].
Qed.
Lemma reduced_ne m o' j : j <> o_id o' -> reduced_map m o' !! j = m !! j.
Proof.
  intros H. unfold reduced_map. destruct (_ =? 0).
  - by rewrite lookup_delete_ne. - by rewrite lookup_insert_ne.
Qed.

(** Executing the front order completely. *)
Lemma pop_delete sid e k p r os L price q : eng_ok sid e -> cview e k ((p, r :: os) :: L) ->
  exists e1, exec_delete r price q e = Ok e1 /\ eng_ok sid e1 /\ total (e_ords e1) <= total (e_ords e) /\
    cview e1 k (match os with [] => L | _ => (p, os) :: L end).
Proof.
  intros He Hv. pose proof (cview_front _ _ _ _ _ _ _ He Hv) as Hf.
  destruct (front_facts _ _ _ _ _ He Hf) as (Hs & Hk & Hp & Hl & Hr).
  destruct (exec_delete_ok sid e r price q He Hr Hs) as (u & e1 & Heq & Hok & Hords & _ & _ & Hpr).
  exists e1. split; [done|]. split; [done|]. split.
  { rewrite Hords, (total_delete _ _ _ Hr). pose proof (lo_leaves _ _ Hl). lia. }
  refine (proj1 (cview_pop sid e e1 k p r os L He Hv _ _)).
  - intros q'. rewrite <- Hk, <- Hp. apply (pr_queue _ _ _ _ _ _ _ Hpr).
  - intros j Hj. by rewrite Hords, lookup_delete_ne.
Qed.
Lemma pop_reduce sid e k p r os L price : eng_ok sid e -> cview e k ((p, r :: os) :: L) ->
  exists e1, exec_reduce r price (o_leaves r) e = Ok e1 /\ eng_ok sid e1 /\ total (e_ords e1) <= total (e_ords e) /\
    cview e1 k (match os with [] => L | _ => (p, os) :: L end).
Proof.
  intros He Hv. pose proof (cview_front _ _ _ _ _ _ _ He Hv) as Hf.
  destruct (front_facts _ _ _ _ _ He Hf) as (Hs & Hk & Hp & Hl & Hr).
  pose proof (lo_leaves _ _ Hl).
  destruct (exec_reduce_ok sid e r price (o_leaves r) He Hr Hs ltac:(lia)) as (u & e1 & Heq & Hok & Hords & _ & _ & Hpr).
  exists e1. split; [done|]. split; [done|]. split.
  { rewrite Hords. erewrite total_reduced by done. cbn. lia. }
  refine (proj1 (cview_pop sid e e1 k p r os L He Hv _ _)).
  - intros q'. rewrite <- Hk, <- Hp. rewrite (pr_queue _ _ _ _ _ _ _ Hpr). by rewrite Z.eqb_refl.
  - intros j Hj. rewrite Hords. by apply reduced_ne.
Qed.
Lemma part_reduce sid e k p r price q : eng_ok sid e -> front e k p r -> 0 < q <= o_leaves r ->
  exists e1, exec_reduce r price q e = Ok e1 /\ eng_ok sid e1.
Proof.
  intros He Hf Hq. destruct (front_facts _ _ _ _ _ He Hf) as (Hs & Hk & Hp & Hl & Hr).
  destruct (exec_reduce_ok sid e r price q He Hr Hs Hq) as (u & e1 & Heq & Hok & _). eauto.
Qed.
Lemma live_le_total sid e k p r : eng_ok sid e -> front e k p r -> 0 < o_leaves r <= total (e_ords e).
Proof.
  intros He Hf. destruct (front_facts _ _ _ _ _ He Hf) as (Hs & Hk & Hp & Hl & Hr).
  split; [apply Hl|]. rewrite (total_delete _ _ _ Hr).
  assert (0 <= total (delete (o_id r) (e_ords e))); [|lia]. apply total_nonneg. intros i o Ho.
  apply lookup_delete_Some in Ho as [_ Ho]. pose proof (lo_leaves _ _ (mo_live _ (proj1 He) _ _ Ho)). lia.
Qed.

(** ** Tight chains: CalculateMatchingChain succeeded *)
Lemma chain_ids_tight sid k price volume p L : arb k p price = true ->
  forall os e avail, eng_ok sid e -> os <> [] -> cview e k ((p, os) :: L) ->
  0 <= avail < volume -> volume + total (e_ords e) < TWO64 ->
  match chain1_orders volume avail os with
  | inl r => r = 0 \/ (r = volume /\ exists e', exec_chain_ids (map o_id os) price (volume - avail) e = Ok (0, e') /\
               rtc (cxstep true k price) (volume - avail, e) (0, e'))
  | inr avail' => avail <= avail' < volume /\ exists e',
       exec_chain_ids (map o_id os) price (volume - avail) e = Ok (volume - avail', e') /\
       rtc (cxstep true k price) (volume - avail, e) (volume - avail', e') /\
       eng_ok sid e' /\ cview e' k L /\ total (e_ords e') <= total (e_ords e)
  end.
Proof.
  intros Harb. induction os as [|r os IH]; intros e avail He Hne Hv Hav Htot; [done|].
  clear Hne. pose proof (cview_front _ _ _ _ _ _ _ He Hv) as Hf.
  pose proof (live_le_total _ _ _ _ _ He Hf) as Hlt.
  destruct (front_facts _ _ _ _ _ He Hf) as (Hs & Hk & Hp & Hl & Hr).
  cbn [chain1_orders exec_chain_ids map].
  rewrite (proj2 (Z.eqb_neq (volume - avail) 0)) by lia.
  rewrite Hr. cbn [of_opt rbind].
  rewrite (u64_id (volume - avail)) by lia.
  destruct (is_aon r) eqn:Ea.
  - rewrite (u64_id (avail + o_leaves r)) by lia.
    destruct (pop_delete sid e k p r os L price (o_leaves r) He Hv) as (e1 & Heq & He1 & Ht1 & Hv1).
    rewrite Heq. cbn [rbind].
    destruct (Z.eqb_spec volume (avail + o_leaves r)) as [Eq|Nq].
    + right. split; [lia|]. exists e1. rewrite (u64_id (volume - avail - o_leaves r)) by lia.
      assert (E0 : volume - avail - o_leaves r = 0) by lia. rewrite E0.
      split; [by destruct os|].
      eapply rtc_l; [|apply rtc_refl]. rewrite <- E0. rewrite <- (u64_id (volume - avail - o_leaves r)) by lia.
      eapply cx_aon; try done. lia. intros _. split; [done|lia].
    + destruct (Z.ltb_spec volume (avail + o_leaves r)) as [Hgt|Hle]; [by left|].
      assert (Hstep : cxstep true k price (volume - avail, e) (volume - (avail + o_leaves r), e1)).
      { replace (volume - (avail + o_leaves r)) with (u64 (volume - avail - o_leaves r)) by (rewrite u64_id; lia).
        eapply cx_aon; try done. lia. intros _. split; [done|lia]. }
      rewrite (u64_id (volume - avail - o_leaves r)) by lia.
      replace (volume - avail - o_leaves r) with (volume - (avail + o_leaves r)) by lia.
      destruct os as [|r2 os].
      * cbn. split; [lia|]. exists e1. split; [done|]. split; [by eapply rtc_l|]. done.
      * specialize (IH e1 (avail + o_leaves r) He1 ltac:(done) Hv1 ltac:(lia) ltac:(lia)).
        destruct (chain1_orders volume (avail + o_leaves r) (r2 :: os)) as [x|avail'].
        -- destruct IH as [?|(? & e' & ? & ?)]; [by left|]. right. split; [done|]. exists e'. split; [done|]. by eapply rtc_l.
        -- destruct IH as (? & e' & ? & ? & ? & ? & ?). split; [lia|]. exists e'. split; [done|]. split; [by eapply rtc_l|].
           split; [done|]. split; [done|lia].
  - destruct (Z.lt_ge_cases (o_leaves r) (volume - avail)) as [Hlt'|Hge].
    + rewrite Z.min_l by lia.
      rewrite (u64_id (avail + o_leaves r)) by lia.
      destruct (pop_reduce sid e k p r os L price He Hv) as (e1 & Heq & He1 & Ht1 & Hv1).
      rewrite Heq. cbn [rbind].
      rewrite (proj2 (Z.eqb_neq volume (avail + o_leaves r))) by lia.
      rewrite (proj2 (Z.ltb_ge volume (avail + o_leaves r))) by lia.
      assert (Hstep : cxstep true k price (volume - avail, e) (volume - (avail + o_leaves r), e1)).
      { replace (volume - (avail + o_leaves r)) with (u64 (volume - avail - Z.min (o_leaves r) (volume - avail))) by (rewrite u64_id; lia).
        eapply cx_one; try done. lia. by rewrite Z.min_l by lia. }
      rewrite (u64_id (volume - avail - o_leaves r)) by lia.
      replace (volume - avail - o_leaves r) with (volume - (avail + o_leaves r)) by lia.
      destruct os as [|r2 os].
      * cbn. split; [lia|]. exists e1. split; [done|]. split; [by eapply rtc_l|]. done.
      * specialize (IH e1 (avail + o_leaves r) He1 ltac:(done) Hv1 ltac:(lia) ltac:(lia)).
        destruct (chain1_orders volume (avail + o_leaves r) (r2 :: os)) as [x|avail'].
        -- destruct IH as [?|(? & e' & ? & ?)]; [by left|]. right. split; [done|]. exists e'. split; [done|]. by eapply rtc_l.
        -- destruct IH as (? & e' & ? & ? & ? & ? & ?). split; [lia|]. exists e'. split; [done|]. split; [by eapply rtc_l|].
           split; [done|]. split; [done|lia].
    + rewrite Z.min_r by lia.
      rewrite (u64_id (avail + (volume - avail))) by lia.
      replace (avail + (volume - avail)) with volume by lia. rewrite Z.eqb_refl.
      right. split; [done|].
      destruct (part_reduce sid e k p r price (volume - avail) He Hf ltac:(lia)) as (e1 & Heq & He1).
      rewrite Heq. cbn [rbind]. exists e1. rewrite Z.sub_diag.
      split; [by destruct os|].
      eapply rtc_l; [|apply rtc_refl].
      replace 0 with (u64 (volume - avail - Z.min (o_leaves r) (volume - avail))) by (rewrite Z.min_r, Z.sub_diag by lia; done).
      eapply cx_one; try done. lia. by rewrite Z.min_r by lia.
Qed.

Lemma cview_find sid e k p os L : eng_ok sid e -> cview e k ((p, os) :: L) ->
  exists l, find_level p (lvls k e) = Some l /\ l_ids l = map o_id os.
Proof.
  intros [Hm Hb] Hv. destruct (cv_q _ _ _ Hv p os) as (Hne & Hq & _); [left|].
  unfold lvls. rewrite (book_view _ _ _ k p Hb), Hq. destruct os; [done|]. cbn. eauto.
Qed.

Lemma chain_lvls_tight sid k price volume : forall L e avail, eng_ok sid e -> cview e k L ->
  0 <= avail < volume -> volume + total (e_ords e) < TWO64 ->
  chain1 k price volume avail L <> 0 ->
  chain1 k price volume avail L = volume /\
  exists e', exec_chain_lvls k (map fst L) price (volume - avail) e = Ok e' /\
    rtc (cxstep true k price) (volume - avail, e) (0, e').
Proof.
  induction L as [|[p os] L IH]; intros e avail He Hv Hav Htot; cbn [chain1]; [done|].
  destruct (arb k p price) eqn:Harb; cbn [negb]; [|done].
  destruct (cv_q _ _ _ Hv p os) as (Hne & _ & _); [left|].
  pose proof (chain_ids_tight sid k price volume p L Harb os e avail He Hne Hv Hav Htot) as Hc.
  destruct (cview_find _ _ _ _ _ _ He Hv) as (l & Hl & Hids).
  cbn [map fst exec_chain_lvls]. rewrite (proj2 (Z.eqb_neq (volume - avail) 0)) by lia.
  rewrite Hl. cbn [of_opt rbind]. rewrite Hids.
  destruct (chain1_orders volume avail os) as [r|avail'].
  - intros Hr. destruct Hc as [?|(-> & e' & Heq & Hrtc)]; [done|]. split; [done|].
    rewrite Heq. cbn [rbind]. exists e'. split; [|done]. by destruct (map fst L).
  - intros Hr. destruct Hc as (Hav' & e' & Heq & Hrtc & He' & Hv' & Ht').
    rewrite Heq. cbn [rbind].
    destruct (IH e' avail' He' Hv' ltac:(lia) ltac:(lia) Hr) as (-> & e2 & Heq2 & Hrtc2).
    split; [done|]. exists e2. split; [done|]. by etrans.
Qed.

(** ** Loose chains *)
Lemma chain_ids_loose sid k price p L : forall os e v, eng_ok sid e -> os <> [] -> cview e k ((p, os) :: L) ->
  0 <= v < TWO64 ->
  exists v' e', exec_chain_ids (map o_id os) price v e = Ok (v', e') /\
    rtc (cxstep false k price) (v, e) (v', e') /\ eng_ok sid e' /\ 0 <= v' < TWO64 /\
    (v' = 0 \/ cview e' k L) /\ (v <> 0 -> tc (cxstep false k price) (v, e) (v', e')).
Proof.
  induction os as [|r os IH]; intros e v He Hne Hv Hvr; [done|]. clear Hne.
  cbn [exec_chain_ids map].
  destruct (Z.eqb_spec v 0) as [->|Hv0]. { exists 0, e. split; [done|]. split; [apply rtc_refl|]. split; [done|]. split; [done|]. split; [by left|done]. }
  pose proof (cview_front _ _ _ _ _ _ _ He Hv) as Hf.
  destruct (front_facts _ _ _ _ _ He Hf) as (Hs & Hk & Hp & Hl & Hr). pose proof (lo_leaves _ _ Hl) as Hlv.
  rewrite Hr. cbn [of_opt rbind].
  destruct (is_aon r) eqn:Ea.
  - destruct (pop_delete sid e k p r os L price (o_leaves r) He Hv) as (e1 & Heq & He1 & Ht1 & Hv1).
    rewrite Heq. cbn [rbind].
    assert (Hstep : cxstep false k price (v, e) (u64 (v - o_leaves r), e1)).
    { eapply cx_aon; try done. lia. }
    destruct os as [|r2 os].
    + exists (u64 (v - o_leaves r)), e1. cbn. split; [done|]. split; [by eapply rtc_once|]. split; [done|].
      split; [apply u64_bounds|]. split; [by right|]. intros _. by apply tc_once.
    + destruct (IH e1 (u64 (v - o_leaves r)) He1 ltac:(done) Hv1 (u64_bounds _)) as (v' & e' & Heq' & Hrtc & ? & ? & ? & _).
      exists v', e'. split; [done|]. split; [by eapply rtc_l|]. split; [done|]. split; [done|]. split; [done|]. intros _. eapply tc_rtc_r; [by apply tc_once|done].
  - destruct (Z.le_gt_cases (o_leaves r) v) as [Hle|Hgt].
    + destruct (pop_reduce sid e k p r os L price He Hv) as (e1 & Heq & He1 & Ht1 & Hv1).
      assert (Hstep : cxstep false k price (v, e) (u64 (v - Z.min (o_leaves r) v), e1)).
      { eapply cx_one; try done. lia. by rewrite Z.min_l by lia. }
      rewrite Z.min_l in Hstep |- * by lia.
      rewrite Heq. cbn [rbind].
      destruct os as [|r2 os].
      * exists (u64 (v - o_leaves r)), e1. cbn. split; [done|]. split; [by eapply rtc_once|]. split; [done|].
        split; [apply u64_bounds|]. split; [by right|]. intros _. by apply tc_once.
      * destruct (IH e1 (u64 (v - o_leaves r)) He1 ltac:(done) Hv1 (u64_bounds _)) as (v' & e' & Heq' & Hrtc & ? & ? & ? & _).
        exists v', e'. split; [done|]. split; [by eapply rtc_l|]. split; [done|]. split; [done|]. split; [done|]. intros _. eapply tc_rtc_r; [by apply tc_once|done].
    + destruct (part_reduce sid e k p r price v He Hf ltac:(lia)) as (e1 & Heq & He1).
      assert (Hstep : cxstep false k price (v, e) (u64 (v - Z.min (o_leaves r) v), e1)).
      { eapply cx_one; try done. lia. by rewrite Z.min_r by lia. }
      rewrite Z.min_r, Z.sub_diag in Hstep |- * by lia.
      rewrite Heq. cbn [rbind]. exists 0, e1. split; [by destruct os|]. split; [by eapply rtc_once|]. split; [done|]. split; [done|]. split; [by left|]. intros _. by apply tc_once.
Qed.
Lemma chain_lvls_loose sid k price : forall L e v, eng_ok sid e -> cview e k L -> 0 <= v < TWO64 ->
  exists v' e', exec_chain_lvls k (map fst L) price v e = Ok e' /\ rtc (cxstep false k price) (v, e) (v', e') /\
    (v <> 0 -> L <> [] -> tc (cxstep false k price) (v, e) (v', e')).
Proof.
  induction L as [|[p os] L IH]; intros e v He Hv Hvr; cbn [map fst exec_chain_lvls].
  { exists v, e. split; [done|]. split; [apply rtc_refl|done]. }
  destruct (Z.eqb_spec v 0) as [->|Hv0]. { exists 0, e. split; [done|]. split; [apply rtc_refl|done]. }
  destruct (cv_q _ _ _ Hv p os) as (Hne & _ & _); [left|].
  destruct (cview_find _ _ _ _ _ _ He Hv) as (l & Hl & Hids).
  rewrite Hl. cbn [of_opt rbind]. rewrite Hids.
  destruct (chain_ids_loose sid k price p L os e v He Hne Hv Hvr) as (v1 & e1 & Heq & Hrtc & He1 & Hvr1 & Hcase & Htc).
  rewrite Heq. cbn [rbind]. destruct Hcase as [->|Hv1].
  - exists 0, e1. split; [by destruct (map fst L)|]. split; [done|]. intros _ _. auto.
  - destruct (IH e1 v1 He1 Hv1 Hvr1) as (v' & e' & Heq' & Hrtc' & _). exists v', e'. split; [done|]. split; [by etrans|].
    intros Hv' _. eapply tc_rtc_r; [by apply Htc|done].
Qed.

Lemma best_lvls sid e k p : eng_ok sid e -> best k e = Some p ->
  from_level p (lvls k e) = lvls k e /\ lvls k e <> [].
Proof.
  intros [Hm Hb] Hbest. unfold best in Hbest. rewrite (sd_best _ _ _ _ (bk_side _ _ _ Hb k)) in Hbest.
  unfold lvls. destruct (s_lvls (get_side k (e_bk e))) as [|l ls]; [done|]. cbn in Hbest. injection Hbest as <-.
  split; [apply from_level_head|done].
Qed.
Lemma exec_chain_loose sid k price p e v : eng_ok sid e -> best k e = Some p -> 0 <= v < TWO64 ->
  exists v' e', exec_chain k p price v e = Ok e' /\ rtc (cxstep false k price) (v, e) (v', e') /\
    (v <> 0 -> tc (cxstep false k price) (v, e) (v', e')).
Proof.
  intros He Hb Hv. destruct (best_lvls _ _ _ _ He Hb) as [Hfrom Hne].
  destruct (cview_intro sid e k He) as (L & _ & Hfst & Hview).
  unfold exec_chain. rewrite Hfrom. destruct (lvls k e) as [|l ls] eqn:E; [done|]. rewrite <- E in *. rewrite <- Hfst.
  destruct (chain_lvls_loose sid k price L e v He Hview Hv) as (v' & e' & Heq & Hr & Ht).
  exists v', e'. split; [done|]. split; [done|]. intros Hv0. apply Ht; [done|]. intros ->. cbn in Hfst.
  by rewrite E in Hfst.
Qed.

(** ** MatchOrder *)
Lemma match_ids_ok sid p : forall ids e o,
  eng_ok sid e -> fly_ok sid (e_ords e) o -> 0 < o_leaves o -> is_fok o = false -> is_aon o = false ->
  arb (opp (o_side o)) p (o_price o) = true ->
  queue (e_bk e) (opp (o_side o)) p = ids -> (ids <> [] -> best (opp (o_side o)) e = Some p) ->
  exists stop o' e', match_ids ids o e = Ok (stop, o', e') /\ rtc tstep (e, o) (e', o') /\
    (stop = true -> settled e' o') /\
    (stop = false -> 0 < o_leaves o' /\ (length (lvls (opp (o_side o)) e') + (match ids with [] => 0 | _ => 1 end) =
                     length (lvls (opp (o_side o)) e))%nat).
Proof.
  induction ids as [|i ids IH]; intros e o He Hfl Hlv Hfok Haon Harb Hq Hbest.
  { exists false, o, e. split; [done|]. split; [apply rtc_refl|]. split; [done|]. intros _. split; [done|]. lia. }
  specialize (Hbest ltac:(done)). set (k := opp (o_side o)) in *.
  destruct (queue_facts sid e k p i He) as (r & Hr & Hid & Hs & Hk & Hp & Hl). { rewrite Hq. left. }
  assert (Hf : front e k p r). { split; [done|]. rewrite Hid. eauto. }
  pose proof (lo_leaves _ _ Hl) as Hrl.
  destruct (okind_bid_ask r (o_side o) (lo_type _ _ Hl) Hk) as (Hrt & Hrp & _).
  rewrite Hp in Hrp. 
  cbn [match_ids]. rewrite Hr. cbn [of_opt rbind].
  destruct (is_aon r && (o_leaves o <? o_leaves r)) eqn:Eb.
  { exists true, o, e. split; [done|]. split; [apply rtc_refl|]. split; [|done]. intros _. right; right.
    exists p, r. fold k. split; [done|]. split; [done|]. apply andb_true_iff in Eb as [? ?]. split; [done|lia]. }
  set (q := Z.min (o_leaves r) (o_leaves o)).
  rewrite <- Hid in Hr.
  destruct (exec_reduce_ok sid e r (o_price r) q He Hr Hs ltac:(unfold q; lia)) as (u & e1 & Heq & Hok & Hords & _ & _ & Hpr).
  rewrite Heq. cbn [rbind]. rewrite <- Hrp in *.
  assert (Hstep : tstep (e, o) (exec_note o p q e1, executed q o)).
  { unfold q. eapply ts_trade; try done.
    - intros Ha. rewrite Ha in Eb. cbn in Eb. lia. }
  destruct (tstep_ok _ _ _ _ _ Hstep He Hfl) as (He' & Hfl' & Hsh).
  change (set_leaves (o_leaves (exec_incr q o) - q) (exec_incr q o)) with (executed q o).
  change (set_leaves (o_leaves o - q) (exec_incr q o)) with (executed q o).
  destruct (Z.eqb_spec (o_leaves (executed q o)) 0) as [E0|E0].
  { exists true, (executed q o), (exec_note o p q e1). split; [done|]. split; [by eapply rtc_once|].
    split; [|done]. intros _. by left. }
  cbn in E0. assert (Hqr : q = o_leaves r) by (unfold q in *; lia).
  assert (Hq1 : forall p', queue (e_bk (exec_note o p q e1)) k p' = if p' =? p then ids else queue (e_bk e) k p').
  { intros p'. cbn. rewrite (same_sides_queue (e_bk e1)).
    2: { eapply same_sides_trans; [apply same_sides_last|apply same_sides_matching]. }
    pose proof (pr_queue _ _ _ _ _ _ _ Hpr p') as Hqq. rewrite Hk, Hp in Hqq. rewrite Hqq.
    destruct (p' =? p); [|done]. rewrite Hqr, Z.eqb_refl, Hq, Hid. apply filter_front.
    rewrite <- Hq. eapply queue_nodup, He. }
  destruct (IH (exec_note o p q e1) (executed q o)) as (stop & o' & e' & Heq' & Hrtc & Hst & Hns); try done.
  { cbn. unfold q in *. lia. }
  { change (opp (o_side (executed q o))) with k. rewrite Hq1, Z.eqb_refl. done. }
  { intros Hne. change (opp (o_side (executed q o))) with k. unfold best.
    apply (best_char _ _ _ _ _ (proj2 He')). split; [by rewrite Hq1, Z.eqb_refl|].
    intros p' Hp'. destruct (Z.eqb_spec p' p) as [->|Hne']; [by left|].
    rewrite Hq1, (proj2 (Z.eqb_neq _ _) Hne') in Hp'.
    eapply best_some; [apply He|exact Hbest|done]. }
  exists stop, o', e'. split; [done|]. split; [by eapply rtc_l|]. split; [done|].
  intros ->. destruct (Hns eq_refl) as [Hpos Hlen]. split; [done|].
  change (opp (o_side (executed q o))) with k in Hlen.
  pose proof (pr_len _ _ _ _ _ _ _ Hpr) as Hlen1. rewrite Hk, Hp, Hq in Hlen1.
  rewrite Hqr, Z.eqb_refl, Hid, filter_front in Hlen1. 2: { rewrite <- Hq. eapply queue_nodup, He. }
  assert (Hsame : lvls k (exec_note o p q e1) = s_lvls (get_side k (e_bk e1))).
  { unfold lvls. cbn. f_equal. eapply same_sides_trans; [apply same_sides_last|apply same_sides_matching]. }
  rewrite Hsame in Hlen. unfold lvls in *. destruct ids; lia.
Qed.

Lemma total_ge0 sid e : eng_ok sid e -> 0 <= total (e_ords e).
Proof. intros [Hm _]. apply total_nonneg. intros i o Ho. pose proof (lo_leaves _ _ (mo_live _ Hm _ _ Ho)). lia. Qed.

Lemma match_order_loop_ok sid : forall fuel e o,
  eng_ok sid e -> fly_ok sid (e_ords e) o -> 0 < o_leaves o ->
  (length (lvls (opp (o_side o)) e) < fuel)%nat ->
  exists o' e', match_order_loop fuel o e = Ok (o', e') /\ rtc tstep (e, o) (e', o') /\
    (is_fok o = false -> is_aon o = false -> settled e' o') /\
    (is_fok o || is_aon o = true -> (e', o') = (e, o) \/ o_leaves o' = 0).
Proof.
  induction fuel as [|fuel IH]; intros e o He Hfl Hlv Hfuel; [lia|].
  cbn [match_order_loop]. set (k := opp (o_side o)) in *.
  destruct (best k e) as [p|] eqn:Hbest.
  2: { exists o, e. split; [done|]. split; [apply rtc_refl|]. split; [|by left]. intros _ _. right; left.
       intros p Hp. fold k in Hp. congruence. }
  destruct (best_some _ _ _ _ _ (proj2 He) Hbest) as [Hqne _].
  assert (Hfind : exists l, find_level p (lvls k e) = Some l /\ l_ids l = queue (e_bk e) k p).
  { unfold lvls. rewrite (book_view _ _ _ k p (proj2 He)). rewrite lvl_at_ne by done. eauto. }
  destruct Hfind as (l & Hl & Hids). rewrite Hl. cbn [of_opt rbind].
  destruct (arb k p (o_price o)) eqn:Harb; cbn [negb].
  2: { exists o, e. split; [done|]. split; [apply rtc_refl|]. split; [|by left]. intros _ _. right; left.
       intros p' Hp'. fold k in Hp' |- *. congruence. }
  destruct (is_fok o || is_aon o) eqn:Efa.
  - destruct (best_lvls _ _ _ _ He Hbest) as [Hfrom Hne].
    destruct (cview_intro sid e k He) as (L & HL & Hfst & Hview).
    unfold chain_levels. rewrite Hfrom, HL. cbn [of_opt rbind].
    destruct (Z.eqb_spec (chain1 k (o_price o) (o_leaves o) 0 L) 0) as [E0|E0].
    { exists o, e. split; [done|]. split; [apply rtc_refl|]. split; [|by left].
      intros Hx Hy. rewrite Hx, Hy in Efa. done. }
    destruct (chain_lvls_tight sid k (o_price o) (o_leaves o) L e 0 He Hview) as (Hch & e1 & Heq & Hrtc); [lia| |done|].
    { destruct Hfl. lia. }
    rewrite Z.sub_0_r in *. rewrite Hch.
    unfold exec_chain. rewrite Hfrom. destruct (lvls k e) as [|l0 ls] eqn:El; [done|]. rewrite <- Hfst, Heq. cbn [rbind].
    eexists _, _. split; [reflexivity|]. split.
    + assert (Eex : set_leaves 0 (exec_incr (o_leaves o) o) = executed (o_leaves o) o).
      { unfold executed. by rewrite Z.sub_diag. }
      rewrite Eex. eapply rtc_once. eapply ts_chain; [|done|done]. apply orb_true_iff in Efa. done.
    + split; [intros _ _; by left|]. intros _. by right.
  - apply orb_false_iff in Efa as [Efok Eaon]. rewrite Hids.
    destruct (match_ids_ok sid p (queue (e_bk e) k p) e o) as (stop & o1 & e1 & Heq & Hrtc & Hst & Hns); try done.
    rewrite Heq. cbn [rbind]. destruct stop.
    + exists o1, e1. split; [done|]. split; [done|]. split; [intros _ _; by apply Hst|done].
    + destruct (Hns eq_refl) as [Hpos Hlen].
      destruct (tsteps_ok sid _ _ Hrtc He Hfl) as (He1 & Hfl1 & _). cbn in He1, Hfl1.
      pose proof (tsteps_kind _ _ Hrtc) as Hkind. cbn in Hkind.
      destruct Hkind as (_ & _ & _ & Hsd & _ & _ & _ & Htif & _).
      destruct (IH e1 o1 He1 Hfl1 Hpos) as (o' & e' & Heq' & Hrtc' & Hse & Hfa).
      { rewrite Hsd. fold k. fold k in Hlen. destruct (queue (e_bk e) k p); [done|]. lia. }
      exists o', e'. split; [done|]. split; [by etrans|]. split; [|done].
      intros Hf Ha. apply Hse; unfold is_fok, is_aon in *; by rewrite Htif.
Qed.
Lemma match_order_ok sid e o : eng_ok sid e -> fly_ok sid (e_ords e) o -> 0 < o_leaves o ->
  exists o' e', match_order o e = Ok (o', e') /\ rtc tstep (e, o) (e', o') /\
    (is_fok o = false -> is_aon o = false -> settled e' o') /\
    (is_fok o || is_aon o = true -> (e', o') = (e, o) \/ o_leaves o' = 0).
Proof. intros. unfold match_order. eapply match_order_loop_ok; try done. lia. Qed.

(** Lifting trades into configurations. *)
Lemma tstep_quiet e o e1 o1 x : tstep (e, o) (e1, o1) -> ~ announced e1 x.
Proof.
  intros Ht [l Hl]. inversion Ht; subst; cbn in Hl; destruct Hl as [Hl|Hl]; apply app_inj_tail in Hl as [_ ?]; done.
Qed.
Lemma tstep_priced e o e1 o1 : tstep (e, o) (e1, o1) -> priced e o -> priced e1 o1.
Proof.
  intros Ht (b & Hb & _). exists b. pose proof (tstep_quiet _ _ _ _ (o) Ht) as Hn.
  pose proof (tstep_kind _ _ _ _ Ht) as (_ & _ & _ & Es & Ep & _ & _ & _ & _ & Esl & _). split.
  - rewrite Ep, Hb. unfold market_price. by rewrite Es, Esl.
  - intros x Hx _. exfalso. by eapply tstep_quiet.
Qed.
Definition tradable (W : Prop) (e : eng) (o : order) : Prop := (stop_type o = false \/ W) /\ (o_type o = MARKET -> priced e o).
Lemma tstep_tradable W e o e1 o1 : tstep (e, o) (e1, o1) -> tradable W e o -> tradable W e1 o1.
Proof.
  intros Ht [H1 H2]. pose proof (tstep_kind _ _ _ _ Ht) as (_ & _ & Et & _). split.
  - unfold stop_type, is_limit, is_market in *. by rewrite Et.
  - rewrite Et. intros Hm. eapply tstep_priced; [done|auto].
Qed.
Lemma tsteps_msteps {F W} c c' : rtc tstep c c' -> tradable W (fst c) (snd c) ->
  rtc (mstep F W) (fst c, Some (snd c)) (fst c', Some (snd c')).
Proof.
  induction 1 as [c|[e o] [e1 o1] c' Hst _ IH]; intros Ht; [apply rtc_refl|].
  eapply rtc_l; [|apply IH; by eapply tstep_tradable]. apply ms_trade; [done|apply Ht|apply Ht].
Qed.
Lemma tradable_market W e o p : o_type o = MARKET -> best (opp (o_side o)) e = Some p -> tradable W e (set_price (market_price o p) o).
Proof.
  intros Ht Hb. split; [left; unfold stop_type, is_market, is_limit; cbn; by rewrite Ht|].
  intros _. exists p. split; [done|]. intros. exact Hb.
Qed.
Lemma tradable_limit W e o : o_type o = LIMIT -> tradable W e o.
Proof. intros Ht. split; [left; unfold stop_type, is_limit; by rewrite Ht|congruence]. Qed.
Lemma match_market_ok {F W} sid e o : eng_ok sid e -> fly_ok sid (e_ords e) o -> 0 < o_leaves o -> o_type o = MARKET -> announced e o ->
  exists o' e', match_market o e = Ok (o', e') /\ rtc (mstep F W) (e, Some o) (e', Some o') /\ o_type o' = MARKET /\ o_id o' = o_id o.
Proof.
  intros He Hfl Hlv Ht Han. unfold match_market.
  destruct (best (opp (o_side o)) e) as [p|] eqn:Hb.
  2: { exists o, e. split; [done|]. split; [apply rtc_refl|done]. }
  assert (Hm : mstep F W (e, Some o) (e, Some (set_price (market_price o p) o))) by (by eapply ms_mprice).
  pose proof (mstep_ok sid _ _ Hm (conj He Hfl)) as [[_ Hfl'] _ _ _]. cbn in Hfl'.
  destruct (match_order_ok sid e (set_price (market_price o p) o) He Hfl' Hlv) as (o' & e' & Heq & Hrtc & _).
  exists o', e'. split; [done|]. pose proof (tsteps_kind _ _ Hrtc) as (Ei & _ & Et & _). cbn in Ei, Et.
  split; [|split; congruence]. eapply rtc_l; [done|]. exact (tsteps_msteps _ _ Hrtc (tradable_market W e o p Ht Hb)).
Qed.
