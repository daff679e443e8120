(** * BookInv.v -- invariant of one book and its preservation by the book operations. *)
From Coq Require Import ZifyBool.
From stdpp Require Import fin_maps.
From Verif Require Import Types Book LevelFacts.
From Verif Require Export Spec.

(** ** Sums over queues and over the order index *)
Definition osum (f : order -> Z) (m : gmap Z order) (ids : list Z) : Z :=
  foldr (fun i a => match m !! i with Some o => f o | None => 0 end + a) 0 ids.

Lemma osum_app f m a b : osum f m (a ++ b) = osum f m a + osum f m b.
Proof. unfold osum. induction a as [|i a IH]; cbn; lia. Qed.
Lemma osum_cons f m i ids : osum f m (i :: ids) = match m !! i with Some o => f o | None => 0 end + osum f m ids.
Proof. done. Qed.
Lemma osum_ext f m m' ids : (forall i, i ∈ ids -> m !! i = m' !! i) -> osum f m ids = osum f m' ids.
Proof.
  induction ids as [|i ids IH]; intros H; [done|]. rewrite !osum_cons.
  rewrite (H i) by left. f_equal. apply IH. intros j Hj. apply H. by right.
Qed.
Lemma osum_insert_ne f m i o ids : i ∉ ids -> osum f (<[i:=o]> m) ids = osum f m ids.
Proof. intros H. apply osum_ext. intros j Hj. rewrite lookup_insert_ne; [done|]. by intros ->. Qed.
Lemma osum_delete_ne f m i ids : i ∉ ids -> osum f (delete i m) ids = osum f m ids.
Proof. intros H. apply osum_ext. intros j Hj. rewrite lookup_delete_ne; [done|]. by intros ->. Qed.
Lemma osum_update f m i o o' ids : NoDup ids -> i ∈ ids -> m !! i = Some o ->
  osum f (<[i:=o']> m) ids = osum f m ids - f o + f o'.
Proof.
  intros Hnd Hi Hm. induction ids as [|j ids IH]; [by apply elem_of_nil in Hi|].
  apply NoDup_cons in Hnd as [Hj Hnd]. rewrite !osum_cons.
  apply elem_of_cons in Hi as [<-|Hi].
  - rewrite lookup_insert, Hm, osum_insert_ne by done. lia.
  - rewrite lookup_insert_ne by (by intros ->). rewrite IH by done. lia.
Qed.
Lemma osum_filter f m i o ids : NoDup ids -> i ∈ ids -> m !! i = Some o ->
  osum f m ids = f o + osum f m (filter (fun j => j <> i) ids).
Proof.
  intros Hnd Hi Hm. induction ids as [|j ids IH]; [by apply elem_of_nil in Hi|].
  apply NoDup_cons in Hnd as [Hj Hnd]. rewrite filter_cons.
  apply elem_of_cons in Hi as [<-|Hi].
  - rewrite decide_False by tauto. rewrite osum_cons, Hm. f_equal.
    clear IH Hnd. induction ids as [|j ids IH]; [done|].
    rewrite filter_cons, decide_True by (intros ->; apply Hj; left).
    rewrite !osum_cons. f_equal. apply IH. intros H. apply Hj. by right.
  - rewrite decide_True by (intros ->; done). rewrite !osum_cons, IH by done. lia.
Qed.
Lemma osum_le f g m ids : (forall i o, i ∈ ids -> m !! i = Some o -> f o <= g o) -> osum f m ids <= osum g m ids.
Proof.
  induction ids as [|i ids IH]; intros H; [done|]. rewrite !osum_cons.
  assert (osum f m ids <= osum g m ids). { apply IH. intros j o Hj. apply H. by right. }
  destruct (m !! i) as [o|] eqn:E; [|lia].
  assert (f o <= g o) by (apply (H i); [left|done]). lia.
Qed.
Lemma osum_zero m ids : osum (fun _ => 0) m ids = 0.
Proof. induction ids as [|i ids IH]; [done|]. rewrite osum_cons, IH. by destruct (m !! i). Qed.
Lemma osum_nonneg f m ids : (forall i o, i ∈ ids -> m !! i = Some o -> 0 <= f o) -> 0 <= osum f m ids.
Proof. intros H. rewrite <- (osum_zero m ids). by apply osum_le. Qed.
Lemma osum_plus f g m ids : osum (fun o => f o + g o) m ids = osum f m ids + osum g m ids.
Proof. induction ids as [|i ids IH]; [done|]. rewrite !osum_cons, IH. destruct (m !! i); lia. Qed.

Lemma total_empty : total ∅ = 0.
Proof. apply map_fold_empty. Qed.
Lemma total_insert m i o : m !! i = None -> total (<[i:=o]> m) = o_leaves o + total m.
Proof. intros H. unfold total. rewrite map_fold_insert_L; [done| |done]. intros; lia. Qed.
Lemma total_delete m i o : m !! i = Some o -> total m = o_leaves o + total (delete i m).
Proof. intros H. rewrite <- (total_insert (delete i m) i o) by apply lookup_delete. by rewrite insert_delete. Qed.
Lemma total_update m i o o' : m !! i = Some o -> total (<[i:=o']> m) = total m - o_leaves o + o_leaves o'.
Proof.
  intros H. rewrite <- insert_delete_insert, total_insert by apply lookup_delete.
  rewrite (total_delete m i o H). lia.
Qed.
Lemma total_nonneg m : (forall i o, m !! i = Some o -> 0 <= o_leaves o) -> 0 <= total m.
Proof.
  induction m as [|i o m Hi IH] using map_ind; intros H; [rewrite total_empty; lia|].
  rewrite total_insert by done.
  assert (0 <= o_leaves o) by (apply (H i); by rewrite lookup_insert).
  assert (0 <= total m); [|lia]. apply IH. intros j p Hj. apply (H j).
  rewrite lookup_insert_ne; [done|]. congruence.
Qed.
Lemma osum_le_total m ids : (forall i o, m !! i = Some o -> 0 <= o_leaves o) -> NoDup ids ->
  osum o_leaves m ids <= total m.
Proof.
  revert m. induction ids as [|i ids IH]; intros m Hm Hnd.
  { by apply total_nonneg. }
  apply NoDup_cons in Hnd as [Hi Hnd]. rewrite osum_cons.
  destruct (m !! i) as [o|] eqn:E.
  - rewrite (total_delete m i o E), <- (osum_delete_ne o_leaves m i ids Hi).
    assert (osum o_leaves (delete i m) ids <= total (delete i m)); [|lia].
    apply IH; [|done]. intros j p Hj. apply lookup_delete_Some in Hj as [_ Hj]. eauto.
  - specialize (IH m Hm Hnd). lia.
Qed.

(** ** Well-formed live orders *)
Definition trailing_ok (o : order) : Prop :=
  (o_type o = TRAILING_STOP \/ o_type o = TRAILING_STOP_LIMIT) ->
  (0 < o_tdist o < TWO63 /\ 0 <= o_tstep o < o_tdist o)
  \/ (-1000 <= o_tdist o <= -1 /\ o_tdist o < o_tstep o <= 0).
(** An order that may rest in the index. *)
Record live_ok (i : Z) (o : order) : Prop := {
  lo_id : o_id o = i;
  lo_idpos : 0 < i;
  lo_leaves : 0 < o_leaves o;
  lo_maxvis : 0 <= o_maxvis o;
  lo_exec : u64_range (o_exec o);
  lo_price : u64_range (o_price o);
  lo_stop : u64_range (o_stop o);
  lo_slip : u64_range (o_slip o);
  lo_type : o_type o <> MARKET;
  lo_rest : o_type o = LIMIT -> o_tif o = GTC \/ o_tif o = AON;
  lo_trail : trailing_ok o;
}.
Record map_ok (m : gmap Z order) : Prop := {
  mo_live : forall i o, m !! i = Some o -> live_ok i o;
  mo_total : total m < TWO64;
}.

Lemma hidden_bounds o : 0 <= o_leaves o -> 0 <= o_maxvis o -> 0 <= hidden_q o <= o_leaves o.
Proof. unfold hidden_q. destruct (Z.ltb_spec (o_maxvis o) (o_leaves o)); lia. Qed.
Lemma visible_bounds o : 0 <= o_leaves o -> 0 <= o_maxvis o -> 0 <= visible_q o <= o_leaves o.
Proof. unfold visible_q. lia. Qed.
Lemma hidden_visible o : hidden_q o + visible_q o = o_leaves o.
Proof. unfold hidden_q, visible_q. destruct (Z.ltb_spec (o_maxvis o) (o_leaves o)); lia. Qed.

Lemma u64_id x : 0 <= x < TWO64 -> u64 x = x.
Proof. intros. unfold u64. by apply Z.mod_small. Qed.
Lemma u64_bounds x : 0 <= u64 x < TWO64.
Proof. unfold u64. apply Z.mod_pos_bound. done. Qed.
Lemma u64_range_u64 x : u64_range (u64 x).
Proof. pose proof (u64_bounds x). unfold u64_range, MAX64, TWO64 in *. lia. Qed.
Lemma TWO64_MAX : TWO64 = MAX64 + 1.
Proof. done. Qed.

(** ** Levels and collections *)
Definition in_queue (m : gmap Z order) (sid : Z) (k : kind) (p i : Z) : Prop :=
  exists o, m !! i = Some o /\ o_sym o = sid /\ okind o = k /\ okey o = p.
Record level_ok (m : gmap Z order) (sid : Z) (k : kind) (l : level) : Prop := {
  lv_ne : l_ids l <> [];
  lv_nodup : NoDup (l_ids l);
  lv_in : forall i, i ∈ l_ids l -> in_queue m sid k (l_price l) i;
  lv_type : li_type (l_info l) = ltype_of k;
  lv_total : li_total (l_info l) = osum o_leaves m (l_ids l);
  lv_hidden : li_hidden (l_info l) = osum hidden_q m (l_ids l);
  lv_visible : li_visible (l_info l) = osum visible_q m (l_ids l);
  lv_count : li_count (l_info l) = Z.of_nat (length (l_ids l));
}.
Record side_ok (m : gmap Z order) (sid : Z) (k : kind) (s : side) : Prop := {
  sd_sorted : sorted k (s_lvls s);
  sd_best : s_best s = headp (s_lvls s);
  sd_lvls : forall p l, find_level p (s_lvls s) = Some l -> level_ok m sid k l;
}.
(** The queue at a price (empty when there is no level). *)

Lemma side_ok_in m sid k s p i : side_ok m sid k s -> i ∈ ids_at s p -> in_queue m sid k p i.
Proof.
  intros Hs Hi. unfold ids_at in Hi.
  destruct (find_level p (s_lvls s)) as [l|] eqn:E; [|by apply elem_of_nil in Hi].
  pose proof (find_level_price _ _ _ E) as <-.
  eapply lv_in; [|done]. by eapply sd_lvls.
Qed.
Lemma level_ok_ext m m' sid k l : (forall i, i ∈ l_ids l -> m !! i = m' !! i) ->
  level_ok m sid k l -> level_ok m' sid k l.
Proof.
  intros H []. constructor; try done.
  - intros i Hi. destruct (lv_in0 i Hi) as (o & Ho & ?). exists o. rewrite <- H; auto.
  - by rewrite <- (osum_ext _ m m').
  - by rewrite <- (osum_ext _ m m').
  - by rewrite <- (osum_ext _ m m').
Qed.
Lemma side_ok_ext m m' sid k s :
  (forall p i, i ∈ ids_at s p -> m !! i = m' !! i) -> side_ok m sid k s -> side_ok m' sid k s.
Proof.
  intros H []. constructor; try done. intros p l Hl. eapply level_ok_ext; [|by eapply sd_lvls0].
  intros i Hi. apply (H p). unfold ids_at. by rewrite Hl.
Qed.
Lemma side_ok_empty m sid k : side_ok m sid k empty_side.
Proof. constructor; [constructor|done|done]. Qed.

(** Sums over one level are bounded by the total. *)
Lemma level_sums m sid k l : map_ok m -> level_ok m sid k l ->
  0 <= osum o_leaves m (l_ids l) <= total m /\
  0 <= osum hidden_q m (l_ids l) <= osum o_leaves m (l_ids l) /\
  0 <= osum visible_q m (l_ids l) <= osum o_leaves m (l_ids l).
Proof.
  intros [Hm Ht] Hl.
  assert (Hpos : forall i o, m !! i = Some o -> 0 <= o_leaves o /\ 0 <= o_maxvis o).
  { intros i o Ho. destruct (Hm _ _ Ho). lia. }
  repeat split.
  - apply osum_nonneg. intros i o _ Ho. by apply Hpos in Ho as [? _].
  - apply osum_le_total; [|by eapply lv_nodup]. intros i o Ho. by apply Hpos in Ho as [? _].
  - apply osum_nonneg. intros i o _ Ho. apply Hpos in Ho as [? ?]. by apply hidden_bounds.
  - apply osum_le. intros i o _ Ho. apply Hpos in Ho as [? ?]. by apply hidden_bounds.
  - apply osum_nonneg. intros i o _ Ho. apply Hpos in Ho as [? ?]. by apply visible_bounds.
  - apply osum_le. intros i o _ Ho. apply Hpos in Ho as [? ?]. by apply visible_bounds.
Qed.
Lemma osum_pos m ids : (forall i o, m !! i = Some o -> live_ok i o) ->
  (forall i, i ∈ ids -> exists o, m !! i = Some o) -> ids <> [] -> 0 < osum o_leaves m ids.
Proof.
  intros Hm Hin Hne. destruct ids as [|i ids]; [done|]. rewrite osum_cons.
  destruct (Hin i) as [o Ho]; [left|]. rewrite Ho.
  destruct (Hm _ _ Ho).
  assert (0 <= osum o_leaves m ids); [|lia].
  apply osum_nonneg. intros j p _ Hp. destruct (Hm _ _ Hp). lia.
Qed.

(** ** side_add *)
Definition add_info (m : gmap Z order) (k : kind) (p : Z) (ids : list Z) : linfo :=
  mkLinfo (ltype_of k) p (osum o_leaves m ids) (osum hidden_q m ids) (osum visible_q m ids)
          (Z.of_nat (length ids)).
Lemma level_ok_info m sid k l : level_ok m sid k l -> l_info l = add_info m k (l_price l) (l_ids l).
Proof. intros []. destruct l as [[] ids]; cbn in *. unfold add_info. subst. done. Qed.

Lemma side_add_ok m sid k o s :
  map_ok m -> side_ok m sid k s -> m !! o_id o = None ->
  0 < o_leaves o -> 0 <= o_maxvis o -> total m + o_leaves o < TWO64 ->
  o_sym o = sid -> okind o = k ->
  let m' := <[o_id o := o]> m in
  let p := okey o in
  let ids' := ids_at s p ++ [o_id o] in
  let l' := mkLevel (add_info m' k p ids') ids' in
  exists s' u, side_add k o s = (s', u) /\ side_ok m' sid k s' /\
    (forall q, find_level q (s_lvls s') = if q =? p then Some l' else find_level q (s_lvls s)) /\
    u_type u = (match find_level p (s_lvls s) with Some _ => UUpdate | None => UAdd end) /\
    u_info u = l_info l' /\ u_top u = is_best p s' /\
    length (s_lvls s') = (match find_level p (s_lvls s) with Some _ => length (s_lvls s) | None => S (length (s_lvls s)) end).
Proof.
  intros Hm Hs Hfresh Hlv Hmv Htot Hsym Hk m' p ids' l'.
  assert (Hnotin : forall q, o_id o ∉ ids_at s q).
  { intros q Hin. destruct (side_ok_in _ _ _ _ _ _ Hs Hin) as (o' & Ho' & _). congruence. }
  assert (Hoin : in_queue m' sid k p (o_id o)).
  { exists o. unfold m'. rewrite lookup_insert. done. }
  assert (Hin' : forall q i, i ∈ ids_at s q -> in_queue m' sid k q i).
  { intros q i Hi. destruct (side_ok_in _ _ _ _ _ _ Hs Hi) as (o' & Ho' & ?). exists o'.
    split; [|done]. unfold m'. rewrite lookup_insert_ne; [done|]. intros E. apply (Hnotin q). by rewrite E. }
  assert (Hl' : level_ok m' sid k l').
  { constructor; try done.
    - cbn. unfold ids'. by destruct (ids_at s p).
    - cbn. unfold ids'. apply NoDup_app. repeat split.
      + unfold ids_at. destruct (find_level p (s_lvls s)) eqn:E; [|constructor].
        eapply lv_nodup. by eapply sd_lvls.
      + intros i Hi Hi'. apply elem_of_list_singleton in Hi' as ->. by eapply Hnotin.
      + apply NoDup_singleton.
    - cbn. unfold ids', l_price; cbn. intros i Hi. apply elem_of_app in Hi as [Hi|Hi].
      + by apply Hin'.
      + apply elem_of_list_singleton in Hi as ->. done. }
  assert (Hold : forall q l, find_level q (s_lvls s) = Some l -> level_ok m' sid k l).
  { intros q l Hl. eapply level_ok_ext; [|by eapply sd_lvls]. intros i Hi.
    unfold m'. rewrite lookup_insert_ne; [done|]. intros E. apply (Hnotin q).
    unfold ids_at. by rewrite Hl, E. }
  assert (Hsum : forall f, osum f m' ids' = osum f m (ids_at s p) + f o).
  { intros f. unfold ids'. rewrite osum_app. unfold m' at 1. rewrite osum_insert_ne by apply Hnotin.
    rewrite osum_cons. unfold m'. rewrite lookup_insert. cbn. lia. }
  pose proof (hidden_bounds o ltac:(lia) Hmv). pose proof (visible_bounds o ltac:(lia) Hmv).
  unfold side_add. fold p.
  destruct (find_level p (s_lvls s)) as [l|] eqn:E.
  - assert (Hids : ids_at s p = l_ids l) by (unfold ids_at; by rewrite E).
    assert (Hlok : level_ok m sid k l) by (by eapply sd_lvls).
    pose proof (level_sums _ _ _ _ Hm Hlok) as (?&?&?).
    pose proof (find_level_price _ _ _ E) as Hp.
    assert (El : mkLevel (li_plus o (l_info l)) (l_ids l ++ [o_id o]) = l').
    { unfold l', ids'. rewrite Hids. f_equal. rewrite (level_ok_info _ _ _ _ Hlok).
      unfold li_plus, add_info; cbn.
      rewrite <- Hids. fold ids'. rewrite !Hsum, Hids.
      f_equal; try (apply u64_id; lia); try done.
      unfold ids'. rewrite app_length, Hids; cbn. lia. }
    rewrite El.
    eexists _, _. split; [reflexivity|]. cbn [s_lvls s_best u_type u_info u_top].
    assert (Hfind : forall q, find_level q (upd_level p l' (s_lvls s)) =
              if q =? p then Some l' else find_level q (s_lvls s)).
    { intros q. rewrite find_upd by done. by rewrite E. }
    split; [|split; [done|repeat split; by rewrite ?length_upd]].
    constructor; cbn [s_lvls s_best].
    + apply sorted_upd; [done|]. by eapply sd_sorted.
    + rewrite headp_upd by done. by eapply sd_best.
    + intros q l0. rewrite Hfind. destruct (q =? p); [by intros [= <-]|]. apply Hold.
  - assert (Hids : ids_at s p = []) by (unfold ids_at; by rewrite E).
    pose proof (total_nonneg m) as Ht0.
    assert (0 <= total m). { apply Ht0. intros i o' Ho'. destruct Hm as [Hm _]. destruct (Hm _ _ Ho'). lia. }
    assert (El : mkLevel (li_plus o (l_info (new_level k p))) (l_ids (new_level k p) ++ [o_id o]) = l').
    { unfold l'. cbn. unfold ids'. rewrite Hids. cbn. f_equal.
      unfold li_plus, add_info; cbn.
      unfold m'. rewrite lookup_insert. f_equal; try (rewrite u64_id; lia). }
    rewrite El.
    eexists _, _. split; [reflexivity|]. cbn [s_lvls s_best u_type u_info u_top].
    assert (Hpl : l_price l' = p) by done.
    assert (Hfind : forall q, find_level q (ins_level k l' (s_lvls s)) =
              if q =? p then Some l' else find_level q (s_lvls s)).
    { intros q. rewrite find_ins; by rewrite Hpl. }
    split; [|split; [done|repeat split; by rewrite ?length_ins]].
    constructor; cbn [s_lvls s_best].
    + apply sorted_ins; [by eapply sd_sorted|]. by rewrite Hpl.
    + rewrite headp_ins, Hpl. by rewrite <- (sd_best _ _ _ _ Hs).
    + intros q l0. rewrite Hfind. destruct (q =? p); [by intros [= <-]|]. apply Hold.
Qed.

(** ** side_sub, the order leaves the queue *)
Lemma filter_nil_total m ids i :
  (forall j o, m !! j = Some o -> live_ok j o) ->
  (forall j, j ∈ ids -> exists o, m !! j = Some o) ->
  osum o_leaves m (filter (fun j => j <> i) ids) = 0 <-> filter (fun j => j <> i) ids = [].
Proof.
  intros Hm Hin. split; [|by intros ->].
  intros H0. destruct (decide (filter (fun j => j <> i) ids = [])) as [?|Hne]; [done|].
  exfalso. assert (0 < osum o_leaves m (filter (fun j => j <> i) ids)); [|lia].
  apply osum_pos; [done| |done]. intros j Hj. apply elem_of_list_filter in Hj as [_ Hj]. auto.
Qed.
Lemma length_filter_ne ids (i : Z) : NoDup ids -> i ∈ ids -> length ids = S (length (filter (fun j => j <> i) ids)).
Proof.
  intros Hnd Hi. induction ids as [|j ids IH]; [by apply elem_of_nil in Hi|].
  apply NoDup_cons in Hnd as [Hj Hnd]. rewrite filter_cons.
  apply elem_of_cons in Hi as [<-|Hi].
  - rewrite decide_False by tauto. cbn. f_equal.
    clear IH Hnd. induction ids as [|j ids IH]; [done|].
    rewrite filter_cons, decide_True by (intros ->; apply Hj; left).
    cbn. f_equal. apply IH. intros H. apply Hj. by right.
  - rewrite decide_True by (intros ->; done). cbn. f_equal. auto.
Qed.

Lemma side_take_ok m sid k o s :
  map_ok m -> side_ok m sid k s -> m !! o_id o = Some o ->
  o_id o ∈ ids_at s (okey o) ->
  let m' := delete (o_id o) m in
  let p := okey o in
  let ids' := filter (fun j => j <> o_id o) (ids_at s p) in
  let l' := mkLevel (add_info m' k p ids') ids' in
  exists s' u, side_sub o (o_leaves o) (hidden_q o) (visible_q o) true s = Ok (s', u) /\
    side_ok m' sid k s' /\
    (forall q, find_level q (s_lvls s') =
       if q =? p then (match ids' with [] => None | _ => Some l' end) else find_level q (s_lvls s)) /\
    u_type u = (match ids' with [] => UDelete | _ => UUpdate end) /\
    u_info u = l_info l' /\
    u_top u = (match ids' with [] => true | _ => is_best p s end) /\
    length (s_lvls s) = (match ids' with [] => S (length (s_lvls s')) | _ => length (s_lvls s') end).
Proof.
  intros Hm Hs Ho Hin m' p ids' l'.
  unfold side_sub. fold p. unfold ids_at in *. change (okey o) with p in Hin.
  destruct (find_level p (s_lvls s)) as [l|] eqn:E; [|by apply elem_of_nil in Hin].
  assert (Hlok : level_ok m sid k l) by (by eapply sd_lvls).
  pose proof (find_level_price _ _ _ E) as Hp.
  rewrite bool_decide_eq_true_2 by done. cbn [negb].
  pose proof (lv_nodup _ _ _ _ Hlok) as Hnd.
  assert (Hidin : forall j, j ∈ l_ids l -> exists o0, m !! j = Some o0).
  { intros j Hj. destruct (lv_in _ _ _ _ Hlok _ Hj) as (o0 & ? & _). eauto. }
  pose proof (level_sums _ _ _ _ Hm Hlok) as (?&?&?).
  assert (Hni : o_id o ∉ ids').
  { unfold ids'. intros Hx. apply elem_of_list_filter in Hx as [Hx _]. done. }
  assert (Hsum : forall f, osum f m (l_ids l) = f o + osum f m' ids').
  { intros f. unfold m'. rewrite osum_delete_ne by done. by apply osum_filter. }
  destruct (mo_live _ Hm _ _ Ho) as [_ _ Hlv Hmv _ _ _ _ _ _ _].
  assert (Hinfo : li_minus (o_leaves o) (hidden_q o) (visible_q o) 1 (l_info l) = l_info l').
  { unfold l', add_info; cbn. rewrite (level_ok_info _ _ _ _ Hlok). unfold li_minus, add_info; cbn.
    rewrite !Hsum. rewrite Hp.
    pose proof (length_filter_ne _ _ Hnd Hin) as Hlen. fold ids' in Hlen.
    pose proof (Hsum o_leaves). pose proof (Hsum hidden_q). pose proof (Hsum visible_q).
    assert (0 <= osum o_leaves m' ids' /\ 0 <= osum hidden_q m' ids' /\ 0 <= osum visible_q m' ids').
    { assert (forall j p0, m' !! j = Some p0 -> 0 < o_leaves p0 /\ 0 <= o_maxvis p0).
      { intros j p0 Hj. apply lookup_delete_Some in Hj as [_ Hj]. destruct (mo_live _ Hm _ _ Hj). done. }
      repeat split; apply osum_nonneg; intros j p0 _ Hj; apply H5 in Hj as [? ?]; [lia|apply hidden_bounds; lia|apply visible_bounds; lia]. }
    pose proof (hidden_bounds o ltac:(lia) Hmv). pose proof (visible_bounds o ltac:(lia) Hmv).
    destruct Hm as [_ Htot].
    f_equal; try (rewrite u64_id; lia). lia. }
  rewrite Hinfo.
  assert (Hz : li_total (l_info l') = 0 <-> ids' = []).
  { cbn. unfold m'. rewrite osum_delete_ne by done. apply filter_nil_total; [|done]. apply Hm. }
  assert (Hold : forall q l0, q <> p -> find_level q (s_lvls s) = Some l0 -> level_ok m' sid k l0).
  { intros q l0 Hq Hl. pose proof (find_level_price _ _ _ Hl) as Hpl.
    pose proof (sd_lvls _ _ _ _ Hs _ _ Hl) as Hlok0.
    eapply level_ok_ext; [|done]. intros i Hi.
    unfold m'. rewrite lookup_delete_ne; [done|]. intros <-.
    destruct (lv_in _ _ _ _ Hlok0 _ Hi) as (o0 & Ho0 & _ & _ & Hk). unfold p in Hq. congruence. }
  destruct (Z.eqb_spec (li_total (l_info l')) 0) as [E0|E0].
  - apply Hz in E0 as E1. rewrite E1.
    eexists _, _. split; [reflexivity|]. cbn [u_type u_info u_top].
    assert (Hfind : forall q, find_level q (del_level p (s_lvls s)) = if q =? p then None else find_level q (s_lvls s)).
    { intros q. apply (find_del k). by eapply sd_sorted. }
    split; [|split; [done|repeat split]].
    2: { cbn. rewrite length_del; [done|]. by rewrite E. }
    constructor; cbn.
    + apply sorted_del. by eapply sd_sorted.
    + rewrite headp_del. unfold is_best. rewrite (sd_best _ _ _ _ Hs). done.
    + intros q l0. rewrite Hfind. destruct (Z.eqb_spec q p); [done|]. by apply Hold.
  - assert (Hne : ids' <> []) by (intros ?; apply E0; by apply Hz).
    assert (Hl' : level_ok m' sid k l').
    { constructor; try done.
      - cbn. unfold ids'. by apply NoDup_filter.
      - cbn. intros i Hi. assert (Hi2 := Hi). apply elem_of_list_filter in Hi2 as [Hi1 Hi2].
        destruct (lv_in _ _ _ _ Hlok _ Hi2) as (o0 & Ho0 & ? & ? & ?). exists o0.
        unfold m'. rewrite lookup_delete_ne by done. repeat split; try done. congruence. }
    eexists _, _. split; [reflexivity|]. cbn [u_type u_info u_top].
    fold ids'.
    assert (Hmk : mkLevel (l_info l') ids' = l') by done. rewrite Hmk.
    assert (Hfind : forall q, find_level q (upd_level p l' (s_lvls s)) = if q =? p then Some l' else find_level q (s_lvls s)).
    { intros q. rewrite find_upd by done. by rewrite E. }
    destruct ids' as [|i0 ids0] eqn:Ei; [done|].
    split; [|split; [|split; [done|split; [done|split; [done|]]]]].
    + constructor; cbn.
      * apply sorted_upd; [done|]. by eapply sd_sorted.
      * rewrite headp_upd by done. by eapply sd_best.
      * intros q l0. rewrite Hfind. destruct (Z.eqb_spec q p); [by intros [= <-]|]. by apply Hold.
    + intros q. cbn [s_lvls]. rewrite Hfind. done.
    + cbn. by rewrite length_upd.
Qed.

(** ** side_sub, the order keeps some quantity *)
Lemma side_reduce_ok m sid k o s q :
  map_ok m -> side_ok m sid k s -> m !! o_id o = Some o ->
  o_id o ∈ ids_at s (okey o) ->
  0 < q < o_leaves o ->
  let o' := set_leaves (o_leaves o - q) o in
  let m' := <[o_id o := o']> m in
  let p := okey o in
  let ids := ids_at s p in
  let l' := mkLevel (add_info m' k p ids) ids in
  exists s' u, side_sub o' q (hidden_q o - hidden_q o') (visible_q o - visible_q o') false s = Ok (s', u) /\
    side_ok m' sid k s' /\
    (forall r, find_level r (s_lvls s') = if r =? p then Some l' else find_level r (s_lvls s)) /\
    u_type u = UUpdate /\ u_info u = l_info l' /\ u_top u = is_best p s /\
    length (s_lvls s') = length (s_lvls s).
Proof.
  intros Hm Hs Ho Hin Hq o' m' p ids l'.
  unfold side_sub. change (okey o') with p. change (o_id o') with (o_id o).
  unfold ids_at in *. change (okey o) with p in Hin.
  destruct (find_level p (s_lvls s)) as [l|] eqn:E; [|by apply elem_of_nil in Hin].
  assert (Hlok : level_ok m sid k l) by (by eapply sd_lvls).
  pose proof (find_level_price _ _ _ E) as Hp.
  rewrite bool_decide_eq_true_2 by done. cbn [negb].
  pose proof (lv_nodup _ _ _ _ Hlok) as Hnd.
  pose proof (level_sums _ _ _ _ Hm Hlok) as (?&?&?).
  destruct (mo_live _ Hm _ _ Ho) as [_ _ Hlv Hmv _ _ _ _ _ _ _].
  assert (Hsum : forall f, osum f m' ids = osum f m (l_ids l) - f o + f o').
  { intros f. unfold ids, m'. by apply osum_update. }
  assert (Hb : 0 <= hidden_q o' <= hidden_q o /\ 0 <= visible_q o' <= visible_q o).
  { unfold hidden_q, visible_q; cbn. destruct (Z.ltb_spec (o_maxvis o) (o_leaves o)), (Z.ltb_spec (o_maxvis o) (o_leaves o - q)); lia. }
  assert (Hm' : forall j p0, m' !! j = Some p0 -> 0 < o_leaves p0 /\ 0 <= o_maxvis p0).
  { intros j p0 Hj. destruct (decide (j = o_id o)) as [->|Hne].
    - unfold m' in Hj. rewrite lookup_insert in Hj. injection Hj as <-. cbn. lia.
    - unfold m' in Hj. rewrite lookup_insert_ne in Hj by done. destruct (mo_live _ Hm _ _ Hj). done. }
  assert (Hnn : 0 <= osum o_leaves m' ids /\ 0 <= osum hidden_q m' ids /\ 0 <= osum visible_q m' ids).
  { repeat split; apply osum_nonneg; intros j p0 _ Hj; apply Hm' in Hj as [? ?]; [lia|apply hidden_bounds; lia|apply visible_bounds; lia]. }
  assert (Hinfo : li_minus q (hidden_q o - hidden_q o') (visible_q o - visible_q o') 0 (l_info l) = l_info l').
  { unfold l', add_info; cbn. rewrite (level_ok_info _ _ _ _ Hlok). unfold li_minus, add_info; cbn.
    pose proof (Hsum o_leaves). pose proof (Hsum hidden_q). pose proof (Hsum visible_q).
    change (o_leaves o') with (o_leaves o - q) in *.
    destruct Hm as [_ Htot].
    rewrite Hp. f_equal; try (rewrite u64_id; lia). unfold ids. lia. }
  rewrite Hinfo.
  assert (Hne : ids <> []) by (eapply lv_ne; done).
  assert (Hpos : 0 < osum o_leaves m' ids).
  { rewrite Hsum. rewrite (osum_filter _ _ _ _ _ Hnd Hin Ho). cbn.
    assert (0 <= osum o_leaves m (filter (fun j => j <> o_id o) (l_ids l))); [|lia].
    apply osum_nonneg. intros j p0 _ Hj. destruct (mo_live _ Hm _ _ Hj). lia. }
  assert (Hl' : level_ok m' sid k l').
  { constructor; try done.
    cbn. intros i Hi. destruct (lv_in _ _ _ _ Hlok _ Hi) as (o0 & Ho0 & ? & ? & ?).
    destruct (decide (i = o_id o)) as [->|Hio].
    - exists o'. unfold m'. rewrite lookup_insert. assert (o0 = o) by congruence. subst o0. repeat split; try done.
    - exists o0. unfold m'. rewrite lookup_insert_ne by done. repeat split; try done. congruence. }
  destruct (Z.eqb_spec (li_total (l_info l')) 0) as [E0|E0]; [cbn in E0; lia|].
  eexists _, _. split; [reflexivity|]. cbn [u_type u_info u_top].
  assert (Hmk : mkLevel (l_info l') (l_ids l) = l') by done. rewrite Hmk.
  assert (Hfind : forall r, find_level r (upd_level p l' (s_lvls s)) = if r =? p then Some l' else find_level r (s_lvls s)).
  { intros r. rewrite find_upd by done. by rewrite E. }
  split; [|split; [|split; [done|split; [done|split; [done|]]]]].
  - constructor; cbn.
    + apply sorted_upd; [done|]. by eapply sd_sorted.
    + rewrite headp_upd by done. by eapply sd_best.
    + intros r l0. rewrite Hfind. destruct (Z.eqb_spec r p) as [->|Hr]; [by intros [= <-]|].
      intros Hl. pose proof (sd_lvls _ _ _ _ Hs _ _ Hl) as Hlok0. pose proof (find_level_price _ _ _ Hl) as Hpl.
      eapply level_ok_ext; [|done]. intros i Hi.
      unfold m'. rewrite lookup_insert_ne; [done|]. intros <-.
      destruct (lv_in _ _ _ _ Hlok0 _ Hi) as (o0 & Ho0 & _ & _ & Hk). unfold p in Hr. congruence.
  - intros r. cbn [s_lvls]. apply Hfind.
  - cbn. by rewrite length_upd.
Qed.
