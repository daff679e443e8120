(** * EngPrim.v -- exact effect of the engine's primitive actions on index, book and log. *)
From Coq Require Import ZifyBool.
From stdpp Require Import fin_maps.
From Verif Require Import Types Book Engine LevelFacts BookInv EngInv.

(** Level notifications of one primitive. *)
Definition lev_ev (sid : Z) (u : lupd) : event :=
  match u_type u with
  | UAdd => EAddLevel sid (u_info u) (u_top u)
  | UUpdate => EUpdateLevel sid (u_info u) (u_top u)
  | UDelete => EDeleteLevel sid (u_info u) (u_top u)
  end.
Definition lev_evs (sid : Z) (u : lupd) : list event := [lev_ev sid u; EUpdateBook sid (u_top u)].
Definition lim_evs (o : order) (sid : Z) (u : lupd) : list event :=
  if is_limit o then lev_evs sid u else [].

Lemma emit_lupd_spec u e : 
  emit_lupd u e = mkEng (e_bk e) (e_ords e) (e_log e ++ lev_evs (sid_of (e_bk e)) u).
Proof.
  unfold emit_lupd, emit, lev_evs; cbn. f_equal. rewrite <- app_assoc. cbn. done.
Qed.
Lemma emit_lim_spec o u e :
  emit_lim o u e = mkEng (e_bk e) (e_ords e) (e_log e ++ lim_evs o (sid_of (e_bk e)) u).
Proof.
  unfold emit_lim, lim_evs. destruct (is_limit o); [apply emit_lupd_spec|].
  rewrite app_nil_r. by destruct e.
Qed.

Lemma is_limit_leaves q o : is_limit (set_leaves q o) = is_limit o.
Proof. done. Qed.

(** same sides, any prices *)
Definition same_sides (b b' : book) : Prop :=
  b_sym b' = b_sym b /\ forall k, get_side k b' = get_side k b.
Lemma same_sides_refl b : same_sides b b.
Proof. done. Qed.
Lemma same_sides_sym b b' : same_sides b b' -> same_sides b' b.
Proof. intros [? H]. split; [done|]. intros k. by rewrite H. Qed.
Lemma same_sides_trans a b c : same_sides a b -> same_sides b c -> same_sides a c.
Proof. intros [? H] [? H']. split; [congruence|]. intros k. by rewrite H', H. Qed.
Lemma same_sides_prices lb la mb ma tb ta b : same_sides b (set_prices lb la mb ma tb ta b).
Proof. split; [done|]. intros []; done. Qed.
Lemma same_sides_last s p b : same_sides b (update_last s p b).
Proof. destruct s; apply same_sides_prices. Qed.
Lemma same_sides_matching s p b : same_sides b (update_matching s p b).
Proof. destruct s; apply same_sides_prices. Qed.
Lemma same_sides_reset b : same_sides b (reset_matching b).
Proof. apply same_sides_prices. Qed.
Lemma same_sides_queue b b' k p : same_sides b b' -> queue b' k p = queue b k p.
Proof. intros [_ H]. unfold queue. by rewrite H. Qed.
Lemma same_sides_ok m sid b b' : same_sides b b' -> book_ok m sid b -> book_ok m sid b'.
Proof. intros [? ?]. by apply book_ok_prices. Qed.
Lemma same_sides_prim m k p ids b b1 b' b1' u :
  same_sides b b1 -> same_sides b' b1' -> prim m k p ids b b' u -> prim m k p ids b1 b1' u.
Proof.
  intros Hs Hs' [P1 P2 P3 P4 P5 P6 P7].
  pose proof Hs as [Hn Hk]. pose proof Hs' as [Hn' Hk']. constructor.
  - congruence.
  - intros k' Hk1. rewrite Hk', Hk. auto.
  - intros p'. rewrite (same_sides_queue b' b1'), (same_sides_queue b b1) by done. auto.
  - by rewrite (same_sides_queue b b1).
  - done.
  - by rewrite Hk'.
  - rewrite (same_sides_queue b b1), Hk', Hk by done. done.
Qed.
Lemma prim_sid m k p ids b b' u : prim m k p ids b b' u -> sid_of b' = sid_of b.
Proof. intros H. unfold sid_of. by rewrite (pr_sym _ _ _ _ _ _ _ H). Qed.

(** ** Adding an order to the index and its book *)
Lemma map_ok_insert m o : map_ok m -> m !! o_id o = None -> live_ok (o_id o) o ->
  total m + o_leaves o < TWO64 -> map_ok (<[o_id o := o]> m).
Proof.
  intros [Hl Ht] Hf Ho Htot. constructor.
  - intros j x Hj. destruct (decide (o_id o = j)) as [<-|Hne].
    + rewrite lookup_insert in Hj. by injection Hj as <-.
    + rewrite lookup_insert_ne in Hj by done. eauto.
  - rewrite total_insert by done. lia.
Qed.
Lemma map_ok_delete m i : map_ok m -> map_ok (delete i m).
Proof.
  intros [Hl Ht]. constructor.
  - intros j x Hj. apply lookup_delete_Some in Hj as [_ Hj]. eauto.
  - destruct (m !! i) as [o|] eqn:E.
    + rewrite (total_delete m i o E) in Ht. destruct (Hl _ _ E). lia.
    + by rewrite delete_notin.
Qed.
Lemma eng_add_ok sid e o :
  eng_ok sid e -> e_ords e !! o_id o = None -> live_ok (o_id o) o ->
  total (e_ords e) + o_leaves o < TWO64 -> o_sym o = sid ->
  exists u e', eng_add o (put o e) = e' /\ eng_ok sid e' /\
    e_ords e' = <[o_id o := o]> (e_ords e) /\
    e_log e' = e_log e ++ lim_evs o sid u /\
    bprices (e_bk e') = bprices (e_bk e) /\
    prim (e_ords e') (okind o) (okey o) (queue (e_bk e) (okind o) (okey o) ++ [o_id o]) (e_bk e) (e_bk e') u.
Proof.
  intros [Hm Hb] Hf Ho Htot Hs.
  destruct (book_add_ok (e_ords e) sid (e_bk e) o Hm Hb Hf (lo_leaves _ _ Ho) (lo_maxvis _ _ Ho) Htot Hs)
    as (b' & u & Heq & Hok & Hpr & Hp).
  exists u. eexists. split; [reflexivity|].
  unfold eng_add. cbn [e_bk put set_ords]. rewrite Heq, emit_lim_spec. cbn.
  assert (Hsid : sid_of b' = sid) by by eapply bk_id.
  rewrite Hsid. split; [|done]. split; [by apply map_ok_insert|done].
Qed.

(** ** Taking an order out of its book (it stays in the index) *)
Lemma eng_del_ok sid e o :
  eng_ok sid e -> e_ords e !! o_id o = Some o -> o_sym o = sid ->
  exists u e', eng_sub_delete o e = Ok e' /\
    e_ords e' = e_ords e /\ book_ok (delete (o_id o) (e_ords e)) sid (e_bk e') /\
    e_log e' = e_log e ++ lim_evs o sid u /\
    bprices (e_bk e') = bprices (e_bk e) /\
    prim (delete (o_id o) (e_ords e)) (okind o) (okey o)
         (filter (fun j => j <> o_id o) (queue (e_bk e) (okind o) (okey o))) (e_bk e) (e_bk e') u.
Proof.
  intros [Hm Hb] Ho Hs.
  destruct (book_delete_ok (e_ords e) sid (e_bk e) o Hm Hb Ho Hs) as (b' & u & Heq & Hok & Hpr & Hp).
  exists u. eexists. unfold eng_sub_delete. rewrite Heq. cbn [rbind]. split; [reflexivity|].
  rewrite emit_lim_spec. cbn. assert (Hsid : sid_of b' = sid) by by eapply bk_id.
  rewrite Hsid. done.
Qed.

(** ** Reducing an order *)
Lemma eng_red_ok sid m e o q :
  map_ok m -> book_ok m sid (e_bk e) -> m !! o_id o = Some o -> o_sym o = sid -> 0 < q <= o_leaves o ->
  let o' := set_leaves (o_leaves o - q) o in
  let Q := queue (e_bk e) (okind o) (okey o) in
  exists u e', eng_sub_reduce o' q (hidden_q o - hidden_q o') (visible_q o - visible_q o') e = Ok e' /\
    e_ords e' = e_ords e /\ book_ok (reduced_map m o') sid (e_bk e') /\
    e_log e' = e_log e ++ lim_evs o sid u /\
    bprices (e_bk e') = bprices (e_bk e) /\
    prim (reduced_map m o') (okind o) (okey o)
         (if q =? o_leaves o then filter (fun j => j <> o_id o) Q else Q) (e_bk e) (e_bk e') u.
Proof.
  intros Hm Hb Ho Hs Hq o' Q.
  destruct (book_reduce_ok m sid (e_bk e) o q Hm Hb Ho Hs Hq) as (b' & u & Heq & Hok & Hpr & Hp).
  exists u. eexists. unfold eng_sub_reduce. fold o' in Heq. rewrite Heq. cbn [rbind]. split; [reflexivity|].
  rewrite emit_lim_spec. cbn. assert (Hsid : sid_of b' = sid) by by eapply bk_id.
  rewrite Hsid. change (lim_evs o' sid u) with (lim_evs o sid u). done.
Qed.
Lemma map_ok_reduced m o q : map_ok m -> m !! o_id o = Some o -> 0 < q <= o_leaves o ->
  map_ok (reduced_map m (set_leaves (o_leaves o - q) o)).
Proof.
  intros Hm Ho Hq. unfold reduced_map. cbn.
  destruct (Z.eqb_spec (o_leaves o - q) 0) as [E|E]; [by apply map_ok_delete|].
  destruct Hm as [Hl Ht]. constructor.
  - intros j x Hj. destruct (decide (o_id o = j)) as [<-|Hne].
    + rewrite lookup_insert in Hj. injection Hj as <-. destruct (Hl _ _ Ho). constructor; try done. cbn. lia.
    + rewrite lookup_insert_ne in Hj by done. eauto.
  - erewrite total_update by done. cbn. lia.
Qed.

(** The notification about a reduced order. *)
Definition red_ev (o' : order) : event := if o_leaves o' =? 0 then EDeleteOrder o' else EUpdateOrder o'.

(** ReduceOrder's core on a live order. *)
Lemma reduce_order_ok sid e o q0 :
  eng_ok sid e -> e_ords e !! o_id o = Some o -> o_sym o = sid -> 0 < q0 ->
  let q := Z.min q0 (o_leaves o) in
  let o' := set_leaves (o_leaves o - q) o in
  let Q := queue (e_bk e) (okind o) (okey o) in
  exists u e', reduce_order o q0 e = Ok e' /\ eng_ok sid e' /\
    e_ords e' = reduced_map (e_ords e) o' /\
    e_log e' = e_log e ++ red_ev o' :: lim_evs o sid u /\
    bprices (e_bk e') = bprices (e_bk e) /\
    prim (e_ords e') (okind o) (okey o)
         (if q =? o_leaves o then filter (fun j => j <> o_id o) Q else Q) (e_bk e) (e_bk e') u.
Proof.
  intros [Hm Hb] Ho Hs Hq0 q o' Q.
  pose proof (mo_live _ Hm _ _ Ho) as Hlive. pose proof (lo_leaves _ _ Hlive) as Hlv.
  assert (Hq : 0 < q <= o_leaves o) by (unfold q; lia).
  pose proof (map_ok_reduced _ _ _ Hm Ho Hq) as Hm'. fold o' in Hm'.
  unfold reduce_order. fold q. fold o'. unfold red_ev.
  destruct (Z.ltb_spec 0 (o_leaves o')) as [Hpos|Hz].
  - set (e1 := emit (EUpdateOrder o') (put o' e)).
    destruct (eng_red_ok sid (e_ords e) e1 o q Hm Hb Ho Hs Hq) as (u & e' & Heq & Hords & Hok & Hlog & Hpr & Hp).
    assert (Hne : (o_leaves o' =? 0) = false) by lia.
    assert (Hmap : e_ords e' = reduced_map (e_ords e) o').
    { rewrite Hords. unfold reduced_map. by rewrite Hne. }
    exists u, e'. split; [done|]. unfold eng_ok. rewrite Hmap. split; [done|]. split; [done|]. split; [|done].
    rewrite Hlog, Hne; cbn; by rewrite <- app_assoc.
  - set (e1 := emit (EDeleteOrder o') (put o' e)).
    destruct (eng_red_ok sid (e_ords e) e1 o q Hm Hb Ho Hs Hq) as (u & e' & Heq & Hords & Hok & Hlog & Hpr & Hp).
    fold o' in Heq, Hok, Hp. rewrite Heq. cbn [rbind].
    assert (Hzero : o_leaves o' = 0). { unfold o' in *; cbn in *. lia. }
    assert (Hne : (o_leaves o' =? 0) = true) by lia.
    assert (Hmap : e_ords (drop_id (o_id o') e') = reduced_map (e_ords e) o').
    { cbn. rewrite Hords. unfold reduced_map. rewrite Hne. cbn. apply delete_insert_delete. }
    exists u, (drop_id (o_id o') e'). split; [done|]. unfold eng_ok. rewrite Hmap. split; [done|]. split; [done|]. split; [|done].
    rewrite Hne. cbn [drop_id set_ords e_log]. rewrite Hlog; cbn; by rewrite <- app_assoc.
Qed.

(** DeleteOrder's core on a live order. *)
Lemma delete_order_ok sid e o :
  eng_ok sid e -> e_ords e !! o_id o = Some o -> o_sym o = sid ->
  exists u e', delete_order o e = Ok e' /\ eng_ok sid e' /\
    e_ords e' = delete (o_id o) (e_ords e) /\
    e_log e' = e_log e ++ lim_evs o sid u ++ [EDeleteOrder o] /\
    bprices (e_bk e') = bprices (e_bk e) /\
    prim (e_ords e') (okind o) (okey o)
         (filter (fun j => j <> o_id o) (queue (e_bk e) (okind o) (okey o))) (e_bk e) (e_bk e') u.
Proof.
  intros [Hm Hb] Ho Hs.
  destruct (eng_del_ok sid e o (conj Hm Hb) Ho Hs) as (u & e1 & Heq & Hords & Hok & Hlog & Hpr & Hp).
  unfold delete_order. rewrite Heq. cbn [rbind]. exists u. eexists. split; [reflexivity|].
  unfold eng_ok. cbn. rewrite Hords, Hlog, <- app_assoc. 
  split; [split; [by apply map_ok_delete|done]|]. done.
Qed.

(** exec_incr keeps everything but the executed quantity *)
Lemma exec_incr_same q o : same_place o (exec_incr q o).
Proof. by repeat split. Qed.
Lemma live_exec_incr i q o : live_ok i o -> live_ok i (exec_incr q o).
Proof. intros []. constructor; try done. apply u64_range_u64. Qed.

Definition executed (q : Z) (o : order) : order := set_leaves (o_leaves o - q) (exec_incr q o).
Definition after_exec (s : oside) (p : Z) (b : book) : book := reset_matching (update_matching s p (update_last s p b)).

Lemma put_exec_ok sid e r price q :
  eng_ok sid e -> e_ords e !! o_id r = Some r ->
  let e1 := put (exec_incr q r) (exec_note r price q e) in
  eng_ok sid e1 /\ e_ords e1 = <[o_id r := exec_incr q r]> (e_ords e) /\
  e_log e1 = e_log e ++ [EExecute r price q] /\
  e_bk e1 = update_matching (o_side r) price (update_last (o_side r) price (e_bk e)).
Proof.
  intros [Hm Hb] Hr e1. cbn. split; [split|done].
  - cbn. eapply put_same_map; [done|done| |done]. apply live_exec_incr. by eapply mo_live.
  - cbn. eapply put_same_ok; [|done|apply exec_incr_same].
    eapply same_sides_ok; [|done].
    eapply same_sides_trans; [apply same_sides_last|apply same_sides_matching].
Qed.

Lemma reduced_map_insert m o x q : o_id x = o_id o ->
  reduced_map (<[o_id o := x]> m) (set_leaves q x) = reduced_map m (set_leaves q x).
Proof.
  intros E. unfold reduced_map; cbn. rewrite E. destruct (q =? 0).
  - apply delete_insert_delete.
  - apply insert_insert.
Qed.

Lemma exec_reduce_ok sid e r price q :
  eng_ok sid e -> e_ords e !! o_id r = Some r -> o_sym r = sid -> 0 < q <= o_leaves r ->
  let r' := executed q r in
  let Q := queue (e_bk e) (okind r) (okey r) in
  exists u e', exec_reduce r price q e = Ok e' /\ eng_ok sid e' /\
    e_ords e' = reduced_map (e_ords e) r' /\
    e_log e' = e_log e ++ EExecute r price q :: red_ev r' :: lim_evs r sid u /\
    bprices (e_bk e') = bprices (after_exec (o_side r) price (e_bk e)) /\
    prim (e_ords e') (okind r) (okey r)
         (if q =? o_leaves r then filter (fun j => j <> o_id r) Q else Q) (e_bk e) (e_bk e') u.
Proof.
  intros He Hr Hs Hq r' Q.
  destruct (put_exec_ok sid e r price q He Hr) as (He1 & Hords1 & Hlog1 & Hbk1).
  unfold exec_reduce. set (e1 := put (exec_incr q r) (exec_note r price q e)) in *.
  unfold reduce_core.
  pose proof (mo_live _ (proj1 He) _ _ Hr) as Hlive. pose proof (lo_idpos _ _ Hlive).
  rewrite (proj2 (Z.eqb_neq (o_id r) 0)) by lia. rewrite (proj2 (Z.eqb_neq q 0)) by lia. cbn [orb].
  rewrite Hords1, lookup_insert. cbn [o_sym exec_incr set_exec].
  rewrite (bk_id _ _ _ (proj2 He1)), Hs, Z.eqb_refl. cbn [negb].
  destruct (reduce_order_ok sid e1 (exec_incr q r) q He1) as (u & e' & Heq & Hok & Hords & Hlog & Hpr & Hp).
  { rewrite Hords1. apply lookup_insert. } { done. } { lia. }
  rewrite Heq. cbn [rbind]. exists u. eexists. split; [reflexivity|].
  assert (Hmin : Z.min q (o_leaves (exec_incr q r)) = q) by (cbn; lia). rewrite Hmin in *.
  change (set_leaves (o_leaves (exec_incr q r) - q) (exec_incr q r)) with r' in *.
  cbn [reset_m set_bk e_bk e_ords e_log].
  split; [|split; [|split; [|split]]].
  - split; [apply Hok|]. eapply same_sides_ok; [apply same_sides_reset|apply Hok].
  - rewrite Hords, Hords1. by apply reduced_map_insert.
  - rewrite Hlog, Hlog1, <- app_assoc. done.
  - rewrite Hbk1 in Hpr. unfold after_exec. unfold reset_matching, bprices in *. cbn in *. congruence.
  - assert (Hss : same_sides (e_bk e) (e_bk e1)).
    { rewrite Hbk1. eapply same_sides_trans; [apply same_sides_last|apply same_sides_matching]. }
    change (okind (exec_incr q r)) with (okind r) in Hp. change (okey (exec_incr q r)) with (okey r) in Hp.
    change (o_id (exec_incr q r)) with (o_id r) in Hp. change (o_leaves (exec_incr q r)) with (o_leaves r) in Hp.
    rewrite (same_sides_queue _ _ _ _ Hss) in Hp.
    eapply same_sides_prim; [by apply same_sides_sym|apply same_sides_reset|exact Hp].
Qed.

Lemma exec_delete_ok sid e r price q :
  eng_ok sid e -> e_ords e !! o_id r = Some r -> o_sym r = sid ->
  let Q := queue (e_bk e) (okind r) (okey r) in
  exists u e', exec_delete r price q e = Ok e' /\ eng_ok sid e' /\
    e_ords e' = delete (o_id r) (e_ords e) /\
    e_log e' = e_log e ++ EExecute r price q :: lim_evs r sid u ++ [EDeleteOrder (exec_incr q r)] /\
    bprices (e_bk e') = bprices (after_exec (o_side r) price (e_bk e)) /\
    prim (e_ords e') (okind r) (okey r) (filter (fun j => j <> o_id r) Q) (e_bk e) (e_bk e') u.
Proof.
  intros He Hr Hs Q.
  destruct (put_exec_ok sid e r price q He Hr) as (He1 & Hords1 & Hlog1 & Hbk1).
  unfold exec_delete. set (e1 := put (exec_incr q r) (exec_note r price q e)) in *.
  unfold delete_core.
  pose proof (mo_live _ (proj1 He) _ _ Hr) as Hlive. pose proof (lo_idpos _ _ Hlive).
  rewrite (proj2 (Z.eqb_neq (o_id r) 0)) by lia.
  rewrite Hords1, lookup_insert. cbn [o_sym exec_incr set_exec].
  rewrite (bk_id _ _ _ (proj2 He1)), Hs, Z.eqb_refl. cbn [negb].
  destruct (delete_order_ok sid e1 (exec_incr q r) He1) as (u & e' & Heq & Hok & Hords & Hlog & Hpr & Hp).
  { rewrite Hords1. apply lookup_insert. } { done. }
  rewrite Heq. cbn [rbind]. exists u. eexists. split; [reflexivity|].
  cbn [reset_m set_bk e_bk e_ords e_log].
  split; [|split; [|split; [|split]]].
  - split; [apply Hok|]. eapply same_sides_ok; [apply same_sides_reset|apply Hok].
  - rewrite Hords, Hords1. cbn. apply delete_insert_delete.
  - rewrite Hlog, Hlog1, <- app_assoc. done.
  - rewrite Hbk1 in Hpr. unfold after_exec. unfold reset_matching, bprices in *. cbn in *. congruence.
  - assert (Hss : same_sides (e_bk e) (e_bk e1)).
    { rewrite Hbk1. eapply same_sides_trans; [apply same_sides_last|apply same_sides_matching]. }
    change (okind (exec_incr q r)) with (okind r) in Hp. change (okey (exec_incr q r)) with (okey r) in Hp.
    change (o_id (exec_incr q r)) with (o_id r) in Hp.
    rewrite (same_sides_queue _ _ _ _ Hss) in Hp.
    eapply same_sides_prim; [by apply same_sides_sym|apply same_sides_reset|exact Hp].
Qed.
