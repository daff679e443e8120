(** * EngInv.v -- the invariant of one book against the order index, and the effect of the
    primitive book operations on queues, aggregates and prices. *)
From Coq Require Import ZifyBool.
From stdpp Require Import fin_maps.
From Verif Require Import Types Book Engine LevelFacts BookInv.

Definition bprices (b : book) : Z * Z * Z * Z * Z * Z :=
  (b_last_bid b, b_last_ask b, b_match_bid b, b_match_ask b, b_trail_bid b, b_trail_ask b).

Record book_ok (m : gmap Z order) (sid : Z) (b : book) : Prop := {
  bk_id : sid_of b = sid;
  bk_side : forall k, side_ok m sid k (get_side k b);
  bk_full : forall i o, m !! i = Some o -> o_sym o = sid -> i ∈ queue b (okind o) (okey o);
}.
Definition eng_ok (sid : Z) (e : eng) : Prop := map_ok (e_ords e) /\ book_ok (e_ords e) sid (e_bk e).

(** ** set_side *)
Lemma get_set_same k s b : get_side k (set_side k s b) = s.
Proof. by destruct k. Qed.
Lemma get_set_ne k k' s b : k' <> k -> get_side k' (set_side k s b) = get_side k' b.
Proof. by destruct k, k'. Qed.
Lemma set_side_prices k s b : bprices (set_side k s b) = bprices b.
Proof. by destruct k. Qed.
Lemma set_side_sym k s b : b_sym (set_side k s b) = b_sym b.
Proof. by destruct k. Qed.
Lemma set_prices_side lb la mb ma tb ta b k : get_side k (set_prices lb la mb ma tb ta b) = get_side k b.
Proof. by destruct k. Qed.
Lemma book_ok_prices m sid b b' :
  b_sym b' = b_sym b -> (forall k, get_side k b' = get_side k b) -> book_ok m sid b -> book_ok m sid b'.
Proof.
  intros Hs Hk []. constructor.
  - unfold sid_of in *. by rewrite Hs.
  - intros k. by rewrite Hk.
  - intros i o Hi Ho. unfold queue. rewrite Hk. by apply bk_full0.
Qed.

(** ** Queues determine the levels *)
Definition lvl_at (m : gmap Z order) (k : kind) (p : Z) (ids : list Z) : option level :=
  match ids with [] => None | _ => Some (mkLevel (add_info m k p ids) ids) end.
Lemma lvl_at_ne m k p ids : ids <> [] -> lvl_at m k p ids = Some (mkLevel (add_info m k p ids) ids).
Proof. by destruct ids. Qed.
Lemma side_view m sid k s p : side_ok m sid k s ->
  find_level p (s_lvls s) = lvl_at m k p (ids_at s p).
Proof.
  intros Hs. unfold ids_at. destruct (find_level p (s_lvls s)) as [l|] eqn:E; [|done].
  pose proof (sd_lvls _ _ _ _ Hs _ _ E) as Hl. pose proof (find_level_price _ _ _ E) as <-.
  rewrite lvl_at_ne by (by eapply lv_ne). f_equal.
  rewrite <- (level_ok_info _ _ _ _ Hl). by destruct l.
Qed.
Lemma book_view m sid b k p : book_ok m sid b ->
  find_level p (s_lvls (get_side k b)) = lvl_at m k p (queue b k p).
Proof. intros Hb. eapply side_view. by apply bk_side. Qed.
Lemma queue_in m sid b k p i : book_ok m sid b ->
  i ∈ queue b k p <-> (exists o, m !! i = Some o /\ o_sym o = sid /\ okind o = k /\ okey o = p).
Proof.
  intros Hb. split.
  - intros Hi. eapply side_ok_in; [by apply bk_side|done].
  - intros (o & Ho & Hs & <- & <-). by eapply bk_full.
Qed.
Lemma queue_nodup m sid b k p : book_ok m sid b -> NoDup (queue b k p).
Proof.
  intros Hb. unfold queue, ids_at. destruct (find_level p (s_lvls (get_side k b))) eqn:E; [|constructor].
  eapply lv_nodup. eapply sd_lvls; [by apply bk_side|done].
Qed.

(** ** Best level *)
Lemma best_some m sid b k p : book_ok m sid b -> s_best (get_side k b) = Some p ->
  queue b k p <> [] /\ forall q, queue b k q <> [] -> q = p \/ better k p q = true.
Proof.
  intros Hb Hbest. pose proof (bk_side _ _ _ Hb k) as Hs.
  rewrite (sd_best _ _ _ _ Hs) in Hbest.
  pose proof (headp_find _ _ Hbest) as (l & Hl & _).
  split.
  - unfold queue, ids_at. rewrite Hl. eapply lv_ne. by eapply sd_lvls.
  - intros q Hq. unfold queue, ids_at in Hq.
    destruct (find_level q (s_lvls (get_side k b))) as [l'|] eqn:E; [|done].
    eapply headp_best; [by eapply sd_sorted|done|done].
Qed.
Lemma best_none m sid b k : book_ok m sid b -> s_best (get_side k b) = None ->
  forall q, queue b k q = [].
Proof.
  intros Hb Hbest q. pose proof (bk_side _ _ _ Hb k) as Hs.
  rewrite (sd_best _ _ _ _ Hs) in Hbest. unfold queue, ids_at.
  by destruct (s_lvls (get_side k b)).
Qed.
Lemma best_exists m sid b k q : book_ok m sid b -> queue b k q <> [] ->
  exists p, s_best (get_side k b) = Some p /\ (q = p \/ better k p q = true).
Proof.
  intros Hb Hq. destruct (s_best (get_side k b)) as [p|] eqn:E.
  - exists p. split; [done|]. eapply best_some; done.
  - exfalso. apply Hq. by eapply best_none.
Qed.

(** ** Orders with the same placement and the same displayed quantities *)
Definition same_place (o o' : order) : Prop :=
  o_id o' = o_id o /\ o_sym o' = o_sym o /\ o_type o' = o_type o /\ o_side o' = o_side o /\
  okey o' = okey o /\ o_leaves o' = o_leaves o /\ o_maxvis o' = o_maxvis o.
Lemma osum_same f m i o o' ids : m !! i = Some o -> f o' = f o -> osum f (<[i:=o']> m) ids = osum f m ids.
Proof.
  intros Hi Hf. induction ids as [|j ids IH]; [done|]. rewrite !osum_cons, IH. f_equal.
  destruct (decide (i = j)) as [->|Hne].
  - rewrite lookup_insert, Hi. done.
  - by rewrite lookup_insert_ne.
Qed.
Lemma put_same_ok m sid b i o o' : book_ok m sid b -> m !! i = Some o -> same_place o o' ->
  book_ok (<[i:=o']> m) sid b.
Proof.
  intros Hb Hi (Eid & Esym & Etype & Eside & Ekey & Elv & Emv).
  assert (Ek : okind o' = okind o) by (unfold okind; by rewrite Etype, Eside).
  constructor.
  - by eapply bk_id.
  - intros k. pose proof (bk_side _ _ _ Hb k) as Hs. constructor.
    + by eapply sd_sorted. + by eapply sd_best.
    + intros p l Hl. pose proof (sd_lvls _ _ _ _ Hs _ _ Hl) as [? ? lv_in0 ? lv_total0 lv_hidden0 lv_visible0 ?]. constructor; try done.
      * intros j Hj. destruct (lv_in0 j Hj) as (x & Hx & ? & ? & ?).
        destruct (decide (i = j)) as [->|Hne].
        -- exists o'. rewrite lookup_insert. assert (x = o) by congruence. subst x.
           repeat split; congruence.
        -- exists x. by rewrite lookup_insert_ne.
      * by erewrite osum_same.
      * rewrite lv_hidden0. erewrite osum_same; [done|done|]. unfold hidden_q. by rewrite Elv, Emv.
      * rewrite lv_visible0. erewrite osum_same; [done|done|]. unfold visible_q. by rewrite Elv, Emv.
  - intros j x Hj Hx. destruct (decide (i = j)) as [->|Hne].
    + rewrite lookup_insert in Hj. injection Hj as <-. rewrite Ek, Ekey.
      eapply bk_full; [done|done|congruence].
    + rewrite lookup_insert_ne in Hj by done. by eapply bk_full.
Qed.
Lemma put_same_map m i o o' : map_ok m -> m !! i = Some o -> live_ok i o' -> o_leaves o' = o_leaves o ->
  map_ok (<[i:=o']> m).
Proof.
  intros [Hl Ht] Hi Ho' El. constructor.
  - intros j x Hj. destruct (decide (i = j)) as [->|Hne].
    + rewrite lookup_insert in Hj. by injection Hj as <-.
    + rewrite lookup_insert_ne in Hj by done. eauto.
  - erewrite total_update by done. lia.
Qed.

(** ** Effect of a primitive *)
Definition utype_of (old new : list Z) : utype :=
  match old, new with [], _ => UAdd | _, [] => UDelete | _, _ => UUpdate end.
Record prim (m' : gmap Z order) (k : kind) (p : Z) (ids' : list Z) (b b' : book) (u : lupd) : Prop := {
  pr_sym : b_sym b' = b_sym b;
  pr_sides : forall k', k' <> k -> get_side k' b' = get_side k' b;
  pr_queue : forall p', queue b' k p' = if p' =? p then ids' else queue b k p';
  pr_type : u_type u = utype_of (queue b k p) ids';
  pr_info : u_info u = add_info m' k p ids';
  pr_top : u_top u = match ids' with [] => true | _ => is_best p (get_side k b') end;
  pr_len : (length (s_lvls (get_side k b')) + (match queue b k p with [] => 0 | _ => 1 end)
            = length (s_lvls (get_side k b)) + (match ids' with [] => 0 | _ => 1 end))%nat;
}.
Lemma prim_queue m' k p ids' b b' u : prim m' k p ids' b b' u ->
  forall k' p', queue b' k' p' = if decide (k' = k /\ p' = p) then ids' else queue b k' p'.
Proof.
  intros H k' p'. destruct (decide (k' = k)) as [->|Hk].
  - rewrite (pr_queue _ _ _ _ _ _ _ H). destruct (Z.eqb_spec p' p).
    + by rewrite decide_True. + rewrite decide_False; [done|]. by intros [_ ?].
  - rewrite decide_False by (by intros [? _]). unfold queue. by rewrite (pr_sides _ _ _ _ _ _ _ H).
Qed.

Lemma other_side_ok m m' sid k s o : (forall j, j <> o_id o -> m' !! j = m !! j) ->
  side_ok m sid k s -> (forall x, m !! o_id o = Some x -> okind x <> k) ->
  side_ok m' sid k s.
Proof.
  intros Hm' Hs Hne. eapply side_ok_ext; [|done]. intros p i Hi. symmetry. apply Hm'. intros ->.
  destruct (side_ok_in _ _ _ _ _ _ Hs Hi) as (x & Hx & _ & Hk & _). by eapply Hne.
Qed.

Lemma book_add_ok m sid b o :
  map_ok m -> book_ok m sid b -> m !! o_id o = None ->
  0 < o_leaves o -> 0 <= o_maxvis o -> total m + o_leaves o < TWO64 -> o_sym o = sid ->
  exists b' u, book_add o b = (b', u) /\ book_ok (<[o_id o := o]> m) sid b' /\
    bprices b' = bprices b /\
    prim (<[o_id o := o]> m) (okind o) (okey o) (queue b (okind o) (okey o) ++ [o_id o]) b b' u.
Proof.
  intros Hm Hb Hf Hlv Hmv Ht Hs.
  pose proof (side_add_ok m sid (okind o) o (get_side (okind o) b) Hm (bk_side _ _ _ Hb _) Hf Hlv Hmv Ht Hs eq_refl)
    as (s' & u & Heq & Hok & Hfind & Hty & Hinfo & Htop & Hlen).
  unfold book_add. rewrite Heq. eexists _, u. split; [done|].
  assert (Hq : forall p', queue (set_side (okind o) s' b) (okind o) p' =
            if p' =? okey o then queue b (okind o) (okey o) ++ [o_id o] else queue b (okind o) p').
  { intros p'. unfold queue at 1, ids_at. rewrite get_set_same, Hfind. by destruct (p' =? okey o). }
  split.
  - constructor.
    + unfold sid_of. rewrite set_side_sym. by apply (bk_id _ _ _ Hb).
    + intros k. destruct (decide (k = okind o)) as [->|Hk].
      * by rewrite get_set_same.
      * rewrite get_set_ne by done. eapply other_side_ok with (o := o) (m := m).
        -- intros j Hj. by rewrite lookup_insert_ne.
        -- by apply bk_side. -- intros x Hx. congruence.
    + intros i x Hi Hx. destruct (decide (i = o_id o)) as [->|Hne].
      * rewrite lookup_insert in Hi. injection Hi as <-. rewrite Hq, Z.eqb_refl.
        apply elem_of_app. right. by apply elem_of_list_singleton.
      * rewrite lookup_insert_ne in Hi by done.
        pose proof (bk_full _ _ _ Hb _ _ Hi Hx) as Hin.
        destruct (decide (okind x = okind o)) as [Ek|Ek].
        -- rewrite Ek in *. rewrite Hq. destruct (Z.eqb_spec (okey x) (okey o)) as [Ep|Ep]; [|done].
           rewrite Ep in Hin. apply elem_of_app. by left.
        -- unfold queue. by rewrite get_set_ne.
  - split; [apply set_side_prices|]. assert (Hv : find_level (okey o) (s_lvls (get_side (okind o) b)) = lvl_at m (okind o) (okey o) (queue b (okind o) (okey o))).
    { by apply (book_view m sid). }
    constructor.
    + apply set_side_sym. + intros; by apply get_set_ne. + done.
    + rewrite Hty, Hv. destruct (queue b (okind o) (okey o)) as [|i [|? ?]]; done.
    + rewrite Hinfo. done.
    + rewrite Htop, get_set_same. by destruct (queue b (okind o) (okey o)).
    + rewrite get_set_same, Hlen, Hv. destruct (queue b (okind o) (okey o)); cbn; lia.
Qed.

Lemma book_delete_ok m sid b o :
  map_ok m -> book_ok m sid b -> m !! o_id o = Some o -> o_sym o = sid ->
  exists b' u, book_delete o b = Ok (b', u) /\ book_ok (delete (o_id o) m) sid b' /\
    bprices b' = bprices b /\
    prim (delete (o_id o) m) (okind o) (okey o)
         (filter (fun j => j <> o_id o) (queue b (okind o) (okey o))) b b' u.
Proof.
  intros Hm Hb Ho Hs.
  pose proof (bk_full _ _ _ Hb _ _ Ho Hs) as Hin.
  pose proof (side_take_ok m sid (okind o) o (get_side (okind o) b) Hm (bk_side _ _ _ Hb _) Ho Hin)
    as (s' & u & Heq & Hok & Hfind & Hty & Hinfo & Htop & Hlen).
  fold (queue b (okind o) (okey o)) in *.
  set (ids' := filter (fun j => j <> o_id o) (queue b (okind o) (okey o))) in *.
  unfold book_delete. rewrite Heq. cbn [rbind]. eexists _, u. split; [done|].
  assert (Hne : queue b (okind o) (okey o) <> []).
  { intros E. rewrite E in Hin. by apply elem_of_nil in Hin. }
  assert (Hq : forall p', queue (set_side (okind o) s' b) (okind o) p' =
            if p' =? okey o then ids' else queue b (okind o) p').
  { intros p'. unfold queue at 1, ids_at. rewrite get_set_same, Hfind. destruct (p' =? okey o); [|done].
    by destruct ids'. }
  split.
  - constructor.
    + unfold sid_of. rewrite set_side_sym. by apply (bk_id _ _ _ Hb).
    + intros k. destruct (decide (k = okind o)) as [->|Hk].
      * by rewrite get_set_same.
      * rewrite get_set_ne by done. eapply other_side_ok with (o := o) (m := m).
        -- intros j Hj. by rewrite lookup_delete_ne.
        -- by apply bk_side. -- intros x Hx. congruence.
    + intros i x Hi Hx. apply lookup_delete_Some in Hi as [Hne' Hi].
      pose proof (bk_full _ _ _ Hb _ _ Hi Hx) as Hin'.
      destruct (decide (okind x = okind o)) as [Ek|Ek].
      * rewrite Ek in *. rewrite Hq. destruct (Z.eqb_spec (okey x) (okey o)) as [Ep|Ep]; [|done].
        rewrite Ep in Hin'. apply elem_of_list_filter. auto.
      * unfold queue. by rewrite get_set_ne.
  - split; [apply set_side_prices|]. constructor.
    + apply set_side_sym. + intros; by apply get_set_ne. + done.
    + rewrite Hty. by destruct (queue b (okind o) (okey o)), ids'.
    + by rewrite Hinfo.
    + rewrite Htop, get_set_same. destruct ids' as [|i0 ids0] eqn:Ei; [done|].
      unfold is_best. f_equal.
      assert (Hh : s_best s' = s_best (get_side (okind o) b)).
      { unfold side_sub in Heq.
        destruct (find_level (okey o) (s_lvls (get_side (okind o) b))) as [l|]; [|done].
        destruct (negb _); [done|]. destruct (_ =? 0); injection Heq as <- <-; [|done].
        cbn in Hty. done. }
      by rewrite Hh.
    + rewrite get_set_same. destruct (queue b (okind o) (okey o)); [done|]. destruct ids'; lia.
Qed.

(** Reduction: [o] is the indexed order; [o'] the same order with less quantity. *)
Definition reduced_map (m : gmap Z order) (o' : order) : gmap Z order :=
  if o_leaves o' =? 0 then delete (o_id o') m else <[o_id o' := o']> m.
Lemma book_reduce_ok m sid b o q :
  map_ok m -> book_ok m sid b -> m !! o_id o = Some o -> o_sym o = sid ->
  0 < q <= o_leaves o ->
  let o' := set_leaves (o_leaves o - q) o in
  let Q := queue b (okind o) (okey o) in
  exists b' u, book_reduce o' q (hidden_q o - hidden_q o') (visible_q o - visible_q o') b = Ok (b', u) /\
    book_ok (reduced_map m o') sid b' /\
    bprices b' = bprices b /\
    prim (reduced_map m o') (okind o) (okey o)
         (if q =? o_leaves o then filter (fun j => j <> o_id o) Q else Q) b b' u.
Proof.
  intros Hm Hb Ho Hs Hq o' Q.
  destruct (mo_live _ Hm _ _ Ho) as [_ _ Hlv Hmv _ _ _ _ _ _ _].
  unfold book_reduce, reduced_map. change (okind o') with (okind o). change (o_id o') with (o_id o).
  cbn [o_leaves o' set_leaves].
  destruct (Z.eqb_spec q (o_leaves o)) as [->|Hne].
  - replace (o_leaves o - o_leaves o) with 0 in * by lia. rewrite Z.eqb_refl.
    pose proof (book_delete_ok m sid b o Hm Hb Ho Hs) as (b' & u & Heq & Hok & Hp).
    exists b', u. split; [|done]. unfold book_delete in Heq.
    assert (hidden_q o' = 0) as ->. { unfold hidden_q, o'; cbn. destruct (Z.ltb_spec (o_maxvis o) (o_leaves o - o_leaves o)); lia. }
    assert (visible_q o' = 0) as ->. { unfold visible_q, o'; cbn. lia. }
    rewrite !Z.sub_0_r. exact Heq.
  - destruct (Z.eqb_spec (o_leaves o - q) 0) as [?|_]; [lia|].
    pose proof (bk_full _ _ _ Hb _ _ Ho Hs) as Hin.
    pose proof (side_reduce_ok m sid (okind o) o (get_side (okind o) b) q Hm (bk_side _ _ _ Hb _) Ho Hin ltac:(lia))
      as (s' & u & Heq & Hok & Hfind & Hty & Hinfo & Htop & Hlen).
    fold (queue b (okind o) (okey o)) in *. fold Q in Hin, Hfind, Hinfo.
    assert (HQ : Q <> []) by (intros E; rewrite E in Hin; by apply elem_of_nil in Hin).
    fold o' in Heq, Hok, Hfind, Hinfo. rewrite Heq. cbn [rbind]. eexists _, u. split; [done|].
    assert (Hqq : forall p', queue (set_side (okind o) s' b) (okind o) p' = queue b (okind o) p').
    { intros p'. unfold queue at 1, ids_at. rewrite get_set_same, Hfind. destruct (Z.eqb_spec p' (okey o)) as [->|]; done. }
    split.
    + constructor.
      * unfold sid_of. rewrite set_side_sym. by apply (bk_id _ _ _ Hb).
      * intros k. destruct (decide (k = okind o)) as [->|Hk].
        -- by rewrite get_set_same.
        -- rewrite get_set_ne by done. eapply other_side_ok with (o := o) (m := m).
           ++ intros j Hj. by rewrite lookup_insert_ne.
           ++ by apply bk_side. ++ intros x Hx. congruence.
      * intros i x Hi Hx. destruct (decide (i = o_id o)) as [->|Hne'].
        -- rewrite lookup_insert in Hi. injection Hi as <-. change (okind o') with (okind o). change (okey o') with (okey o).
           rewrite Hqq. done.
        -- rewrite lookup_insert_ne in Hi by done.
           pose proof (bk_full _ _ _ Hb _ _ Hi Hx) as Hin'.
           destruct (decide (okind x = okind o)) as [Ek|Ek].
           ++ rewrite Ek in *. by rewrite Hqq.
           ++ unfold queue. by rewrite get_set_ne.
    + split; [apply set_side_prices|]. constructor.
      * apply set_side_sym. * intros; by apply get_set_ne.
      * intros p'. rewrite Hqq. by destruct (Z.eqb_spec p' (okey o)) as [->|].
      * rewrite Hty. fold Q. by destruct Q.
      * by rewrite Hinfo.
      * rewrite Htop, get_set_same. destruct Q eqn:EQ; [done|].
        assert (Hh : s_best s' = s_best (get_side (okind o) b)).
        { unfold side_sub in Heq.
          destruct (find_level (okey o') (s_lvls (get_side (okind o) b))) as [lx|]; [|done].
          destruct (negb _); [done|]. destruct (_ =? 0); injection Heq as <- <-; [|done].
          cbn in Hty. done. }
        unfold is_best. by rewrite Hh.
      * rewrite get_set_same, Hlen. fold Q. lia.
Qed.
