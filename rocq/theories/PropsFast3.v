(** * PropsFast3.v -- what the optimized manager (Fast2.v) does show: the positive part of C53. *)
From Coq Require Import ZifyBool Sorting.Sorted.
From stdpp Require Import fin_maps.
From Verif Require Import Types Fast Feed FastOk PropsFast Fast2 PropsFast2 FastOk2 Spec27.

(** ** Counts *)
Definition one (v : live) (sym : Z) (sd : oside) (p : Z) : Z := if decide (v_sym v = sym /\ v_side v = sd /\ v_price v = p) then 1 else 0.
Lemma orders_insert T id v sym sd p : T !! id = None -> orders_at (<[id := v]> T) sym sd p = one v sym sd p + orders_at T sym sd p.
Proof.
  intros H. unfold orders_at, one. rewrite map_filter_insert. cbn. destruct (decide _) as [Hd|Hd].
  - rewrite map_size_insert_None; [lia|]. rewrite map_filter_lookup, H. done.
  - rewrite delete_notin by done. lia.
Qed.
Lemma orders_delete T id v sym sd p : T !! id = Some v -> orders_at T sym sd p = one v sym sd p + orders_at (delete id T) sym sd p.
Proof. intros H. rewrite <- (orders_insert (delete id T) id v) by apply lookup_delete. by rewrite insert_delete. Qed.
Lemma orders_empty sym sd p : orders_at ∅ sym sd p = 0.
Proof. unfold orders_at. by rewrite map_filter_empty, map_size_empty. Qed.
Definition vols (T : gmap Z live) : Z -> oside -> Z -> Z * Z := fun sym sd p => (volume T sym sd p, orders_at T sym sd p).
Lemma positive_tail T i v : T !! i = None -> positive (<[i := v]> T) -> 0 < v_qty v /\ positive T.
Proof.
  intros Hi H. split; [apply (H i); by rewrite lookup_insert|]. intros j w Hj. apply (H j). rewrite lookup_insert_ne; [done|]. congruence.
Qed.
Lemma positive_delete T i : positive T -> positive (delete i T).
Proof. intros H j w Hj. apply lookup_delete_Some in Hj as [_ Hj]. by apply (H j). Qed.
Lemma orders_few T sym sd p : positive T -> 0 <= orders_at T sym sd p <= volume T sym sd p.
Proof.
  induction T as [|i v T Hi IH] using map_ind; intros Hp; [rewrite orders_empty, volume_empty; lia|].
  apply positive_tail in Hp as [Hv Hp]; [|done]. specialize (IH Hp). rewrite orders_insert, volume_insert by done. unfold one, share. destruct (decide _); lia.
Qed.
Lemma vols_insert T id v sym sd p : T !! id = None ->
  vols (<[id := v]> T) sym sd p = oupd (vols T) (v_sym v) (v_side v) (v_price v)
    (volume T (v_sym v) (v_side v) (v_price v) + v_qty v, orders_at T (v_sym v) (v_side v) (v_price v) + 1) sym sd p.
Proof.
  intros H. unfold vols at 1. rewrite volume_insert, orders_insert by done. unfold share, one, oupd, vols.
  destruct (decide _) as [(-> & -> & ->)|Hn]; [rewrite decide_True by done; f_equal; lia|]. rewrite decide_False by naive_solver. done.
Qed.
Lemma vols_less T id v q sym sd p : T !! id = Some v -> 0 <= q <= v_qty v ->
  vols (settle id (lower q v) T) sym sd p = oupd (vols T) (v_sym v) (v_side v) (v_price v)
    (volume T (v_sym v) (v_side v) (v_price v) - q, orders_at T (v_sym v) (v_side v) (v_price v) - Z.b2z (v_qty v - q =? 0)) sym sd p.
Proof.
  intros H Hq. unfold vols, oupd. rewrite (volume_delete T id v sym sd p H), (orders_delete T id v sym sd p H).
  rewrite (volume_delete T id v _ _ _ H), (orders_delete T id v (v_sym v) _ _ H).
  unfold settle. destruct (decide (0 < v_qty (lower q v))) as [Hl|Hl]; cbn in Hl.
  - rewrite <- insert_delete_insert, volume_insert, orders_insert by apply lookup_delete. replace (v_qty v - q =? 0) with false by lia.
    unfold share, one, lower; cbn. destruct (decide (v_sym v = sym /\ _)) as [(-> & -> & ->)|Hn].
    + rewrite !decide_True by done. cbn. f_equal; lia.
    + rewrite (decide_False (P := sym = _ /\ _)) by naive_solver. done.
  - replace (v_qty v - q =? 0) with true by lia. unfold share, one. destruct (decide (v_sym v = sym /\ _)) as [(-> & -> & ->)|Hn].
    + rewrite !decide_True by done. cbn. f_equal; lia.
    + rewrite (decide_False (P := sym = _ /\ _)) by naive_solver. done.
Qed.

(** ** The invariant *)
Definition slot_price (ords : gmap Z oord) (id : Z) : Z := oo_price (default zero_ord (ords !! id)).
Record OI (s : ostate) (T : gmap Z live) (M : gmap Z Z) : Prop := {
  oi_levels : OL (o_books s) (o_pool s) (vols T);
  oi_orders : forall id v, T !! id = Some v -> 0 <= id < 300000000 /\ 0 <= v_sym v < 10000 /\ 0 < v_qty v /\
    exists k, o_ords s !! id = Some (mkOord id (v_sym v) (v_side v) (v_price v) (v_qty v) k) /\ olvl (o_books s) (v_sym v) (v_side v) (v_price v) k;
  oi_price : forall id, slot_price (o_ords s) id = default 0 (M !! id);
  oi_used : oused (o_books s) (o_pool s);
}.
Lemma oi_positive s T M : OI s T M -> positive T.
Proof. intros H id v Hv. by destruct (oi_orders _ _ _ H _ _ Hv) as (_ & _ & ? & _). Qed.
Lemma get_oord_ok id s : 0 <= id < 300000000 -> get_oord id s = Ok (default zero_ord (o_ords s !! id)).
Proof. intros H. unfold get_oord. by replace ((0 <=? id) && (id <? 300000000)) with true by lia. Qed.
Lemma get_obook_ok i s : 0 <= i < 10000 -> get_obook i s = Ok (obk (o_books s) i).
Proof. intros H. unfold get_obook. by replace ((0 <=? i) && (i <? 10000)) with true by lia. Qed.

Lemma dflt {A} (x y : A) : default x (Some y) = y.
Proof. done. Qed.

(** a new order enters its book *)
Lemma enter_ok s s1 T M M' id sym sd p q l : OI s T M -> T !! id = None -> fits_level T id sym sd p q ->
  o_books s1 = o_books s -> o_pool s1 = o_pool s -> (forall j, j <> id -> o_ords s1 !! j = o_ords s !! j) ->
  (forall j, default 0 (M' !! j) = if decide (j = id) then p else default 0 (M !! j)) ->
  exists s', o_enter id (mkOord id sym sd p q l) s1 = Ok s' /\ OI s' (<[id := mkLive sym sd p q]> T) M'.
Proof.
  intros H Hid (Hi & Hs & Hp & Hq & Hc) Eb Ep Eo HM. set (o := mkOord id sym sd p q l).
  destruct (obook_add_ok (o_books s) (o_pool s) (vols T) sym o (oi_levels _ _ _ H) Hq Hc) as (k & b' & P' & u & E & HL & Hl & Hkeep & HU).
  unfold o_enter. change (oo_sym o) with sym. rewrite get_obook_ok by done. cbn [rbind]. rewrite Eb, Ep, E. cbn. eexists. split; [done|]. constructor; cbn.
  - rewrite Eb. eapply ol_ext; [exact HL|]. intros i sd' p'. by rewrite vols_insert.
  - rewrite Eb. intros j w Hj. destruct (decide (j = id)) as [->|Hne].
    + rewrite lookup_insert in Hj. injection Hj as <-. cbn. do 3 (split; [done|]). exists k. rewrite lookup_insert. done.
    + rewrite lookup_insert_ne in Hj by done. destruct (oi_orders _ _ _ H _ _ Hj) as (A1 & A2 & A3 & k' & A4 & A5).
      do 3 (split; [done|]). exists k'. rewrite lookup_insert_ne by done. rewrite Eo by done. split; [done|]. by apply Hkeep.
  - intros j. rewrite HM. unfold slot_price. destruct (decide (j = id)) as [->|Hne]; [by rewrite lookup_insert|]. rewrite lookup_insert_ne, Eo by done. apply (oi_price _ _ _ H).
  - rewrite Eb. apply HU, H.
Qed.
(** [q] is taken away from a live order *)
Lemma leave_ok s T M id v q : OI s T M -> T !! id = Some v -> 0 <= q <= v_qty v ->
  exists k, o_ords s !! id = Some (mkOord id (v_sym v) (v_side v) (v_price v) (v_qty v) k) /\
  forall q0, exists b' P' u, obook_take (mkOord id (v_sym v) (v_side v) (v_price v) q0 k) q (v_qty v - q =? 0) (obk (o_books s) (v_sym v)) (o_pool s) = Ok (b', P', u) /\
  forall ords log M', (forall j, j <> id -> ords !! j = o_ords s !! j) ->
    (0 < v_qty v - q -> ords !! id = Some (mkOord id (v_sym v) (v_side v) (v_price v) (v_qty v - q) k)) ->
    (forall j, default 0 (M' !! j) = if decide (j = id) then slot_price ords id else default 0 (M !! j)) ->
    OI (mkOstate P' (<[v_sym v := b']> (o_books s)) ords log) (settle id (lower q v) T) M'.
Proof.
  intros H Hv Hq. pose proof (oi_positive _ _ _ H) as Hpos. destruct (oi_orders _ _ _ H _ _ Hv) as (A1 & A2 & A3 & k & A5 & A6). exists k. split; [done|]. intros q0.
  set (o := mkOord id (v_sym v) (v_side v) (v_price v) q0 k).
  pose proof (orders_few _ (v_sym v) (v_side v) (v_price v) (positive_delete _ id Hpos)) as Hfew.
  pose proof (orders_delete T id v (v_sym v) (v_side v) (v_price v) Hv) as Eo. pose proof (volume_delete T id v (v_sym v) (v_side v) (v_price v) Hv) as Ev.
  rewrite share_self in Ev. unfold one in Eo. rewrite decide_True in Eo by done.
  assert (Hlast : 0 <= Z.b2z (v_qty v - q =? 0) <= 1 /\ (Z.b2z (v_qty v - q =? 0) = 0 -> 1 <= v_qty v - q)). { destruct (Z.eqb_spec (v_qty v - q) 0); cbn; lia. }
  destruct (obook_take_ok (o_books s) (o_pool s) (vols T) (v_sym v) o q (v_qty v - q =? 0) (oi_levels _ _ _ H) A6) as (b' & P' & u & E & HL & Hkeep & HU); [cbn; lia|cbn; lia|].
  cbn in HL, Hkeep. exists b', P', u. split; [done|]. intros ords log M' Ho1 Ho2 HM. constructor; cbn.
  - eapply ol_ext; [exact HL|]. intros i sd p. by apply vols_less.
  - intros j w Hj. unfold settle in Hj. destruct (decide (j = id)) as [->|Hne].
    + destruct (decide (0 < v_qty (lower q v))) as [Hl|Hl]; [|by rewrite lookup_delete in Hj]. rewrite lookup_insert in Hj. injection Hj as <-. cbn in *.
      do 3 (split; [done|]). exists k. split; [by apply Ho2|]. apply Hkeep; [done|]. right. lia.
    + assert (Hj' : T !! j = Some w). { destruct (decide _); [by rewrite lookup_insert_ne in Hj|by rewrite lookup_delete_ne in Hj]. }
      destruct (oi_orders _ _ _ H _ _ Hj') as (B1 & B2 & B3 & k' & B5 & B6). do 3 (split; [done|]). exists k'. split; [by rewrite Ho1|]. apply Hkeep; [done|].
      destruct (decide (v_sym w = v_sym v /\ v_side w = v_side v /\ v_price w = v_price v)) as [(E1 & E2 & E3)|]; [right|by left].
      assert (Hw : delete id T !! j = Some w) by (by rewrite lookup_delete_ne).
      pose proof (volume_le _ _ _ (positive_delete _ id Hpos) Hw) as Hle2. rewrite E1, E2, E3 in Hle2. lia.
  - intros j. rewrite HM. destruct (decide (j = id)) as [->|Hne]; [done|]. unfold slot_price. rewrite Ho1 by done. apply (oi_price _ _ _ H).
  - apply HU, H.
Qed.
(** an order is taken out of its book: the first half of ModifyOrder, ReplaceOrder and DeleteOrder *)
Lemma out_ok s T M id v : OI s T M -> T !! id = Some v ->
  exists k s1, default zero_ord (o_ords s !! id) = mkOord id (v_sym v) (v_side v) (v_price v) (v_qty v) k /\
    o_leave obook_delete (mkOord id (v_sym v) (v_side v) (v_price v) (v_qty v) k) s = Ok s1 /\ o_ords s1 = o_ords s /\
    forall s2 M', o_books s2 = o_books s1 -> o_pool s2 = o_pool s1 -> (forall j, j <> id -> o_ords s2 !! j = o_ords s !! j) ->
      (forall j, default 0 (M' !! j) = if decide (j = id) then slot_price (o_ords s2) id else default 0 (M !! j)) -> OI s2 (delete id T) M'.
Proof.
  intros H Hv. destruct (oi_orders _ _ _ H _ _ Hv) as (A1 & A2 & A3 & _). destruct (leave_ok s T M id v (v_qty v) H Hv ltac:(lia)) as (k & E1 & HF).
  destruct (HF (v_qty v)) as (b' & P' & u & E2 & HI). replace (v_qty v - v_qty v =? 0) with true in E2 by lia.
  exists k. eexists. rewrite E1. split; [done|]. unfold o_leave, obook_delete. cbn [oo_sym oo_qty]. rewrite get_obook_ok by done. cbn [rbind]. rewrite E2. cbn.
  split; [done|]. split; [done|]. intros [P2 B2 O2 L2] M' Eb Ep Ho HM. cbn in *. subst. specialize (HI O2 L2 M' Ho ltac:(lia) HM). by rewrite settle_none in HI by (cbn; lia).
Qed.
Lemma same_price s T M id : OI s T M -> forall j, default 0 (M !! j) = if decide (j = id) then slot_price (o_ords s) id else default 0 (M !! j).
Proof. intros H j. destruct (decide _) as [->|]; [|done]. symmetry. apply (oi_price _ _ _ H). Qed.
Lemma given_price (M : gmap Z Z) id p j : default 0 (<[id := p]> M !! j) = if decide (j = id) then p else default 0 (M !! j).
Proof. destruct (decide _) as [->|]; [by rewrite lookup_insert|by rewrite lookup_insert_ne]. Qed.

(** ** One message *)
Notation SENT := (sent fits_level).
Lemma opt_add_ok s T M id sym sd p0 q : OI s T M -> SENT T (FAdd id sym sd (default 0 (M !! id)) q) ->
  exists s', opt_add id sym sd p0 q s = Ok s' /\ OI s' (<[id := mkLive sym sd (default 0 (M !! id)) q]> T) M.
Proof.
  intros H [Hid Hf]. unfold opt_add. rewrite get_oord_ok by apply Hf. cbn [rbind].
  replace (oo_price (default zero_ord (o_ords s !! id))) with (default 0 (M !! id)) by (symmetry; apply (oi_price _ _ _ H)).
  eapply (enter_ok s _ T M M); try done.
  - intros j Hj. cbn. by rewrite lookup_insert_ne.
  - intros j. destruct (decide _) as [->|]; done.
Qed.
Lemma opt_reduce_ok s T M id q v : OI s T M -> T !! id = Some v -> 0 <= q < v_qty v ->
  exists s', opt_reduce id q s = Ok s' /\ OI s' (settle id (lower q v) T) M.
Proof.
  intros H Hv Hq. destruct (oi_orders _ _ _ H _ _ Hv) as (A1 & A2 & A3 & _). destruct (leave_ok s T M id v q H Hv ltac:(lia)) as (k & E1 & HF).
  unfold opt_reduce. rewrite get_oord_ok by done. cbn [rbind]. rewrite E1, dflt. cbn [oo_id oo_sym oo_side oo_price oo_qty oo_lvl].
  rewrite Z.min_l by lia. replace (0 <? v_qty v - q) with true by lia. destruct (HF (v_qty v - q)) as (b' & P' & u & E2 & HI).
  unfold o_leave, obook_reduce. cbn [oo_sym oo_qty]. rewrite get_obook_ok by done. cbn [rbind]. cbn [o_books o_pool oput oemit]. rewrite E2. cbn. eexists. split; [done|].
  apply HI.
  - intros j Hj. cbn. by rewrite lookup_insert_ne.
  - intros _. cbn. by rewrite lookup_insert.
  - intros j. etrans; [apply (same_price s T M id H)|]. destruct (decide _); [|done]. unfold slot_price. cbn. by rewrite lookup_insert, E1.
Qed.
Lemma opt_execute_ok s T M id pr q v : OI s T M -> T !! id = Some v -> 0 <= q <= v_qty v ->
  exists s', opt_execute id pr q s = Ok s' /\ OI s' (settle id (lower q v) T) M.
Proof.
  intros H Hv Hq. destruct (oi_orders _ _ _ H _ _ Hv) as (A1 & A2 & A3 & _). destruct (leave_ok s T M id v q H Hv ltac:(lia)) as (k & E1 & HF).
  unfold opt_execute. rewrite get_oord_ok by done. cbn [rbind]. rewrite E1, dflt. cbn [oo_id oo_sym oo_side oo_price oo_qty oo_lvl].
  rewrite Z.min_l by lia. destruct (HF (v_qty v - q)) as (b' & P' & u & E2 & HI).
  unfold o_leave, obook_reduce. cbn [oo_sym oo_qty]. rewrite get_obook_ok by done. cbn [rbind]. cbn [o_books o_pool oput oemit]. rewrite E2. cbn. eexists. split; [done|].
  apply HI.
  - intros j Hj. cbn. by rewrite lookup_insert_ne.
  - intros _. cbn. by rewrite lookup_insert.
  - intros j. etrans; [apply (same_price s T M id H)|]. destruct (decide _); [|done]. unfold slot_price. cbn. by rewrite lookup_insert, E1.
Qed.
Lemma opt_delete_ok s T M id v : OI s T M -> T !! id = Some v -> exists s', opt_delete id s = Ok s' /\ OI s' (delete id T) M.
Proof.
  intros H Hv. destruct (oi_orders _ _ _ H _ _ Hv) as (A1 & A2 & A3 & _). destruct (out_ok s T M id v H Hv) as (k & s1 & E1 & E2 & E3 & HI).
  unfold opt_delete. rewrite get_oord_ok by done. cbn [rbind]. rewrite E1, E2. cbn. eexists. split; [done|]. apply HI; [done|done|..].
  - intros j _. cbn. by rewrite E3.
  - cbn. rewrite E3. by eapply same_price.
Qed.
Lemma u32_price p : 0 <= p < 2147483648 -> u32 p = p.
Proof. intros H. unfold u32. apply Z.mod_small. unfold TWO32. lia. Qed.
Lemma opt_modify_ok s T M id p q v : OI s T M -> T !! id = Some v -> 0 <= p < 2147483648 -> (q = 0 \/ fits_level (delete id T) id (v_sym v) (v_side v) p q) ->
  exists s', opt_modify id p q s = Ok s' /\ OI s' (settle id (mkLive (v_sym v) (v_side v) p q) T) (<[id := p]> M).
Proof.
  intros H Hv Hp Hq. destruct (oi_orders _ _ _ H _ _ Hv) as (A1 & A2 & A3 & _). destruct (out_ok s T M id v H Hv) as (k & s1 & E1 & E2 & E3 & HI).
  unfold opt_modify. rewrite get_oord_ok by done. cbn [rbind]. rewrite E1, E2. cbn [rbind oo_id oo_sym oo_side oo_price oo_qty oo_lvl]. rewrite u32_price by done. destruct Hq as [->|Hq].
  - cbn. eexists. split; [done|]. rewrite settle_none by done. apply HI; [done|done|..].
    + intros j Hj. cbn. by rewrite lookup_insert_ne, E3.
    + intros j. cbn. rewrite given_price. unfold slot_price. by rewrite lookup_insert.
  - pose proof Hq as (B1 & B2 & B3 & B4 & B5). replace (0 <? q) with true by lia. rewrite settle_some by (cbn; lia). rewrite <- (insert_delete_insert T).
    apply (enter_ok s1 _ (delete id T) M (<[id := p]> M)); try done.
    + apply HI; [done|done|by rewrite E3|]. rewrite E3. by eapply same_price.
    + apply lookup_delete.
    + intros j Hj. cbn. by rewrite lookup_insert_ne.
    + intros j. apply given_price.
Qed.
Lemma opt_replace_ok s T M id nid place p q v : OI s T M -> T !! id = Some v -> (nid = id \/ T !! nid = None) ->
  let '(sym, sd) := default (v_sym v, v_side v) place in
  (q = 0 \/ fits_level (delete id T) nid sym sd p q) ->
  exists s', opt_replace id nid place p q s = Ok s' /\ OI s' (settle nid (mkLive sym sd p q) (delete id T)) (if 0 <? q then <[nid := p]> M else M).
Proof.
  intros H Hv Hn. destruct (default (v_sym v, v_side v) place) as [sym sd] eqn:Ed. intros Hq.
  destruct (oi_orders _ _ _ H _ _ Hv) as (A1 & A2 & A3 & _). destruct (out_ok s T M id v H Hv) as (k & s1 & E1 & E2 & E3 & HI).
  unfold opt_replace. rewrite get_oord_ok by done. cbn [rbind]. rewrite E1, E2. cbn [rbind oo_id oo_sym oo_side oo_price oo_qty oo_lvl]. rewrite Ed.
  assert (Hnid : delete id T !! nid = None). { destruct Hn as [->|Hn]; [apply lookup_delete|]. destruct (decide (nid = id)) as [->|]; [apply lookup_delete|by rewrite lookup_delete_ne]. }
  assert (H1 : OI s1 (delete id T) M). { apply HI; [done|done|by rewrite E3|]. rewrite E3. by eapply same_price. }
  destruct Hq as [->|Hq].
  - cbn. eexists. split; [done|]. rewrite settle_none by done. rewrite (delete_notin (delete id T)) by done. by destruct H1.
  - pose proof Hq as (B1 & B2 & B3 & B4 & B5). replace (0 <? q) with true by lia. rewrite settle_some by (cbn; lia). rewrite get_oord_ok by done. cbn [rbind]. rewrite u32_price by done.
    apply (enter_ok s1 _ (delete id T) M (<[nid := p]> M)); try done.
    + intros j Hj. cbn. by rewrite lookup_insert_ne.
    + intros j. apply given_price.
Qed.
Lemma opt_book_ok s T M sym : OI s T M -> SENT T (FBook sym) -> exists s', opt_add_book sym s = Ok s' /\ OI s' T M.
Proof.
  intros H [Hs Hno]. unfold opt_add_book. rewrite get_obook_ok by done. cbn. eexists. split; [done|].
  assert (Hnl : forall sd p k, ~ olvl (o_books s) sym sd p k).
  { intros sd p k Hl. destruct (ol_lvl _ _ _ (oi_levels _ _ _ H) _ _ _ _ Hl) as (_ & Hx & _). cbn in Hx. rewrite volume_none in Hx by done. lia. }
  assert (Hemp : forall sd, ob_side sd (obk (o_books s) sym) = []).
  { intros sd. destruct (ob_side sd (obk (o_books s) sym)) as [|[p k] l] eqn:E; [done|]. exfalso. apply (Hnl sd p k). unfold olvl. rewrite E. left. }
  assert (Hbk : forall i, obk (<[sym := mkObook [] []]> (o_books s)) i = obk (o_books s) i).
  { intros i. rewrite obk_insert. destruct (decide (i = sym)) as [->|]; [|done]. pose proof (Hemp BUY) as Eb. pose proof (Hemp SELL) as Ea. destruct (obk (o_books s) sym). cbn in *. by subst. }
  destruct H as [H1 H2 H3 H4]. constructor; cbn.
  - by eapply ol_same.
  - intros id v Hv. destruct (H2 _ _ Hv) as (A1 & A2 & A3 & k & A5 & A6). do 3 (split; [done|]). exists k. split; [done|]. unfold olvl. by rewrite Hbk.
  - done.
  - intros k Hk. destruct (H4 k Hk) as [|(i & sd & p & Hl)]; [by left|]. right. exists i, sd, p. unfold olvl. by rewrite Hbk.
Qed.
Definition with_price (M : gmap Z Z) (m : feed) : feed := match m with FAdd id sym sd _ q => FAdd id sym sd (default 0 (M !! id)) q | _ => m end.
Lemma opt_step_ok s T M m : OI s T M -> SENT T (with_price M m) -> exists s', opt_step m s = Ok s' /\ OI s' (track (with_price M m) T) (given m M).
Proof.
  intros H Hm. destruct m; cbn [opt_step with_price track given]; cbn [with_price sent] in Hm.
  - by apply opt_book_ok.
  - by apply opt_add_ok.
  - destruct Hm as (v & Hv & Hq). rewrite Hv. by apply opt_reduce_ok.
  - destruct Hm as (v & Hv & Hq). rewrite Hv. by apply opt_execute_ok.
  - destruct Hm as (v & Hv & Hq). rewrite Hv. by apply opt_execute_ok.
  - destruct Hm as (v & Hv & Hp & Hq). rewrite Hv. by apply opt_modify_ok.
  - destruct Hm as (v & Hv & Hn & Hq). rewrite Hv. by apply (opt_replace_ok s T M id nid None p q v).
  - destruct Hm as (v & Hv & Hn & Hq). rewrite Hv. destruct (oi_orders _ _ _ H _ _ Hv) as (A1 & _ & _ & k & A4 & _). rewrite get_oord_ok by done. cbn [rbind]. rewrite A4, dflt. cbn [oo_side].
    by apply (opt_replace_ok s T M id nid (Some (sym, v_side v)) p q v).
  - destruct Hm as (v & Hv). by apply (opt_delete_ok s T M id v).
Qed.
Lemma stale_cons M m ms : stale M (m :: ms) = with_price M m :: stale (given m M) ms.
Proof. by destruct m. Qed.
Lemma opt_run_ok ms : forall s T M, OI s T M -> sent_all fits_level T (stale M ms) -> exists s', opt_run ms s = Ok s' /\ OI s' (track_all T (stale M ms)) (given_all M ms).
Proof.
  induction ms as [|m ms IH]; intros s T M H Hok; [by exists s|]. rewrite stale_cons in Hok |- *. destruct Hok as [Hm Hms]. destruct (opt_step_ok s T M m H Hm) as (s1 & E & H1).
  cbn. rewrite E. cbn. by apply IH.
Qed.
Lemma opt_init_ok : OI opt_init ∅ ∅.
Proof.
  assert (He : forall i sd p k, ~ olvl ∅ i sd p k). { intros i sd p k Hl. unfold olvl, obk in Hl. rewrite lookup_empty in Hl. destruct sd; by apply not_elem_of_nil in Hl. }
  constructor; [|intros id v Hv; by rewrite lookup_empty in Hv|intros id; by rewrite lookup_empty|intros k Hk; cbn in Hk; lia]. constructor; cbn.
  - intros i sd. unfold obk. rewrite lookup_empty. destruct sd; constructor.
  - intros i sd p k Hl. by apply He in Hl.
  - intros i sd p. rewrite volume_empty, orders_empty. lia.
  - intros i sd p Hv. rewrite volume_empty in Hv. lia.
  - intros i sd p i' sd' p' k Hl. by apply He in Hl.
  - split; constructor.
Qed.

(** ** What is shown *)
(** the level records themselves *)
Definition opt_records (s : ostate) (sym : Z) (sd : oside) : list olevel :=
  omap (fun x => op_mem (o_pool s) !! snd x) (ob_side sd (obook_at sym s)).
Lemma opt_levels_eq s T M sym sd : OI s T M ->
  opt_levels s sym sd = map (fun x => (fst x, volume T sym sd (fst x))) (ob_side sd (obook_at sym s)) /\
  opt_records s sym sd = map (fun x => mkOl sd (fst x) (volume T sym sd (fst x)) (orders_at T sym sd (fst x))) (ob_side sd (obook_at sym s)).
Proof.
  intros H. unfold opt_levels, opt_records. change (obook_at sym s) with (obk (o_books s) sym).
  assert (Hl : forall x, x ∈ ob_side sd (obk (o_books s) sym) -> op_mem (o_pool s) !! snd x = Some (mkOl sd (fst x) (volume T sym sd (fst x)) (orders_at T sym sd (fst x)))).
  { intros [p k] Hx. by destruct (ol_lvl _ _ _ (oi_levels _ _ _ H) sym sd p k Hx) as (Hm & _). }
  induction (ob_side sd (obk (o_books s) sym)) as [|x l IH]; [done|]. cbn. rewrite (Hl x) by left. cbn.
  destruct IH as [-> ->]; [intros y Hy; apply Hl; by right|]. done.
Qed.
Lemma opt_depth s T M sym sd : OI s T M -> depth_of T sym sd (opt_levels s sym sd).
Proof.
  intros H. destruct (opt_levels_eq s T M sym sd H) as [-> _]. change (obook_at sym s) with (obk (o_books s) sym). split.
  - rewrite map_map. cbn. pose proof (ol_ranked _ _ _ (oi_levels _ _ _ H) sym sd) as Hd. induction (ob_side sd (obk (o_books s) sym)) as [|x l IH]; cbn; [constructor|].
    apply ranked_cons in Hd as [Hd Hx]. constructor; [by apply IH|]. apply Forall_forall. intros p Hp. apply elem_of_list_fmap in Hp as (y & -> & Hy). rewrite Forall_forall in Hx. by apply Hx.
  - intros p v. split.
    + intros Hp. apply elem_of_list_fmap in Hp as ([p' k] & [= -> ->] & Hx). cbn. split; [done|].
      destruct (ol_lvl _ _ _ (oi_levels _ _ _ H) sym sd p' k Hx) as (_ & Hv & _). cbn in Hv. lia.
    + intros [-> Hv]. destruct (ol_all _ _ _ (oi_levels _ _ _ H) sym sd p Hv) as [k Hk]. apply elem_of_list_fmap. by exists (p, k).
Qed.
(** The manager never goes wrong, and every book shows the depth of the feed with stale prices:
    exactly its prices with live volume, best first, and the record of each level has its side and price, the
    total quantity and the number of the live orders there. *)
Theorem C53_shows_partial ms : sent_all fits_level ∅ (stale ∅ ms) ->
  exists s, opt_run ms opt_init = Ok s /\ forall sym sd,
    depth_of (track_all ∅ (stale ∅ ms)) sym sd (opt_levels s sym sd) /\
    opt_records s sym sd = map (fun x => mkOl sd (fst x) (snd x) (orders_at (track_all ∅ (stale ∅ ms)) sym sd (fst x))) (opt_levels s sym sd).
Proof.
  intros H. destruct (opt_run_ok ms opt_init ∅ ∅ opt_init_ok H) as (s & E & HI). exists s. split; [done|]. intros sym sd. split; [by eapply opt_depth|].
  destruct (opt_levels_eq _ _ _ sym sd HI) as [-> ->]. rewrite map_map. done.
Qed.
Print Assumptions C53_shows_partial.

(** *** The level pool *)
(** the slots of the pool that hold a level of some book *)
Definition oslots_of (b : obook) : list nat := map snd (ob_bids b) ++ map snd (ob_asks b).
Definition oslots (s : ostate) : list nat := flat_map (fun x => oslots_of (snd x)) (map_to_list (o_books s)).
Lemma elem_oslots_of s i b k : o_books s !! i = Some b -> k ∈ oslots_of b <-> exists sd p, olvl (o_books s) i sd p k.
Proof.
  intros Hb. assert (Eb : obk (o_books s) i = b) by (unfold obk; by rewrite Hb). unfold oslots_of. rewrite elem_of_app, !elem_of_list_fmap. unfold olvl. rewrite Eb. split.
  - intros [([p j] & -> & Hx)|([p j] & -> & Hx)]; [by exists BUY, p|by exists SELL, p].
  - intros (sd & p & Hx). destruct sd; [left|right]; by exists (p, k).
Qed.
Lemma elem_oslots s k : k ∈ oslots s <-> exists i sd p, olvl (o_books s) i sd p k.
Proof.
  unfold oslots. rewrite elem_of_list_In, in_flat_map. split.
  - intros ([i b] & Hin & Hk). apply elem_of_list_In in Hin, Hk. apply elem_of_map_to_list in Hin. cbn in Hk. exists i. by eapply elem_oslots_of.
  - intros (i & sd & p & Hl). destruct (o_books s !! i) as [b|] eqn:Eb.
    + exists (i, b). split; [apply elem_of_list_In; by apply elem_of_map_to_list|]. apply elem_of_list_In. cbn. apply (elem_oslots_of s i b k Eb). by exists sd, p.
    + exfalso. unfold olvl, obk in Hl. rewrite Eb in Hl. destruct sd; by apply not_elem_of_nil in Hl.
Qed.
Lemma side_nodup s T M i sd (l : list (Z * nat)) : OI s T M -> ranked sd l -> (forall x, x ∈ l -> olvl (o_books s) i sd (fst x) (snd x)) -> NoDup (map snd l).
Proof.
  intros H. induction l as [|x l IH]; intros Hd Hl; cbn; constructor.
  - intros Hx. apply elem_of_list_fmap in Hx as (y & E & Hy). assert (Hlx : olvl (o_books s) i sd (fst x) (snd x)) by (apply Hl; left). assert (Hly : olvl (o_books s) i sd (fst y) (snd y)) by (apply Hl; by right).
    rewrite E in Hlx. destruct (ol_inj _ _ _ (oi_levels _ _ _ H) _ _ _ _ _ _ _ Hlx Hly) as (_ & _ & E2). pose proof (ranked_elem _ _ _ _ Hd Hy) as Hb. rewrite E2 in Hb. by apply beats_irr in Hb.
  - apply ranked_cons in Hd as [Hd _]. apply IH; [done|]. intros y Hy. apply Hl. by right.
Qed.
Lemma oslots_nodup s T M : OI s T M -> NoDup (oslots s).
Proof.
  intros H. unfold oslots. assert (G : forall l : list (Z * obook), NoDup (map fst l) -> (forall i b, (i, b) ∈ l -> o_books s !! i = Some b) -> NoDup (flat_map (fun x => oslots_of (snd x)) l)).
  { induction l as [|[i b] l IH]; intros Hn Hl; cbn; [constructor|]. cbn in Hn. apply NoDup_cons in Hn as [Hi Hn]. assert (Bi : o_books s !! i = Some b) by (apply Hl; left).
    assert (Eb : obk (o_books s) i = b) by (unfold obk; by rewrite Bi). pose proof (ol_ranked _ _ _ (oi_levels _ _ _ H) i) as D. rewrite Eb in D. apply NoDup_app. split; [|split].
    - assert (L : forall sd x, x ∈ ob_side sd b -> olvl (o_books s) i sd (fst x) (snd x)) by (intros sd [p k] Hx; unfold olvl; by rewrite Eb).
      unfold oslots_of. apply NoDup_app. split; [by apply (side_nodup s T M i BUY _ H (D BUY)), L|]. split; [|by apply (side_nodup s T M i SELL _ H (D SELL)), L].
      intros k Hk1 Hk2. apply elem_of_list_fmap in Hk1 as (x & -> & Hx), Hk2 as (y & E & Hy). pose proof (L BUY x Hx) as A. pose proof (L SELL y Hy) as B. rewrite E in A.
      by destruct (ol_inj _ _ _ (oi_levels _ _ _ H) _ _ _ _ _ _ _ A B) as (_ & ? & _).
    - intros k Hk1 Hk2. apply elem_of_list_In, in_flat_map in Hk2 as ([j c] & Hj & Hk2). apply elem_of_list_In in Hj, Hk2. cbn in Hk2.
      assert (Bj : o_books s !! j = Some c) by (apply Hl; by right).
      apply (elem_oslots_of s i b k Bi) in Hk1 as (sd & p & Hp). apply (elem_oslots_of s j c k Bj) in Hk2 as (sd' & p' & Hp').
      destruct (ol_inj _ _ _ (oi_levels _ _ _ H) _ _ _ _ _ _ _ Hp Hp') as (-> & _). apply Hi. apply elem_of_list_fmap. by exists (j, c).
    - apply IH; [done|]. intros j c Hj. apply Hl. by right. }
  apply G; [apply NoDup_fst_map_to_list|]. intros i b Hb. by apply elem_of_map_to_list.
Qed.
(** Every slot of the level pool is free or holds exactly one level of one book: no memory is lost
    and none is shared. *)
Theorem C72_pool ms : sent_all fits_level ∅ (stale ∅ ms) ->
  exists s, opt_run ms opt_init = Ok s /\ op_free (o_pool s) ++ oslots s ≡ₚ seq 0 (length (op_mem (o_pool s))).
Proof.
  intros Hok. destruct (opt_run_ok ms opt_init ∅ ∅ opt_init_ok Hok) as (s & E & H). exists s. split; [done|].
  pose proof (ol_free _ _ _ (oi_levels _ _ _ H)) as [N1 N2]. rewrite Forall_forall in N2. apply NoDup_Permutation.
  - apply NoDup_app. split; [done|]. split; [|by eapply oslots_nodup]. intros k Hk Hs. apply elem_oslots in Hs as (i & sd & p & Hl).
    by destruct (ol_lvl _ _ _ (oi_levels _ _ _ H) _ _ _ _ Hl) as (_ & _ & Hn).
  - apply NoDup_seq.
  - intros k. rewrite elem_of_app, elem_of_seq. split.
    + intros [Hk|Hk]; [apply N2 in Hk; lia|]. apply elem_oslots in Hk as (i & sd & p & Hl). destruct (ol_lvl _ _ _ (oi_levels _ _ _ H) _ _ _ _ Hl) as (Hm & _). apply lookup_lt_Some in Hm. lia.
    + intros Hk. destruct (oi_used _ _ _ H k ltac:(lia)) as [|Hl]; [by left|right]. by apply elem_oslots.
Qed.
Print Assumptions C72_pool.

(** ** The feed and its stale form differ in prices only *)
Definition bare (v : live) : Z * oside * Z := (v_sym v, v_side v, v_qty v).
Definition alike (T1 T2 : gmap Z live) : Prop := forall id, bare <$> T1 !! id = bare <$> T2 !! id.
Lemma alike_insert T1 T2 id v1 v2 : alike T1 T2 -> bare v1 = bare v2 -> alike (<[id := v1]> T1) (<[id := v2]> T2).
Proof. intros H E j. destruct (decide (j = id)) as [->|]; [rewrite !lookup_insert; cbn; by rewrite E|by rewrite !lookup_insert_ne]. Qed.
Lemma alike_delete T1 T2 id : alike T1 T2 -> alike (delete id T1) (delete id T2).
Proof. intros H j. destruct (decide (j = id)) as [->|]; [by rewrite !lookup_delete|by rewrite !lookup_delete_ne]. Qed.
Lemma alike_settle T1 T2 id v1 v2 : alike T1 T2 -> bare v1 = bare v2 -> alike (settle id v1 T1) (settle id v2 T2).
Proof.
  intros H E. unfold settle. assert (v_qty v1 = v_qty v2) as -> by (unfold bare in E; congruence). destruct (decide _); [by apply alike_insert|by apply alike_delete].
Qed.
Lemma alike_some T1 T2 id v : alike T1 T2 -> T1 !! id = Some v -> exists v', T2 !! id = Some v' /\ bare v = bare v'.
Proof. intros H E. specialize (H id). rewrite E in H. destruct (T2 !! id) as [v'|]; [|done]. exists v'. cbn in H. split; [done|congruence]. Qed.
Lemma alike_none T1 T2 id : alike T1 T2 -> T1 !! id = None -> T2 !! id = None.
Proof. intros H E. specialize (H id). rewrite E in H. by destruct (T2 !! id). Qed.
Lemma alike_sym T1 T2 : alike T1 T2 -> alike T2 T1.
Proof. intros H id. by rewrite H. Qed.
Definition portion (v : live) (sym : Z) (sd : oside) : Z := if decide (v_sym v = sym /\ v_side v = sd) then v_qty v else 0.
Lemma total_insert T id v sym sd : T !! id = None -> side_total (<[id := v]> T) sym sd = portion v sym sd + side_total T sym sd.
Proof. intros H. unfold side_total. rewrite map_fold_insert_L; [done| |done]. intros; lia. Qed.
Lemma total_delete T id v sym sd : T !! id = Some v -> side_total T sym sd = portion v sym sd + side_total (delete id T) sym sd.
Proof. intros H. rewrite <- (total_insert (delete id T) id v) by apply lookup_delete. by rewrite insert_delete. Qed.
Lemma total_empty sym sd : side_total ∅ sym sd = 0.
Proof. unfold side_total. by rewrite map_fold_empty. Qed.
Lemma total_alike T1 : forall T2 sym sd, alike T1 T2 -> side_total T1 sym sd = side_total T2 sym sd.
Proof.
  induction T1 as [|i v T Hi IH] using map_ind; intros T2 sym sd H.
  - replace T2 with (∅ : gmap Z live); [done|]. symmetry. apply map_eq. intros j. rewrite lookup_empty. eapply alike_none; [exact H|]. apply lookup_empty.
  - destruct (alike_some _ _ i v H) as (v' & E & Eb); [by rewrite lookup_insert|]. rewrite total_insert by done. rewrite (total_delete T2 i v') by done.
    replace (portion v' sym sd) with (portion v sym sd) by (unfold portion; unfold bare in Eb; injection Eb as -> -> ->; done). f_equal. apply IH.
    intros j. destruct (decide (j = i)) as [->|Hne]; [by rewrite Hi, lookup_delete|]. rewrite lookup_delete_ne by done. rewrite <- H. by rewrite lookup_insert_ne.
Qed.
Lemma volume_total T sym sd p : positive T -> volume T sym sd p <= side_total T sym sd.
Proof.
  induction T as [|i v T Hi IH] using map_ind; intros Hp; [rewrite volume_empty, total_empty; lia|].
  apply positive_tail in Hp as [Hv Hp]; [|done]. specialize (IH Hp). rewrite volume_insert, total_insert by done. unfold share, portion.
  destruct (decide (_ /\ _ /\ _)) as [(-> & -> & _)|]; [rewrite decide_True by done; lia|]. destruct (decide _); lia.
Qed.
Definition in_range (M : gmap Z Z) : Prop := forall id, 0 <= default 0 (M !! id) < 2147483648.
Lemma range_given (M : gmap Z Z) id p : in_range M -> 0 <= p < 2147483648 -> in_range (<[id := p]> M).
Proof. intros H Hp j. rewrite given_price. by destruct (decide _). Qed.
Lemma fits_alike T1 T2 id sym sd p p' q : alike T1 T2 -> positive T2 -> fits_side T1 id sym sd p q -> 0 <= p' < 2147483648 -> fits_level T2 id sym sd p' q.
Proof.
  intros HA HP (H1 & H2 & H3 & H4 & H5) Hp. split; [done|]. split; [done|]. split; [done|]. split; [done|].
  rewrite (total_alike T1 T2 sym sd HA) in H5. pose proof (volume_total T2 sym sd p' HP). lia.
Qed.
Lemma sent_alike T1 T2 M m : alike T1 T2 -> positive T2 -> in_range M -> sent fits_side T1 m ->
  sent fits_level T2 (with_price M m) /\ alike (track m T1) (track (with_price M m) T2) /\ in_range (given m M).
Proof.
  intros HA HP HM Hm. destruct m; cbn [with_price sent track given] in *.
  - destruct Hm as [Hs Hno]. split; [|done]. split; [done|]. intros id v Hv. destruct (alike_some _ _ _ _ (alike_sym _ _ HA) Hv) as (w & Ew & Eb). unfold bare in Eb. injection Eb as -> _ _. by eapply Hno.
  - destruct Hm as [Hid Hf]. split; [split; [by eapply alike_none|by eapply fits_alike]|]. split; [by apply alike_insert|done].
  - destruct Hm as (v & Hv & Hq). destruct (alike_some _ _ _ _ HA Hv) as (w & Ew & Eb). rewrite Hv, Ew. assert (v_qty v = v_qty w) as Eq by (unfold bare in Eb; congruence).
    split; [exists w; split; [done|lia]|]. split; [|done]. apply alike_settle; [done|]. unfold bare, lower in *. cbn. congruence.
  - destruct Hm as (v & Hv & Hq). destruct (alike_some _ _ _ _ HA Hv) as (w & Ew & Eb). rewrite Hv, Ew. assert (v_qty v = v_qty w) as Eq by (unfold bare in Eb; congruence).
    split; [exists w; split; [done|lia]|]. split; [|done]. apply alike_settle; [done|]. unfold bare, lower in *. cbn. congruence.
  - destruct Hm as (v & Hv & Hq). destruct (alike_some _ _ _ _ HA Hv) as (w & Ew & Eb). rewrite Hv, Ew. assert (v_qty v = v_qty w) as Eq by (unfold bare in Eb; congruence).
    split; [exists w; split; [done|lia]|]. split; [|done]. apply alike_settle; [done|]. unfold bare, lower in *. cbn. congruence.
  - destruct Hm as (v & Hv & Hp & Hq). destruct (alike_some _ _ _ _ HA Hv) as (w & Ew & Eb). rewrite Hv, Ew. unfold bare in Eb. injection Eb as E1 E2 E3. rewrite E1, E2 in *.
    split; [exists w; split; [done|]; split; [done|]; destruct Hq as [->|Hq]; [by left|right; eapply fits_alike; [by apply alike_delete|by apply positive_delete|done|done]]|].
    split; [by apply alike_settle|by apply range_given].
  - destruct Hm as (v & Hv & Hn & Hq). destruct (alike_some _ _ _ _ HA Hv) as (w & Ew & Eb). rewrite Hv, Ew. unfold bare in Eb. injection Eb as E1 E2 E3. rewrite E1, E2 in *.
    split; [exists w; split; [done|]; split; [destruct Hn as [Hn|Hn]; [by left|right; by eapply alike_none]|]; destruct Hq as [->|Hq]; [by left|right; eapply fits_alike; [by apply alike_delete|by apply positive_delete|done|apply Hq]]|].
    split; [apply alike_settle; [by apply alike_delete|done]|]. destruct Hq as [->|Hq]; [done|]. destruct (0 <? q); [apply range_given; [done|apply Hq]|done].
  - destruct Hm as (v & Hv & Hn & Hq). destruct (alike_some _ _ _ _ HA Hv) as (w & Ew & Eb). rewrite Hv, Ew. unfold bare in Eb. injection Eb as E1 E2 E3. rewrite E2 in *.
    split; [exists w; split; [done|]; split; [destruct Hn as [Hn|Hn]; [by left|right; by eapply alike_none]|]; destruct Hq as [->|Hq]; [by left|right; eapply fits_alike; [by apply alike_delete|by apply positive_delete|done|apply Hq]]|].
    split; [apply alike_settle; [by apply alike_delete|done]|]. destruct Hq as [->|Hq]; [done|]. destruct (0 <? q); [apply range_given; [done|apply Hq]|done].
  - destruct Hm as (v & Hv). destruct (alike_some _ _ _ _ HA Hv) as (w & Ew & Eb). split; [by exists w|]. split; [by apply alike_delete|done].
Qed.
Lemma run_alike ms : forall s T1 T2 M, OI s T2 M -> alike T1 T2 -> in_range M -> sent_all fits_side T1 ms ->
  sent_all fits_level T2 (stale M ms) /\ alike (track_all T1 ms) (track_all T2 (stale M ms)).
Proof.
  induction ms as [|m ms IH]; intros s T1 T2 M H HA HM Hok; [done|]. destruct Hok as [Hm Hms]. rewrite stale_cons.
  destruct (sent_alike T1 T2 M m HA (oi_positive _ _ _ H) HM Hm) as (S1 & A1 & M1). destruct (opt_step_ok s T2 M m H S1) as (s1 & _ & H1).
  destruct (IH s1 _ _ _ H1 A1 M1 Hms) as [S2 A2]. by split.
Qed.
Lemma run_sent ms : sent_all fits_side ∅ ms -> exists s, opt_run ms opt_init = Ok s /\ OI s (track_all ∅ (stale ∅ ms)) (given_all ∅ ms) /\ alike (track_all ∅ ms) (track_all ∅ (stale ∅ ms)).
Proof.
  intros H. destruct (run_alike ms opt_init ∅ ∅ ∅ opt_init_ok) as [HS HA]; [done|intros id; rewrite lookup_empty; cbn; lia|done|].
  destruct (opt_run_ok ms opt_init ∅ ∅ opt_init_ok HS) as (s & E & HI). by exists s.
Qed.

(** *** Totals *)
Notation sum := (foldr Z.add 0).
Lemma sum_volume T sym sd ps : NoDup ps -> (forall id v, T !! id = Some v -> v_sym v = sym -> v_side v = sd -> v_price v ∈ ps) ->
  sum (map (volume T sym sd) ps) = side_total T sym sd.
Proof.
  intros HN. induction T as [|i v T Hi IH] using map_ind; intros Hp.
  - rewrite total_empty. clear. induction ps as [|p ps IH]; cbn; [done|]. rewrite volume_empty. lia.
  - rewrite total_insert by done. rewrite <- IH.
    2:{ intros j w Hj. apply (Hp j). rewrite lookup_insert_ne; [done|]. congruence. }
    assert (Hs : sum (map (volume (<[i:=v]> T) sym sd) ps) = sum (map (share v sym sd) ps) + sum (map (volume T sym sd) ps)).
    { clear -Hi. induction ps as [|p ps IH]; cbn; [done|]. rewrite volume_insert by done. lia. }
    rewrite Hs. f_equal. unfold portion. destruct (decide _) as [[E1 E2]|Hn].
    + specialize (Hp i v ltac:(by rewrite lookup_insert) E1 E2). clear -HN Hp E1 E2. induction ps as [|p ps IH]; [by apply not_elem_of_nil in Hp|].
      apply NoDup_cons in HN as [Hx HN]. cbn. unfold share at 1. destruct (decide _) as [(_ & _ & E)|Hne].
      * subst p. assert (sum (map (share v sym sd) ps) = 0); [|lia]. clear -Hx. induction ps as [|p ps IH]; cbn; [done|]. apply not_elem_of_cons in Hx as [Hp Hx].
        unfold share at 1. rewrite decide_False by naive_solver. by rewrite IH.
      * apply elem_of_cons in Hp as [Hp|Hp]; [naive_solver|]. rewrite IH by done. lia.
    + clear -Hn. induction ps as [|p ps IH]; cbn; [done|]. unfold share at 1. rewrite decide_False by naive_solver. by rewrite IH.
Qed.
Lemma shown_total s T M sym sd : OI s T M -> sum (map snd (opt_levels s sym sd)) = side_total T sym sd.
Proof.
  intros H. pose proof (opt_depth s T M sym sd H) as [Hs Hd]. destruct (opt_levels_eq s T M sym sd H) as [El _].
  rewrite <- (sum_volume T sym sd (map fst (opt_levels s sym sd))).
  - f_equal. rewrite El, !map_map. done.
  - clear -Hs. induction (map fst (opt_levels s sym sd)) as [|p ps IH]; constructor; apply StronglySorted_inv in Hs as [Hs Hf].
    + intros Hp. rewrite Forall_forall in Hf. by apply Hf, beats_irr in Hp.
    + by apply IH.
  - intros id v Hv <- <-. apply elem_of_list_fmap. exists (v_price v, volume T (v_sym v) (v_side v) (v_price v)). split; [done|]. apply Hd. split; [done|].
    pose proof (oi_positive _ _ _ H) as HP. pose proof (HP id v Hv). pose proof (volume_le T id v HP Hv). lia.
Qed.
(** Although prices are wrong, quantities are not: on every side of every book the volumes shown add
    up to what the live orders of the feed have there. *)
Theorem C53_total_partial ms : sent_all fits_side ∅ ms ->
  exists s, opt_run ms opt_init = Ok s /\ forall sym sd, sum (map snd (opt_levels s sym sd)) = side_total (track_all ∅ ms) sym sd.
Proof.
  intros H. destruct (run_sent ms H) as (s & E & HI & HA). exists s. split; [done|]. intros sym sd. rewrite (shown_total _ _ _ sym sd HI). symmetry. by apply total_alike.
Qed.
Print Assumptions C53_total_partial.
(** When every live order has the price last given to its id by a modification or a replacement, the
    manager shows the depth of the feed. *)
Theorem C53_repriced_partial ms : sent_all fits_side ∅ ms ->
  (forall id v, track_all ∅ ms !! id = Some v -> given_all ∅ ms !! id = Some (v_price v)) ->
  exists s, opt_run ms opt_init = Ok s /\ forall sym sd, depth_of (track_all ∅ ms) sym sd (opt_levels s sym sd).
Proof.
  intros H Hg. destruct (run_sent ms H) as (s & E & HI & HA). exists s. split; [done|]. intros sym sd.
  replace (track_all ∅ ms) with (track_all ∅ (stale ∅ ms)); [by eapply opt_depth|]. apply map_eq. intros id.
  destruct (track_all ∅ ms !! id) as [v|] eqn:Ev; [|by eapply alike_none]. destruct (alike_some _ _ _ _ HA Ev) as (w & Ew & Eb). rewrite Ew. f_equal.
  destruct (oi_orders _ _ _ HI _ _ Ew) as (_ & _ & _ & k & Eo & _). pose proof (oi_price _ _ _ HI id) as Ep. unfold slot_price in Ep. rewrite Eo, (Hg _ _ Ev) in Ep. cbn in Ep.
  destruct v, w. unfold bare in Eb. cbn in *. congruence.
Qed.
Print Assumptions C53_repriced_partial.

(** ** Examples *)
Definition roomb (cap : gmap Z live -> Z -> oside -> Z -> Z) (T : gmap Z live) (id sym : Z) (sd : oside) (p q : Z) : bool :=
  (0 <=? id) && (id <? 300000000) && ((0 <=? sym) && (sym <? 10000)) && ((0 <=? p) && (p <? 2147483648)) && (0 <? q) && (cap T sym sd p + q <? 4294967296).
Definition sentb (cap : gmap Z live -> Z -> oside -> Z -> Z) (T : gmap Z live) (m : feed) : bool :=
  let room := roomb cap in
  match m with
  | FBook sym => (0 <=? sym) && (sym <? 10000) && forallb (fun x => negb (v_sym (snd x) =? sym)) (map_to_list T)
  | FAdd id sym sd p q => match T !! id with None => room T id sym sd p q | Some _ => false end
  | FReduce id q => match T !! id with Some v => (0 <=? q) && (q <? v_qty v) | None => false end
  | FExecute id q | FExecuteAt id _ q => match T !! id with Some v => (0 <=? q) && (q <=? v_qty v) | None => false end
  | FModify id p q => match T !! id with Some v => (0 <=? p) && (p <? 2147483648) && ((q =? 0) || room (delete id T) id (v_sym v) (v_side v) p q) | None => false end
  | FReplace id nid p q => match T !! id with Some v => free_id T id nid && ((q =? 0) || room (delete id T) nid (v_sym v) (v_side v) p q) | None => false end
  | FReplaceTo id nid sym p q => match T !! id with Some v => free_id T id nid && ((q =? 0) || room (delete id T) nid sym (v_side v) p q) | None => false end
  | FDelete id => match T !! id with Some _ => true | None => false end
  end.
Fixpoint sent_allb (cap : gmap Z live -> Z -> oside -> Z -> Z) (T : gmap Z live) (ms : list feed) : bool :=
  match ms with [] => true | m :: ms => sentb cap T m && sent_allb cap (track m T) ms end.
Lemma sentb_ok cap (room : gmap Z live -> Z -> Z -> oside -> Z -> Z -> Prop) T m : (forall T id sym sd p q, roomb cap T id sym sd p q = true -> room T id sym sd p q) -> sentb cap T m = true -> sent room T m.
Proof.
  intros R. destruct m; cbn [sentb sent].
  - intros [H1 H2]%andb_prop. split; [lia|]. intros id v Hv E. apply elem_of_map_to_list in Hv. apply elem_of_list_In in Hv.
    pose proof (proj1 (forallb_forall _ _) H2 _ Hv) as H. cbn in H. rewrite E in H. lia.
  - destruct (T !! id) eqn:E; [done|]. intros H. split; [done|]. by apply R.
  - destruct (T !! id) as [v|] eqn:E; [|done]. intros H. exists v. split; [done|lia].
  - destruct (T !! id) as [v|] eqn:E; [|done]. intros H. exists v. split; [done|lia].
  - destruct (T !! id) as [v|] eqn:E; [|done]. intros H. exists v. split; [done|lia].
  - destruct (T !! id) as [v|] eqn:E; [|done]. intros [H1 H2]%andb_prop. exists v. split; [done|]. split; [lia|]. apply orb_prop in H2 as [H2|H2]; [left; lia|right; by apply R].
  - destruct (T !! id) as [v|] eqn:E; [|done]. intros [H0 H2]%andb_prop. exists v. split; [done|]. split; [by apply free_id_ok|]. apply orb_prop in H2 as [H2|H2]; [left; lia|right; by apply R].
  - destruct (T !! id) as [v|] eqn:E; [|done]. intros [H0 H2]%andb_prop. exists v. split; [done|]. split; [by apply free_id_ok|]. apply orb_prop in H2 as [H2|H2]; [left; lia|right; by apply R].
  - destruct (T !! id) as [v|] eqn:E; [|done]. intros _. by exists v.
Qed.
Lemma sent_allb_ok cap (room : gmap Z live -> Z -> Z -> oside -> Z -> Z -> Prop) ms : (forall T id sym sd p q, roomb cap T id sym sd p q = true -> room T id sym sd p q) ->
  forall T, sent_allb cap T ms = true -> sent_all room T ms.
Proof. intros R. induction ms as [|m ms IH]; intros T H; [done|]. apply andb_prop in H as [H1 H2]. split; [by eapply sentb_ok|by apply IH]. Qed.
Lemma sent_level ms : sent_allb volume ∅ ms = true -> sent_all fits_level ∅ ms.
Proof. apply sent_allb_ok. intros T id sym sd p q. unfold roomb, fits_level. lia. Qed.
Lemma sent_side ms : sent_allb (fun T sym sd _ => side_total T sym sd) ∅ ms = true -> sent_all fits_side ∅ ms.
Proof. apply sent_allb_ok. intros T id sym sd p q. unfold roomb, fits_side. lia. Qed.

(** Ids are used again: order 12 after a replacement, order 10 after it was modified and traded. *)
Definition mixed_feed : list feed := [FBook 1; FBook 2; FAdd 10 1 BUY 100 5; FAdd 11 1 BUY 90 7; FAdd 12 1 SELL 110 3; FModify 10 101 6; FReplace 12 13 111 6;
  FAdd 12 1 SELL 112 2; FExecute 10 6; FAdd 10 1 BUY 99 8; FReduce 10 3; FModify 12 115 2; FExecuteAt 13 100 1; FAdd 14 2 SELL 50 9; FReplaceTo 14 15 2 49 9; FAdd 16 1 BUY 102 1; FDelete 16].
Example C53_shows_example : sent_all fits_level ∅ (stale ∅ mixed_feed) /\ sent_all fits_side ∅ mixed_feed /\ exists s, opt_run mixed_feed opt_init = Ok s /\
  opt_levels s 1 BUY = [(101, 5); (0, 7)] /\ opt_records s 1 BUY = [mkOl BUY 101 5 1; mkOl BUY 0 7 1] /\ opt_levels s 1 SELL = [(111, 5); (115, 2)] /\ opt_levels s 2 SELL = [(49, 9)].
Proof.
  split; [apply sent_level; vm_compute; reflexivity|]. split; [apply sent_side; vm_compute; reflexivity|]. eexists. split; [vm_compute; reflexivity|]. repeat split; vm_compute; reflexivity.
Qed.
Definition repriced_feed : list feed := [FBook 1; FAdd 10 1 BUY 100 5; FAdd 11 1 SELL 110 3; FModify 10 101 5; FReplace 11 12 109 4; FAdd 13 1 BUY 101 2; FModify 13 101 2; FExecute 12 1].
Example C53_repriced_example : sent_all fits_side ∅ repriced_feed /\
  (forall id v, track_all ∅ repriced_feed !! id = Some v -> given_all ∅ repriced_feed !! id = Some (v_price v)) /\
  exists s, opt_run repriced_feed opt_init = Ok s /\ opt_levels s 1 BUY = [(101, 7)] /\ opt_records s 1 BUY = [mkOl BUY 101 7 2] /\ opt_levels s 1 SELL = [(109, 3)].
Proof.
  split; [apply sent_side; vm_compute; reflexivity|]. split; [|eexists; split; [vm_compute; reflexivity|]; repeat split; vm_compute; reflexivity].
  intros id v Hv. assert (F : forallb (fun x => match given_all ∅ repriced_feed !! fst x with Some p => p =? v_price (snd x) | None => false end) (map_to_list (track_all ∅ repriced_feed)) = true) by (vm_compute; reflexivity).
  rewrite forallb_forall in F. apply elem_of_map_to_list in Hv. apply elem_of_list_In in Hv. specialize (F _ Hv). cbn [fst snd] in F.
  destruct (given_all ∅ repriced_feed !! id) as [p|]; [|done]. f_equal. lia.
Qed.
Example C72_example : sent_all fits_level ∅ (stale ∅ (mixed_feed ++ [FDelete 15])) /\ exists s, opt_run (mixed_feed ++ [FDelete 15]) opt_init = Ok s /\ length (oslots s) = 4%nat /\ length (op_free (o_pool s)) = 1%nat.
Proof. split; [apply sent_level; vm_compute; reflexivity|]. eexists. split; [vm_compute; reflexivity|]. split; vm_compute; reflexivity. Qed.
