(** * PropsFast.v -- the aggressive optimized manager shows the depth of the feed: C52. *)
From Coq Require Import ZifyBool Sorting.Sorted.
From stdpp Require Import fin_maps.
From Verif Require Import Types Fast Feed FastOk.

(** ** How the manager is driven and read *)
(** the signed price of MyITCHHandler: market_manager_optimized_aggressive.cpp:384-385 *)
Definition signed (sd : oside) (p : Z) : Z := match sd with BUY => p | SELL => - p end.
Definition fast_step (m : feed) (s : fstate) : res fstate :=
  match m with
  | FBook sym => fast_add_book sym s
  | FAdd id sym sd p q => fast_add id sym (signed sd p) q s
  | FReduce id q | FExecute id q | FExecuteAt id _ q => fast_reduce id q s
  | FModify id p q => fast_modify id p q s
  | FReplace id nid p q => fast_replace_to id nid None p q s
  | FReplaceTo id nid sym p q => fast_replace_to id nid (Some sym) p q s
  | FDelete id => fast_delete id s
  end.
Fixpoint fast_run (ms : list feed) (s : fstate) : res fstate :=
  match ms with [] => Ok s | m :: ms => do s <- fast_step m s; fast_run ms s end.
(** bids() / asks(), best first, with the volumes of the levels they point to *)
Definition fast_levels (s : fstate) (sym : Z) (sd : oside) : list (Z * Z) :=
  omap (fun x => (fun l => (signed sd (fst x), fl_vol l)) <$> p_mem (f_pool s) !! snd x)
    (match sd with BUY => fb_bids | SELL => fb_asks end (book_at sym s)).

(** ** Volumes *)
Definition share (v : live) (sym : Z) (sd : oside) (p : Z) : Z :=
  if decide (v_sym v = sym /\ v_side v = sd /\ v_price v = p) then v_qty v else 0.
Lemma volume_insert T id v sym sd p : T !! id = None -> volume (<[id := v]> T) sym sd p = share v sym sd p + volume T sym sd p.
Proof. intros H. unfold volume. rewrite map_fold_insert_L; [done| |done]. intros; lia. Qed.
Lemma volume_delete T id v sym sd p : T !! id = Some v -> volume T sym sd p = share v sym sd p + volume (delete id T) sym sd p.
Proof. intros H. rewrite <- (volume_insert (delete id T) id v) by apply lookup_delete. by rewrite insert_delete. Qed.
Lemma volume_empty sym sd p : volume ∅ sym sd p = 0.
Proof. unfold volume. by rewrite map_fold_empty. Qed.
Definition positive (T : gmap Z live) : Prop := forall id v, T !! id = Some v -> 0 < v_qty v.
Lemma share_nonneg v sym sd p : 0 < v_qty v -> 0 <= share v sym sd p.
Proof. unfold share. destruct (decide _); lia. Qed.
Lemma volume_nonneg T sym sd p : positive T -> 0 <= volume T sym sd p.
Proof.
  induction T as [|i v T Hi IH] using map_ind; intros Hp; [by rewrite volume_empty|]. rewrite volume_insert by done.
  assert (0 < v_qty v) by (apply (Hp i); by rewrite lookup_insert). pose proof (share_nonneg v sym sd p).
  assert (0 <= volume T sym sd p); [|lia]. apply IH. intros j w Hj. apply (Hp j). rewrite lookup_insert_ne; [done|]. congruence.
Qed.
Lemma share_self v : share v (v_sym v) (v_side v) (v_price v) = v_qty v.
Proof. unfold share. by rewrite decide_True. Qed.
Lemma volume_le T id v : positive T -> T !! id = Some v -> v_qty v <= volume T (v_sym v) (v_side v) (v_price v).
Proof.
  intros Hp H. rewrite (volume_delete _ _ _ _ _ _ H), share_self. assert (0 <= volume (delete id T) (v_sym v) (v_side v) (v_price v)); [|lia].
  apply volume_nonneg. intros j w Hj. apply lookup_delete_Some in Hj as [_ Hj]. by eapply Hp.
Qed.
Lemma volume_none T sym sd p : (forall id v, T !! id = Some v -> v_sym v <> sym) -> volume T sym sd p = 0.
Proof.
  induction T as [|i v T Hi IH] using map_ind; intros H; [apply volume_empty|]. rewrite volume_insert by done.
  assert (v_sym v <> sym) by (apply (H i); by rewrite lookup_insert). unfold share. rewrite decide_False by tauto.
  rewrite IH; [done|]. intros j w Hj. apply (H j). rewrite lookup_insert_ne; [done|]. congruence.
Qed.

(** the same by signed price *)
Definition side_of (p : Z) : oside := if 0 <? p then BUY else SELL.
Definition vol (T : gmap Z live) : Z -> Z -> Z := fun sym p => volume T sym (side_of p) (signed (side_of p) p).
Definition sprice (v : live) : Z := signed (v_side v) (v_price v).
Lemma side_signed sd p : 0 < p -> side_of (signed sd p) = sd /\ signed sd (signed sd p) = p.
Proof. intros H. unfold side_of. destruct sd; cbn; [destruct (Z.ltb_spec 0 p)|destruct (Z.ltb_spec 0 (- p))]; split; done || lia. Qed.
Lemma vol_at T sym sd p : 0 < p -> vol T sym (signed sd p) = volume T sym sd p.
Proof. intros H. unfold vol. destruct (side_signed sd p H) as [-> ->]. done. Qed.
Lemma side_case p : p <> 0 -> exists sd p', 0 < p' /\ p = signed sd p'.
Proof. intros H. destruct (decide (0 < p)). - exists BUY, p. done. - exists SELL, (- p). cbn. lia. Qed.
Lemma signed_inj sd p sd' p' : 0 < p -> 0 < p' -> signed sd p = signed sd' p' -> sd = sd' /\ p = p'.
Proof. destruct sd, sd'; cbn; intros; split; done || lia. Qed.

(** ** The invariant *)
Record FI (s : fstate) (T : gmap Z live) : Prop := {
  fi_levels : LI (f_books s) (f_pool s) (vol T);
  fi_orders : forall id v, T !! id = Some v -> 0 <= id < N_ORDERS /\ 0 <= v_sym v < N_BOOKS /\ 0 < v_price v < 2147483648 /\ 0 < v_qty v /\
    exists k, f_ords s !! id = Some (mkFord (v_sym v) (v_qty v) k) /\ lvl (f_books s) (v_sym v) (sprice v) k;
  fi_used : used (f_books s) (f_pool s);
}.
Lemma fi_positive s T : FI s T -> positive T.
Proof. intros H id v Hv. by destruct (fi_orders _ _ H _ _ Hv) as (_ & _ & _ & ? & _). Qed.

Notation OKS := (feed_ok N_ORDERS N_BOOKS 2147483648 TWO32).
Notation FITS := (fits N_ORDERS N_BOOKS 2147483648 TWO32).

Lemma get_ford_ok id s o : 0 <= id < N_ORDERS -> f_ords s !! id = Some o -> get_ford id s = Ok o.
Proof. intros H E. unfold get_ford. rewrite E. by replace ((0 <=? id) && (id <? N_ORDERS)) with true by lia. Qed.
Lemma get_ford_any id s : 0 <= id < N_ORDERS -> exists o, get_ford id s = Ok o.
Proof. intros H. unfold get_ford. replace ((0 <=? id) && (id <? N_ORDERS)) with true by lia. eauto. Qed.
Lemma get_fbook_ok i s : 0 <= i < N_BOOKS -> get_fbook i s = Ok (bk (f_books s) i).
Proof. intros H. unfold get_fbook. by replace ((0 <=? i) && (i <? N_BOOKS)) with true by lia. Qed.

Lemma vol_insert T id v sym p : T !! id = None -> 0 < v_price v -> p <> 0 ->
  vol (<[id := v]> T) sym p = upd (vol T) (v_sym v) (sprice v) (vol T (v_sym v) (sprice v) + v_qty v) sym p.
Proof.
  intros H Hv Hp. destruct (side_case p Hp) as (sd & p' & Hp' & ->). rewrite vol_at, volume_insert by done.
  destruct (decide (sym = v_sym v /\ signed sd p' = sprice v)) as [[-> E]|Hne].
  - rewrite E, upd_same. apply signed_inj in E as [-> ->]; [|done|done]. rewrite share_self. unfold sprice. rewrite vol_at by done. lia.
  - rewrite upd_other, vol_at by done. unfold share. rewrite decide_False; [done|]. intros (<- & <- & <-). by apply Hne.
Qed.
Lemma vol_less T id v q sym p : T !! id = Some v -> 0 < v_price v -> p <> 0 -> 0 <= q <= v_qty v ->
  vol (settle id (lower q v) T) sym p = upd (vol T) (v_sym v) (sprice v) (vol T (v_sym v) (sprice v) - q) sym p.
Proof.
  intros H Hv Hp Hq. destruct (side_case p Hp) as (sd & p' & Hp' & ->). rewrite vol_at by done.
  assert (E : volume (settle id (lower q v) T) sym sd p' = volume T sym sd p' - (if decide (v_sym v = sym /\ v_side v = sd /\ v_price v = p') then q else 0)).
  { rewrite (volume_delete T id v) by done. unfold settle. destruct (decide (0 < v_qty (lower q v))) as [Hl|Hl]; cbn in Hl.
    - rewrite <- insert_delete_insert, volume_insert by apply lookup_delete. unfold share, lower. cbn. destruct (decide _); lia.
    - unfold share. destruct (decide _); lia. }
  rewrite E. destruct (decide (sym = v_sym v /\ signed sd p' = sprice v)) as [[-> E2]|Hne].
  - rewrite E2, upd_same. apply signed_inj in E2 as [-> ->]; [|done|done]. rewrite decide_True by done. unfold sprice. by rewrite vol_at.
  - rewrite upd_other, vol_at by done. rewrite decide_False; [lia|]. intros (<- & <- & <-). by apply Hne.
Qed.

Lemma fast_add_ok s T id sym sd p q : FI s T -> T !! id = None -> FITS T id sym sd p q ->
  exists s', fast_add id sym (signed sd p) q s = Ok s' /\ FI s' (<[id := mkLive sym sd p q]> T) /\ grows (f_pool s) (f_pool s').
Proof.
  intros H Hid (Hi & Hs & Hp & Hq & Hc). pose proof (fi_positive _ _ H) as Hpos. set (v := mkLive sym sd p q).
  destruct (book_add_ok (f_books s) (f_pool s) (vol T) sym (signed sd p) q) as (k & b' & P' & E & Hli & Hl & Hkeep & HU & HG).
  { apply H. } { destruct sd; cbn; lia. } { done. } { rewrite vol_at by lia. by apply volume_nonneg. } { rewrite vol_at by lia. done. }
  destruct (get_ford_any id s Hi) as [o0 E0]. unfold fast_add. rewrite E0. cbn. rewrite get_fbook_ok by done. cbn. rewrite E. cbn.
  eexists. split; [done|]. split; [|done]. constructor; cbn; [| |by apply HU, H].
  - eapply li_ext; [exact Hli|]. intros i p' Hp'. apply (vol_insert T id v i p' Hid); [cbn; lia|done].
  - intros j w Hj. destruct (decide (j = id)) as [->|Hne].
    + rewrite lookup_insert in Hj. injection Hj as <-. cbn. split; [done|]. split; [done|]. split; [lia|]. split; [done|]. exists k. rewrite lookup_insert. done.
    + rewrite lookup_insert_ne in Hj by done. destruct (fi_orders _ _ H _ _ Hj) as (A1 & A2 & A3 & A4 & k' & A5 & A6).
      split; [done|]. split; [done|]. split; [done|]. split; [done|]. exists k'. rewrite lookup_insert_ne by done. split; [done|]. by apply Hkeep.
Qed.

(** taking [q] away from a live order: the book part, and the invariant with any new content of the
    order's slot that is right if the order is still live *)
Lemma fast_take_ok s T id v q : FI s T -> T !! id = Some v -> 0 <= q <= v_qty v ->
  exists k b' P', f_ords s !! id = Some (mkFord (v_sym v) (v_qty v) k) /\ lvl (f_books s) (v_sym v) (sprice v) k /\
    fbook_reduce k q (bk (f_books s) (v_sym v)) (f_pool s) = Ok (b', P') /\
    forall ords, (forall j, j <> id -> ords !! j = f_ords s !! j) -> (0 < v_qty v - q -> ords !! id = Some (mkFord (v_sym v) (v_qty v - q) k)) ->
      FI (mkFstate P' (<[v_sym v := b']> (f_books s)) ords) (settle id (lower q v) T) /\ length (p_mem P') = length (p_mem (f_pool s)).
Proof.
  intros H Hv Hq. pose proof (fi_positive _ _ H) as Hpos. destruct (fi_orders _ _ H _ _ Hv) as (A1 & A2 & A3 & A4 & k & A5 & A6).
  pose proof (volume_le T id v Hpos Hv) as Hle.
  destruct (book_reduce_fast (f_books s) (f_pool s) (vol T) (v_sym v) (sprice v) k q) as (b' & P' & E & Hli & Hkeep & HU & HG).
  { apply H. } { done. } { unfold sprice. rewrite vol_at by lia. lia. }
  exists k, b', P'. split; [done|]. split; [done|]. split; [done|]. intros ords Ho1 Ho2. split; [|done]. constructor; cbn; [| |by apply HU, H].
  - eapply li_ext; [exact Hli|]. intros i p' Hp'. apply vol_less; try done; lia.
  - intros j w Hj. unfold settle in Hj. destruct (decide (j = id)) as [->|Hne].
    + destruct (decide (0 < v_qty (lower q v))) as [Hl|Hl]; [|by rewrite lookup_delete in Hj]. rewrite lookup_insert in Hj. injection Hj as <-. cbn in *.
      split; [done|]. split; [done|]. split; [done|]. split; [done|]. exists k. split; [by apply Ho2|]. apply Hkeep; [done|]. right. unfold sprice. rewrite vol_at by lia. lia.
    + assert (Hj' : T !! j = Some w). { destruct (decide _); [by rewrite lookup_insert_ne in Hj|by rewrite lookup_delete_ne in Hj]. }
      destruct (fi_orders _ _ H _ _ Hj') as (B1 & B2 & B3 & B4 & k' & B5 & B6). split; [done|]. split; [done|]. split; [done|]. split; [done|].
      exists k'. split; [by rewrite Ho1|]. apply Hkeep; [done|]. destruct (decide (v_sym w = v_sym v /\ sprice w = sprice v)) as [[E1 E2]|]; [right|by left].
      apply signed_inj in E2 as [E2 E3]; [|lia|lia]. unfold sprice. rewrite vol_at by lia. rewrite (volume_delete T id v) by done. rewrite share_self.
      assert (Hw : delete id T !! j = Some w) by (by rewrite lookup_delete_ne). assert (positive (delete id T)) as Hpd. { intros x y Hx. apply lookup_delete_Some in Hx as [_ Hx]. by eapply Hpos. }
      pose proof (volume_le _ _ _ Hpd Hw) as Hle2. rewrite E1, E2, E3 in Hle2. lia.
Qed.
Lemma settle_none id v T : v_qty v = 0 -> settle id v T = delete id T.
Proof. intros H. unfold settle. rewrite decide_False; [done|lia]. Qed.
Lemma settle_some id v T : 0 < v_qty v -> settle id v T = <[id := v]> T.
Proof. intros H. unfold settle. by rewrite decide_True. Qed.

Lemma fast_price s T id v k p : FI s T -> T !! id = Some v -> lvl (f_books s) (v_sym v) (sprice v) k -> 0 < p < 2147483648 ->
  exists l, p_get k (f_pool s) = Ok l /\ (if fl_price l <? 0 then neg32 p else Ok p) = Ok (signed (v_side v) p).
Proof.
  intros H Hv Hl Hp. destruct (fi_orders _ _ H _ _ Hv) as (_ & _ & A3 & _). destruct (li_lvl _ _ _ (fi_levels _ _ H) _ _ _ Hl) as (Hm & _).
  unfold p_get. rewrite Hm. eexists. split; [done|]. cbn. unfold sprice. destruct (v_side v); cbn.
  - replace (v_price v <? 0) with false by lia. done.
  - replace (- v_price v <? 0) with true by lia. unfold neg32. by replace (p =? -2147483648) with false by lia.
Qed.

Lemma fast_replace_ok s T id v nid nsym p q : FI s T -> T !! id = Some v -> (nid = id \/ T !! nid = None) -> 0 < p < 2147483648 ->
  let sym := default (v_sym v) nsym in
  (q = 0 \/ FITS (delete id T) nid sym (v_side v) p q) ->
  exists s', fast_replace_to id nid nsym p q s = Ok s' /\ FI s' (settle nid (mkLive sym (v_side v) p q) (delete id T)) /\ grows (f_pool s) (f_pool s').
Proof.
  intros H Hv Hn Hp sym Hq. destruct (fi_orders _ _ H _ _ Hv) as (A1 & A2 & A3 & A4 & _).
  destruct (fast_take_ok s T id v (v_qty v) H Hv ltac:(lia)) as (k & b' & P' & E1 & E2 & E3 & HF).
  destruct (HF (f_ords s) ltac:(done) ltac:(lia)) as [HF' HL]. clear HF. rename HF' into HF. rewrite settle_none in HF by (cbn; lia).
  destruct (fast_price s T id v k p H Hv E2 Hp) as (l & El & Ep).
  unfold fast_replace_to. rewrite (get_ford_ok id s _ A1 E1). cbn. rewrite El. cbn. rewrite Ep. cbn. rewrite get_fbook_ok by done. cbn. rewrite E3. cbn.
  destruct Hq as [->|Hq].
  - cbn. eexists. split; [done|]. split; [|by left]. rewrite settle_none by done. rewrite (delete_notin (delete id T)); [done|].
    destruct Hn as [->|Hn]; [apply lookup_delete|]. destruct (decide (nid = id)) as [->|]; [apply lookup_delete|by rewrite lookup_delete_ne].
  - pose proof Hq as (B1 & B2 & B3 & B4 & B5). replace (0 <? q) with true by lia. rewrite settle_some by (cbn; lia).
    destruct (fast_add_ok (mkFstate P' (<[v_sym v := b']> (f_books s)) (f_ords s)) (delete id T) nid sym (v_side v) p q HF) as (s' & Es & Hs' & HG); try done;
      [|exists s'; split; [done|]; split; [done|]; destruct HG as [HG|HG]; [left; by rewrite HG|by right]]. destruct Hn as [->|Hn]; [apply lookup_delete|]. destruct (decide (nid = id)) as [->|]; [apply lookup_delete|by rewrite lookup_delete_ne].
Qed.
Lemma fast_modify_ok s T id v p q : FI s T -> T !! id = Some v -> 0 < p < 2147483648 ->
  (q = 0 \/ FITS (delete id T) id (v_sym v) (v_side v) p q) ->
  exists s', fast_modify id p q s = Ok s' /\ FI s' (settle id (mkLive (v_sym v) (v_side v) p q) T) /\ grows (f_pool s) (f_pool s').
Proof.
  intros H Hv Hp Hq. destruct (fi_orders _ _ H _ _ Hv) as (A1 & A2 & A3 & A4 & _).
  destruct (fast_take_ok s T id v (v_qty v) H Hv ltac:(lia)) as (k & b' & P' & E1 & E2 & E3 & HF).
  destruct (fast_price s T id v k p H Hv E2 Hp) as (l & El & Ep).
  unfold fast_modify. rewrite (get_ford_ok id s _ A1 E1). cbn. rewrite El. cbn. rewrite Ep. cbn. rewrite get_fbook_ok by done. cbn. rewrite E3. cbn.
  destruct Hq as [->|Hq].
  - cbn. eexists. split; [done|]. rewrite settle_none by done.
    specialize (HF (<[id := mkFord (v_sym v) 0 k]> (f_ords s))). rewrite settle_none in HF by (cbn; lia).
    destruct HF as [HF HL]; [intros j Hj; by rewrite lookup_insert_ne|lia|]. split; [done|by left].
  - destruct (HF (f_ords s) ltac:(done) ltac:(lia)) as [HF' HL]. clear HF. rename HF' into HF. rewrite settle_none in HF by (cbn; lia).
    pose proof Hq as (B1 & B2 & B3 & B4 & B5). replace (0 <? q) with true by lia. rewrite settle_some by (cbn; lia).
    destruct (fast_add_ok _ _ id (v_sym v) (v_side v) p q HF (lookup_delete _ _) Hq) as (s' & Es & Hs' & HG).
    unfold fast_add in Es. destruct (get_ford_any id (mkFstate P' (<[v_sym v := b']> (f_books s)) (f_ords s)) B1) as [o0 E0]. rewrite E0 in Es. cbn in Es.
    rewrite get_fbook_ok in Es by done. cbn in Es. rewrite bk_insert, decide_True in Es by done.
    destruct (fbook_add q (signed (v_side v) p) b' P') as [[[k2 b2] P2]| |]; cbn in Es; try done. injection Es as <-. cbn. eexists. split; [done|].
    rewrite insert_insert in Hs'. rewrite insert_delete_insert in Hs'. split; [exact Hs'|]. destruct HG as [HG|HG]; [left|by right]. cbn in *. by rewrite HG.
Qed.
Lemma fast_reduce_ok s T id v q : FI s T -> T !! id = Some v -> 0 <= q <= v_qty v ->
  exists s', fast_reduce id q s = Ok s' /\ FI s' (settle id (lower q v) T) /\ grows (f_pool s) (f_pool s').
Proof.
  intros H Hv Hq. destruct (fi_orders _ _ H _ _ Hv) as (A1 & A2 & A3 & A4 & _).
  assert (Hcap : v_qty v < TWO32).
  { pose proof (volume_le T id v (fi_positive _ _ H) Hv). destruct (fi_orders _ _ H _ _ Hv) as (_ & _ & _ & _ & k & _ & Hl).
    destruct (li_lvl _ _ _ (fi_levels _ _ H) _ _ _ Hl) as (_ & Hx & _). unfold sprice in Hx. rewrite vol_at in Hx by lia. lia. }
  destruct (fast_take_ok s T id v q H Hv Hq) as (k & b' & P' & E1 & E2 & E3 & HF).
  unfold fast_reduce. rewrite (get_ford_ok id s _ A1 E1). cbn. rewrite get_fbook_ok by done. cbn. rewrite E3. cbn. eexists. split; [done|].
  destruct (HF (<[id := mkFord (v_sym v) (u32 (v_qty v - q)) k]> (f_ords s))) as [HF' HL]; [intros j Hj; by rewrite lookup_insert_ne| |split; [done|by left]].
  intros _. rewrite lookup_insert. do 2 f_equal. unfold u32. apply Z.mod_small. lia.
Qed.
Lemma fast_delete_ok s T id v : FI s T -> T !! id = Some v -> exists s', fast_delete id s = Ok s' /\ FI s' (delete id T) /\ grows (f_pool s) (f_pool s').
Proof.
  intros H Hv. destruct (fi_orders _ _ H _ _ Hv) as (A1 & A2 & A3 & A4 & _).
  destruct (fast_take_ok s T id v (v_qty v) H Hv ltac:(lia)) as (k & b' & P' & E1 & E2 & E3 & HF).
  unfold fast_delete. rewrite (get_ford_ok id s _ A1 E1). cbn. rewrite get_fbook_ok by done. cbn. rewrite E3. cbn. eexists. split; [done|].
  destruct (HF (f_ords s) ltac:(done) ltac:(lia)) as [HF' HL]. rewrite settle_none in HF' by (cbn; lia). split; [done|by left].
Qed.
Lemma fast_book_ok s T sym : FI s T -> OKS T (FBook sym) -> exists s', fast_add_book sym s = Ok s' /\ FI s' T /\ grows (f_pool s) (f_pool s').
Proof.
  intros H [Hs Hno]. unfold fast_add_book. rewrite get_fbook_ok by done. cbn. eexists. split; [done|].
  assert (Hnl : forall p k, ~ lvl (f_books s) sym p k).
  { intros p k Hl. destruct (li_lvl _ _ _ (fi_levels _ _ H) _ _ _ Hl) as (_ & Hx & _). unfold vol in Hx. rewrite volume_none in Hx by done. lia. }
  assert (Hlv : forall i p k, lvl (<[sym := no_levels]> (f_books s)) i p k <-> lvl (f_books s) i p k).
  { intros i p k. unfold lvl. rewrite bk_insert. destruct (decide (i = sym)) as [->|]; [|done]. split.
    - unfold pick. cbn. destruct (0 <? p); intros Hx; by apply not_elem_of_nil in Hx.
    - intros Hx. by apply Hnl in Hx. }
  destruct H as [[H1 H2 H3 H4 H5 H6] H7 H8]. split; [|by left]. constructor; cbn.
  - constructor; try done.
    + intros i. rewrite bk_insert. destruct (decide _); [split; constructor|apply H1].
    + intros i. rewrite bk_insert. destruct (decide _); [split; constructor|apply H2].
    + intros i p k Hl. apply H3. by apply Hlv.
    + intros i p Hp Hv. destruct (H4 i p Hp Hv) as [k Hk]. exists k. by apply Hlv.
    + intros i p i' p' k Hl Hl'. eapply H5; apply Hlv; eassumption.
  - intros id v Hv. destruct (H7 _ _ Hv) as (A1 & A2 & A3 & A4 & k & A5 & A6). do 4 (split; [done|]). exists k. split; [done|]. by apply Hlv.
  - intros k Hk. destruct (H8 k Hk) as [|(i & p & Hl)]; [by left|]. right. exists i, p. by apply Hlv.
Qed.
Lemma fast_step_ok s T m : FI s T -> OKS T m -> exists s', fast_step m s = Ok s' /\ FI s' (track m T) /\ grows (f_pool s) (f_pool s').
Proof.
  intros H Hm. destruct m; cbn [fast_step track]; cbn [feed_ok] in Hm.
  - by apply fast_book_ok.
  - destruct Hm. by apply fast_add_ok.
  - destruct Hm as (v & Hv & Hq). rewrite Hv. by apply fast_reduce_ok.
  - destruct Hm as (v & Hv & Hq). rewrite Hv. by apply fast_reduce_ok.
  - destruct Hm as (v & Hv & Hq). rewrite Hv. by apply fast_reduce_ok.
  - destruct Hm as (v & Hv & Hp & Hq). rewrite Hv. by apply fast_modify_ok.
  - destruct Hm as (v & Hv & Hn & Hp & Hq). rewrite Hv. by apply (fast_replace_ok s T id v nid None).
  - destruct Hm as (v & Hv & Hn & Hp & Hq). rewrite Hv. by apply (fast_replace_ok s T id v nid (Some sym)).
  - destruct Hm as (v & Hv). by apply (fast_delete_ok s T id v).
Qed.
Lemma fast_run_ok ms : forall s T, FI s T -> feeds_ok N_ORDERS N_BOOKS 2147483648 TWO32 T ms -> exists s', fast_run ms s = Ok s' /\ FI s' (track_all T ms).
Proof.
  induction ms as [|m ms IH]; intros s T H Hok; [by exists s|]. destruct Hok as [Hm Hms]. destruct (fast_step_ok s T m H Hm) as (s1 & E & H1 & _).
  cbn. rewrite E. cbn. by apply IH.
Qed.
Lemma fast_init_ok : FI fast_init ∅.
Proof.
  constructor; [|intros id v Hv; by rewrite lookup_empty in Hv|intros k Hk; cbn in Hk; lia]. constructor; cbn.
  - intros i. unfold bk. rewrite lookup_empty. split; constructor.
  - intros i. unfold bk. rewrite lookup_empty. split; constructor.
  - intros i p k Hl. unfold lvl, bk in Hl. rewrite lookup_empty in Hl. cbn in Hl. unfold pick in Hl. cbn in Hl. destruct (0 <? p); by apply not_elem_of_nil in Hl.
  - intros i p Hp Hv. unfold vol in Hv. rewrite volume_empty in Hv. lia.
  - intros i p i' p' k Hl. unfold lvl, bk in Hl. rewrite lookup_empty in Hl. cbn in Hl. unfold pick in Hl. cbn in Hl. destruct (0 <? p); by apply not_elem_of_nil in Hl.
  - split; constructor.
Qed.

(** ** C52 *)
Lemma raw_side s T sym sd : FI s T -> let l := match sd with BUY => fb_bids | SELL => fb_asks end (book_at sym s) in
  desc l /\ Forall (fun x => 0 < signed sd (fst x)) l /\ (forall x, x ∈ l -> lvl (f_books s) sym (fst x) (snd x)) /\
  (forall p k, 0 < p -> lvl (f_books s) sym (signed sd p) k -> (signed sd p, k) ∈ l).
Proof.
  intros [[H1 H2 _ _ _ _] _ _]. cbn. change (book_at sym s) with (bk (f_books s) sym). destruct sd.
  - destruct (H1 sym) as [Hd Hf]. split; [done|]. split; [done|]. split.
    + intros [p k] Hx. unfold lvl, pick. rewrite Forall_forall in Hf. specialize (Hf _ Hx). cbn in *. by replace (0 <? p) with true by lia.
    + intros p k Hp. cbn. unfold lvl, pick. by replace (0 <? p) with true by lia.
  - destruct (H2 sym) as [Hd Hf]. split; [done|]. split; [eapply Forall_impl; [exact Hf|]; cbn; lia|]. split.
    + intros [p k] Hx. unfold lvl, pick. rewrite Forall_forall in Hf. specialize (Hf _ Hx). cbn in *. by replace (0 <? p) with false by lia.
    + intros p k Hp. cbn. unfold lvl, pick. by replace (0 <? - p) with false by lia.
Qed.
Lemma fast_levels_eq s T sym sd : FI s T -> let l := match sd with BUY => fb_bids | SELL => fb_asks end (book_at sym s) in
  fast_levels s sym sd = map (fun x => (signed sd (fst x), volume T sym sd (signed sd (fst x)))) l.
Proof.
  intros H l. destruct (raw_side s T sym sd H) as (_ & Hf & Hl & _). fold l in Hf, Hl. unfold fast_levels. fold l. clearbody l.
  induction l as [|[p k] l IH]; [done|]. apply Forall_cons in Hf as [Hp Hf]. cbn in *.
  destruct (li_lvl _ _ _ (fi_levels _ _ H) _ _ _ (Hl (p, k) ltac:(left))) as (Hm & _). cbn in Hm. rewrite Hm. cbn.
  rewrite IH; [|done|intros; apply Hl; by right]. f_equal. f_equal. rewrite <- vol_at by done. f_equal. by destruct sd; cbn; lia.
Qed.
Lemma fast_depth s T sym sd : FI s T -> depth_of T sym sd (fast_levels s sym sd).
Proof.
  intros H. rewrite (fast_levels_eq _ _ _ _ H). destruct (raw_side s T sym sd H) as (Hd & Hf & Hl & Hin). cbn in *.
  set (l := match sd with BUY => fb_bids | SELL => fb_asks end (book_at sym s)) in *. split.
  - clear Hin Hl. clearbody l. induction l as [|x l IH]; cbn; [constructor|]. apply desc_cons in Hd as [Hd Hx]. apply Forall_cons in Hf as [_ Hf].
    constructor; [by apply IH|]. apply Forall_forall. intros p Hp. rewrite map_map in Hp. apply elem_of_list_fmap in Hp as (y & -> & Hy). cbn.
    rewrite Forall_forall in Hx. specialize (Hx _ Hy). destruct sd; cbn; lia.
  - intros p v. split.
    + intros Hp. apply elem_of_list_fmap in Hp as ([p' k] & [= -> ->] & Hx). cbn. split; [done|]. rewrite Forall_forall in Hf. specialize (Hf _ Hx). cbn in Hf.
      destruct (li_lvl _ _ _ (fi_levels _ _ H) _ _ _ (Hl _ Hx)) as (_ & Hv & _). cbn in Hv. rewrite <- vol_at by done. replace (signed sd (signed sd p')) with p' by (destruct sd; cbn; lia). lia.
    + intros [-> Hv]. assert (Hp : 0 < p).
      { destruct (decide (0 < p)) as [|Hn]; [done|]. exfalso. assert (volume T sym sd p = 0); [|lia]. clear -H Hn. pose proof (fi_orders _ _ H) as Ho. clear H.
        induction T as [|i w T Hi IH] using map_ind; [apply volume_empty|]. rewrite volume_insert by done. destruct (Ho i w ltac:(by rewrite lookup_insert)) as (_ & _ & Hp & _).
        unfold share. rewrite decide_False by (intros (_ & _ & ?); lia). rewrite IH; [done|]. intros id v Hv. apply Ho. rewrite lookup_insert_ne; [done|]. congruence. }
      rewrite <- vol_at in Hv by done. destruct (li_all _ _ _ (fi_levels _ _ H) sym (signed sd p) ltac:(destruct sd; cbn; lia) Hv) as [k Hk].
      apply elem_of_list_fmap. exists (signed sd p, k). split; [|by apply Hin]. cbn. f_equal; [|f_equal]; destruct sd; cbn; lia.
Qed.
Notation OKF := (feeds_ok N_ORDERS N_BOOKS 2147483648 TWO32 ∅).
(** After any run of the feed every book shows, on both sides, exactly the prices with live volume,
    best first, each with the total of the live orders there. *)
Theorem C52_depth ms : OKF ms ->
  exists s, fast_run ms fast_init = Ok s /\ forall sym sd, depth_of (track_all ∅ ms) sym sd (fast_levels s sym sd).
Proof. intros H. destruct (fast_run_ok ms fast_init ∅ fast_init_ok H) as (s & E & HF). exists s. split; [done|]. intros. by apply fast_depth. Qed.
Print Assumptions C52_depth.
(** best_bid() and best_ask() are the first of these. *)
Theorem C52_best ms s sym : OKF ms -> fast_run ms fast_init = Ok s ->
  best_bid (book_at sym s) (f_pool s) = (fun x => mkFl (fst x) (snd x)) <$> head (fast_levels s sym BUY) /\
  best_ask (book_at sym s) (f_pool s) = (fun x => mkFl (- fst x) (snd x)) <$> head (fast_levels s sym SELL).
Proof.
  intros H E. destruct (fast_run_ok ms fast_init ∅ fast_init_ok H) as (s' & E' & HF). rewrite E in E'. injection E' as <-.
  rewrite !(fast_levels_eq _ _ _ _ HF). destruct (raw_side s _ sym BUY HF) as (_ & Hf1 & Hb & _). destruct (raw_side s _ sym SELL HF) as (_ & Hf2 & Ha & _). cbn in *.
  unfold best_bid, best_ask. split.
  - destruct (fb_bids (book_at sym s)) as [|[p k] l]; cbn; [done|]. destruct (li_lvl _ _ _ (fi_levels _ _ HF) _ _ _ (Hb (p, k) ltac:(left))) as (Hm & _). cbn in Hm. rewrite Hm.
    apply Forall_cons in Hf1 as [Hp _]. cbn in Hp. rewrite <- (vol_at _ _ BUY) by done. done.
  - destruct (fb_asks (book_at sym s)) as [|[p k] l]; cbn; [done|]. destruct (li_lvl _ _ _ (fi_levels _ _ HF) _ _ _ (Ha (p, k) ltac:(left))) as (Hm & _). cbn in Hm. rewrite Hm.
    apply Forall_cons in Hf2 as [Hp _]. cbn in Hp. rewrite <- (vol_at _ _ SELL) by done. cbn. by rewrite Z.opp_involutive.
Qed.
Print Assumptions C52_best.

(** *** The level pool: no memory is lost *)
(** the slots of the pool that hold a level of some book *)
Definition slots_of (b : fbook) : list nat := map snd (fb_bids b) ++ map snd (fb_asks b).
Definition slots (s : fstate) : list nat := flat_map (fun x => slots_of (snd x)) (map_to_list (f_books s)).
Lemma elem_slots_of s T i b k : FI s T -> f_books s !! i = Some b -> k ∈ slots_of b <-> exists p, lvl (f_books s) i p k.
Proof.
  intros H Hb. assert (Eb : bk (f_books s) i = b) by (unfold bk; by rewrite Hb).
  pose proof (li_bids _ _ _ (fi_levels _ _ H) i) as [_ F1]. pose proof (li_asks _ _ _ (fi_levels _ _ H) i) as [_ F2]. rewrite Eb in F1, F2. rewrite Forall_forall in F1, F2.
  unfold slots_of. rewrite elem_of_app, !elem_of_list_fmap. unfold lvl. rewrite Eb. unfold pick. split.
  - intros [([p j] & -> & Hx)|([p j] & -> & Hx)]; exists p; cbn.
    + specialize (F1 _ Hx). cbn in F1. by replace (0 <? p) with true by lia.
    + specialize (F2 _ Hx). cbn in F2. by replace (0 <? p) with false by lia.
  - intros [p Hx]. destruct (0 <? p); [left|right]; by exists (p, k).
Qed.
Lemma elem_slots s T k : FI s T -> k ∈ slots s <-> exists i p, lvl (f_books s) i p k.
Proof.
  intros H. unfold slots. rewrite elem_of_list_In, in_flat_map. split.
  - intros ([i b] & Hin & Hk). apply elem_of_list_In in Hin, Hk. apply elem_of_map_to_list in Hin. cbn in Hk. exists i. by eapply elem_slots_of.
  - intros (i & p & Hl). destruct (f_books s !! i) as [b|] eqn:Eb.
    + exists (i, b). split; [apply elem_of_list_In; by apply elem_of_map_to_list|]. apply elem_of_list_In. cbn. apply (elem_slots_of s T i b k H Eb). by exists p.
    + exfalso. unfold lvl, bk in Hl. rewrite Eb in Hl. unfold pick in Hl. cbn in Hl. destruct (0 <? p); by apply not_elem_of_nil in Hl.
Qed.
Lemma desc_slots_nodup s T i (l : list plevel) : FI s T -> desc l -> (forall x, x ∈ l -> lvl (f_books s) i (fst x) (snd x)) -> NoDup (map snd l).
Proof.
  intros H. induction l as [|x l IH]; intros Hd Hl; cbn; constructor.
  - intros Hx. apply elem_of_list_fmap in Hx as (y & E & Hy). assert (Hlx : lvl (f_books s) i (fst x) (snd x)) by (apply Hl; left). assert (Hly : lvl (f_books s) i (fst y) (snd y)) by (apply Hl; by right).
    rewrite E in Hlx. destruct (li_inj _ _ _ (fi_levels _ _ H) _ _ _ _ _ Hlx Hly) as [_ E2]. pose proof (desc_elem _ _ _ Hd Hy). lia.
  - apply desc_cons in Hd as [Hd _]. apply IH; [done|]. intros y Hy. apply Hl. by right.
Qed.
Lemma slots_of_nodup s T i b : FI s T -> f_books s !! i = Some b -> NoDup (slots_of b).
Proof.
  intros H Hb. assert (Eb : bk (f_books s) i = b) by (unfold bk; by rewrite Hb).
  pose proof (li_bids _ _ _ (fi_levels _ _ H) i) as [D1 F1]. pose proof (li_asks _ _ _ (fi_levels _ _ H) i) as [D2 F2]. rewrite Eb in D1, D2, F1, F2. rewrite Forall_forall in F1, F2.
  assert (L1 : forall x, x ∈ fb_bids b -> lvl (f_books s) i (fst x) (snd x)).
  { intros [p k] Hx. specialize (F1 _ Hx). cbn in *. unfold lvl, pick. rewrite Eb. by replace (0 <? p) with true by lia. }
  assert (L2 : forall x, x ∈ fb_asks b -> lvl (f_books s) i (fst x) (snd x)).
  { intros [p k] Hx. specialize (F2 _ Hx). cbn in *. unfold lvl, pick. rewrite Eb. by replace (0 <? p) with false by lia. }
  apply NoDup_app. split; [by eapply desc_slots_nodup|]. split; [|by eapply desc_slots_nodup].
  intros k Hk1 Hk2. apply elem_of_list_fmap in Hk1 as (x & -> & Hx), Hk2 as (y & E & Hy). pose proof (L1 _ Hx) as A. pose proof (L2 _ Hy) as B. rewrite E in A.
  destruct (li_inj _ _ _ (fi_levels _ _ H) _ _ _ _ _ A B) as [_ E2]. specialize (F1 _ Hx). specialize (F2 _ Hy). lia.
Qed.
Lemma slots_nodup s T : FI s T -> NoDup (slots s).
Proof.
  intros H. unfold slots. assert (G : forall l : list (Z * fbook), NoDup (map fst l) -> (forall i b, (i, b) ∈ l -> f_books s !! i = Some b) -> NoDup (flat_map (fun x => slots_of (snd x)) l)).
  { induction l as [|[i b] l IH]; intros Hn Hl; cbn; [constructor|]. cbn in Hn. apply NoDup_cons in Hn as [Hi Hn]. apply NoDup_app.
    split; [eapply slots_of_nodup; [done|]; apply (Hl i); left|]. split; [|apply IH; [done|]; intros j c Hj; apply Hl; by right].
    intros k Hk1 Hk2. apply elem_of_list_In, in_flat_map in Hk2 as ([j c] & Hj & Hk2). apply elem_of_list_In in Hj, Hk2. cbn in Hk2.
    assert (Bi : f_books s !! i = Some b) by (apply Hl; left). assert (Bj : f_books s !! j = Some c) by (apply Hl; by right).
    apply (elem_slots_of s T i b k H Bi) in Hk1 as [p Hp]. apply (elem_slots_of s T j c k H Bj) in Hk2 as [p' Hp'].
    destruct (li_inj _ _ _ (fi_levels _ _ H) _ _ _ _ _ Hp Hp') as [-> _]. apply Hi. apply elem_of_list_fmap. by exists (j, c). }
  apply G; [apply NoDup_fst_map_to_list|]. intros i b Hb. by apply elem_of_map_to_list.
Qed.
Lemma pool_perm s T : FI s T -> p_free (f_pool s) ++ slots s ≡ₚ seq 0 (length (p_mem (f_pool s))).
Proof.
  intros H. pose proof (li_free _ _ _ (fi_levels _ _ H)) as [N1 N2]. rewrite Forall_forall in N2. apply NoDup_Permutation.
  - apply NoDup_app. split; [done|]. split; [|by eapply slots_nodup]. intros k Hk Hs. apply (elem_slots s T k H) in Hs as (i & p & Hl).
    by destruct (li_lvl _ _ _ (fi_levels _ _ H) _ _ _ Hl) as (_ & _ & Hn).
  - apply NoDup_seq.
  - intros k. rewrite elem_of_app, elem_of_seq. split.
    + intros [Hk|Hk]; [apply N2 in Hk; lia|]. apply (elem_slots s T k H) in Hk as (i & p & Hl). destruct (li_lvl _ _ _ (fi_levels _ _ H) _ _ _ Hl) as (Hm & _). apply lookup_lt_Some in Hm. lia.
    + intros Hk. destruct (fi_used _ _ H k ltac:(lia)) as [|Hl]; [by left|right]. by apply (elem_slots s T k H).
Qed.
(** Every slot of the level pool is free or holds exactly one level of one book. *)
Theorem C52_pool ms s : OKF ms -> fast_run ms fast_init = Ok s ->
  p_free (f_pool s) ++ slots s ≡ₚ seq 0 (length (p_mem (f_pool s))).
Proof.
  intros H E. destruct (fast_run_ok ms fast_init ∅ fast_init_ok H) as (s' & E' & HF). rewrite E in E'. injection E' as <-. by eapply pool_perm.
Qed.
Print Assumptions C52_pool.
Lemma fast_run_app ms1 ms2 : forall s, fast_run (ms1 ++ ms2) s = do s <- fast_run ms1 s; fast_run ms2 s.
Proof. induction ms1 as [|m ms1 IH]; intros s; cbn; [done|]. destruct (fast_step m s); cbn; [apply IH|done|done]. Qed.
Lemma pool_peak ms : forall s T n, FI s T -> feeds_ok N_ORDERS N_BOOKS 2147483648 TWO32 T ms -> forall s', fast_run ms s = Ok s' ->
  length (p_mem (f_pool s)) = n -> length (p_mem (f_pool s')) = n \/
  exists ms1 ms2 s1, ms = ms1 ++ ms2 /\ fast_run ms1 s = Ok s1 /\ length (p_mem (f_pool s')) = length (slots s1).
Proof.
  induction ms as [|m ms IH]; intros s T n H Hok s' E Hn; [injection E as <-; by left|]. destruct Hok as [Hm Hms].
  destruct (fast_step_ok s T m H Hm) as (s1 & E1 & H1 & HG). cbn in E. rewrite E1 in E. cbn in E.
  destruct (IH s1 (track m T) _ H1 Hms s' E eq_refl) as [Hl|(ms1 & ms2 & s2 & -> & E2 & Hl)].
  - destruct HG as [HG|HG]; [left; lia|]. right. exists [m], ms, s1. split; [done|]. split; [cbn; by rewrite E1|].
    pose proof (Permutation_length (pool_perm _ _ H1)) as HP. rewrite HG, seq_length in HP. cbn in HP. lia.
  - right. exists (m :: ms1), ms2, s2. split; [done|]. split; [|done]. cbn. by rewrite E1.
Qed.
(** The pool never has more slots than the largest number of levels that were in use at the same
    time (after some message of the feed). *)
Theorem C52_memory ms s : OKF ms -> fast_run ms fast_init = Ok s ->
  exists ms1 ms2 s1, ms = ms1 ++ ms2 /\ fast_run ms1 fast_init = Ok s1 /\ length (p_mem (f_pool s)) = length (slots s1).
Proof.
  intros H E. destruct (pool_peak ms fast_init ∅ 0%nat fast_init_ok H s E eq_refl) as [Hl|?]; [|done].
  exists [], ms, fast_init. split; [done|]. split; [done|]. rewrite Hl. reflexivity.
Qed.
Print Assumptions C52_memory.

Definition ex_feed : list feed := [FBook 1; FBook 2; FAdd 10 1 BUY 100 5; FAdd 11 1 BUY 101 7; FAdd 12 1 BUY 100 3; FAdd 13 1 SELL 105 4; FAdd 14 2 SELL 50 9;
  FExecute 11 7; FReduce 10 2; FReplace 13 15 104 6; FModify 14 49 1; FAdd 16 1 BUY 99 1; FDelete 12].
(** The guards, checked by computation. *)
Definition fitsb (T : gmap Z live) (id sym : Z) (sd : oside) (p q : Z) : bool :=
  (0 <=? id) && (id <? N_ORDERS) && ((0 <=? sym) && (sym <? N_BOOKS)) && ((0 <? p) && (p <? 2147483648)) && (0 <? q) && (volume T sym sd p + q <? TWO32).
Definition free_id (T : gmap Z live) (id nid : Z) : bool := (nid =? id) || match T !! nid with None => true | Some _ => false end.
Definition feed_okb (T : gmap Z live) (m : feed) : bool :=
  match m with
  | FBook sym => (0 <=? sym) && (sym <? N_BOOKS) && forallb (fun x => negb (v_sym (snd x) =? sym)) (map_to_list T)
  | FAdd id sym sd p q => match T !! id with None => fitsb T id sym sd p q | Some _ => false end
  | FReduce id q | FExecute id q | FExecuteAt id _ q => match T !! id with Some v => (0 <=? q) && (q <=? v_qty v) | None => false end
  | FModify id p q => match T !! id with Some v => (0 <? p) && (p <? 2147483648) && ((q =? 0) || fitsb (delete id T) id (v_sym v) (v_side v) p q) | None => false end
  | FReplace id nid p q => match T !! id with Some v => free_id T id nid && ((0 <? p) && (p <? 2147483648)) && ((q =? 0) || fitsb (delete id T) nid (v_sym v) (v_side v) p q) | None => false end
  | FReplaceTo id nid sym p q => match T !! id with Some v => free_id T id nid && ((0 <? p) && (p <? 2147483648)) && ((q =? 0) || fitsb (delete id T) nid sym (v_side v) p q) | None => false end
  | FDelete id => match T !! id with Some _ => true | None => false end
  end.
Fixpoint feeds_okb (T : gmap Z live) (ms : list feed) : bool :=
  match ms with [] => true | m :: ms => feed_okb T m && feeds_okb (track m T) ms end.
Lemma fitsb_ok T id sym sd p q : fitsb T id sym sd p q = true -> FITS T id sym sd p q.
Proof. unfold fitsb, fits. lia. Qed.
Lemma free_id_ok T id nid : free_id T id nid = true -> nid = id \/ T !! nid = None.
Proof. unfold free_id. destruct (T !! nid); [|by right]. intros H. left. lia. Qed.
Lemma feed_okb_ok T m : feed_okb T m = true -> OKS T m.
Proof.
  destruct m; cbn [feed_okb feed_ok].
  - intros [H1 H2]%andb_prop. split; [lia|]. intros id v Hv E. apply elem_of_map_to_list in Hv. apply elem_of_list_In in Hv.
    pose proof (proj1 (forallb_forall _ _) H2 _ Hv) as H. cbn in H. rewrite E in H. lia.
  - destruct (T !! id) eqn:E; [done|]. intros H. split; [done|]. by apply fitsb_ok.
  - destruct (T !! id) as [v|] eqn:E; [|done]. intros H. exists v. split; [done|lia].
  - destruct (T !! id) as [v|] eqn:E; [|done]. intros H. exists v. split; [done|lia].
  - destruct (T !! id) as [v|] eqn:E; [|done]. intros H. exists v. split; [done|lia].
  - destruct (T !! id) as [v|] eqn:E; [|done]. intros [H1 H2]%andb_prop. exists v. split; [done|]. split; [lia|]. apply orb_prop in H2 as [H2|H2]; [left; lia|right; by apply fitsb_ok].
  - destruct (T !! id) as [v|] eqn:E; [|done]. intros [[H0 H1]%andb_prop H2]%andb_prop. exists v. split; [done|]. split; [by apply free_id_ok|]. split; [lia|]. apply orb_prop in H2 as [H2|H2]; [left; lia|right; by apply fitsb_ok].
  - destruct (T !! id) as [v|] eqn:E; [|done]. intros [[H0 H1]%andb_prop H2]%andb_prop. exists v. split; [done|]. split; [by apply free_id_ok|]. split; [lia|]. apply orb_prop in H2 as [H2|H2]; [left; lia|right; by apply fitsb_ok].
  - destruct (T !! id) as [v|] eqn:E; [|done]. intros _. by exists v.
Qed.
Lemma feeds_okb_ok ms : forall T, feeds_okb T ms = true -> feeds_ok N_ORDERS N_BOOKS 2147483648 TWO32 T ms.
Proof. induction ms as [|m ms IH]; intros T H; [done|]. apply andb_prop in H as [H1 H2]. split; [by apply feed_okb_ok|by apply IH]. Qed.

Example C52_example : OKF ex_feed /\ exists s, fast_run ex_feed fast_init = Ok s /\
  fast_levels s 1 BUY = [(100, 3); (99, 1)] /\ fast_levels s 1 SELL = [(104, 6)] /\ fast_levels s 2 SELL = [(49, 1)].
Proof. split; [apply feeds_okb_ok; vm_compute; reflexivity|]. eexists. split; [vm_compute; reflexivity|]. repeat split; vm_compute; reflexivity. Qed.

Example C52_pool_example : exists s, fast_run (ex_feed ++ [FDelete 16]) fast_init = Ok s /\ OKF (ex_feed ++ [FDelete 16]) /\ length (slots s) = 3%nat /\ length (p_mem (f_pool s)) = 4%nat.
Proof. eexists. split; [vm_compute; reflexivity|]. split; [apply feeds_okb_ok; vm_compute; reflexivity|]. split; vm_compute; reflexivity. Qed.

(** Deleting an order that has been executed completely returns its level to the pool twice: the
    next two levels, of different books, are then one and the same. *)
Definition gone_feed : list feed := [FBook 1; FBook 2; FAdd 10 1 BUY 100 5; FExecute 10 5].
Theorem C52_gone_order_refuted : exists s, OKF gone_feed /\ track_all ∅ gone_feed = ∅ /\
  fast_run (gone_feed ++ [FDelete 10; FAdd 11 1 BUY 100 5; FAdd 12 2 SELL 50 7]) fast_init = Ok s /\
  fast_levels s 1 BUY = [(100, 7)] /\ fast_levels s 2 SELL = [(50, 7)].
Proof.
  eexists. split; [apply feeds_okb_ok; vm_compute; reflexivity|]. split; [apply (bool_decide_unpack _); vm_compute; exact I|]. split; [vm_compute; reflexivity|].
  split; vm_compute; reflexivity.
Qed.
Print Assumptions C52_gone_order_refuted.
