(** * FastOk.v -- the level structure of the aggressive manager (Fast.v) is kept in order. *)
From Coq Require Import ZifyBool Sorting.Sorted.
From stdpp Require Import fin_maps.
From Verif Require Import Types Fast Feed.

(** ** One side: strictly descending signed prices, best first *)
Definition desc (l : list plevel) : Prop := StronglySorted (fun a b => fst b < fst a) l.
Lemma desc_cons x l : desc (x :: l) <-> desc l /\ Forall (fun b => fst b < fst x) l.
Proof. split; [apply StronglySorted_inv|]. intros [? ?]. by constructor. Qed.
Lemma desc_elem x l y : desc (x :: l) -> y ∈ l -> fst y < fst x.
Proof. intros [_ H]%desc_cons Hy. rewrite Forall_forall in H. by apply H. Qed.
Lemma search_some p k l : search p l = Some k -> (p, k) ∈ l.
Proof.
  induction l as [|[p' k'] l IH]; cbn; [done|]. destruct (Z.eqb_spec p' p) as [->|]; [intros [= ->]; left|].
  destruct (p' <? p); [done|]. intros H. right. by apply IH.
Qed.
Lemma search_none p l : desc l -> search p l = None -> forall k, (p, k) ∉ l.
Proof.
  induction l as [|[p' k'] l IH]; cbn; intros Hd Hs k Hin; [by apply not_elem_of_nil in Hin|].
  destruct (Z.eqb_spec p' p) as [->|Hne]; [done|]. apply elem_of_cons in Hin as [[= -> ->]|Hin]; [done|].
  destruct (Z.ltb_spec p' p) as [Hlt|].
  - pose proof (desc_elem _ _ _ Hd Hin). cbn in *. lia.
  - apply desc_cons in Hd as [Hd _]. by apply (IH Hd Hs k).
Qed.
Lemma desc_unique p k k' l : desc l -> (p, k) ∈ l -> (p, k') ∈ l -> k = k'.
Proof.
  induction l as [|x l IH]; intros Hd H1 H2; [by apply not_elem_of_nil in H1|].
  apply elem_of_cons in H1, H2. destruct H1 as [E1|H1], H2 as [E2|H2].
  - congruence.
  - pose proof (desc_elem _ _ _ Hd H2). subst x. cbn in *. lia.
  - pose proof (desc_elem _ _ _ Hd H1). subst x. cbn in *. lia.
  - apply desc_cons in Hd as [Hd _]. by apply IH.
Qed.
Lemma elem_insert p k l x : x ∈ insert_level p k l <-> x = (p, k) \/ x ∈ l.
Proof.
  induction l as [|[p' k'] l IH]; cbn.
  - rewrite elem_of_list_singleton, elem_of_nil. tauto.
  - destruct (p' <? p); rewrite !elem_of_cons; [tauto|]. rewrite IH. tauto.
Qed.
Lemma insert_desc p k l : desc l -> (forall k', (p, k') ∉ l) -> desc (insert_level p k l).
Proof.
  induction l as [|[p' k'] l IH]; intros Hd Hn; cbn; [repeat constructor|].
  destruct (Z.ltb_spec p' p) as [Hlt|Hge].
  - apply desc_cons. split; [done|]. apply Forall_forall. intros y Hy. apply elem_of_cons in Hy as [->|Hy]; [done|].
    pose proof (desc_elem _ _ _ Hd Hy). cbn in *. lia.
  - assert (Hne : p' <> p). { intros ->. apply (Hn k'). left. } apply desc_cons in Hd as [Hd Hf]. apply desc_cons. split.
    + apply IH; [done|]. intros j Hj. apply (Hn j). by right.
    + apply Forall_forall. intros y Hy. apply elem_insert in Hy as [->|Hy]; [cbn; lia|]. rewrite Forall_forall in Hf. by apply Hf.
Qed.
Lemma elem_erase p l x : desc l -> x ∈ erase p l <-> x ∈ l /\ fst x <> p.
Proof.
  induction l as [|[p' k'] l IH]; intros Hd; cbn.
  - rewrite elem_of_nil. tauto.
  - pose proof (desc_elem _ _ x Hd) as Hx. pose proof Hd as [Hd' _]%desc_cons. specialize (IH Hd'). destruct (Z.eqb_spec p' p) as [->|Hne]; rewrite !elem_of_cons.
    + split; [intros H; specialize (Hx H); cbn in Hx; split; [by right|lia]|]. intros [[->|H] Hp]; [done|done].
    + rewrite IH. split; [|tauto]. intros [->|H]; [|tauto]. split; [by left|done].
Qed.
Lemma erase_desc p l : desc l -> desc (erase p l).
Proof.
  induction l as [|[p' k'] l IH]; intros Hd; cbn; [done|]. pose proof Hd as [Hd' Hf]%desc_cons. destruct (_ =? _); [done|].
  apply desc_cons. split; [by apply IH|]. apply Forall_forall. intros y Hy. apply elem_erase in Hy as [Hy _]; [|done]. rewrite Forall_forall in Hf. by apply Hf.
Qed.

(** ** All levels of all books; [V sym p] is the volume at the signed price [p] *)
Definition bk (B : gmap Z fbook) (i : Z) : fbook := default no_levels (B !! i).
Definition lvl (B : gmap Z fbook) (i p : Z) (k : nat) : Prop := (p, k) ∈ pick p (bk B i).
Record LI (B : gmap Z fbook) (P : fpool) (V : Z -> Z -> Z) : Prop := {
  li_bids : forall i, desc (fb_bids (bk B i)) /\ Forall (fun x => 0 < fst x) (fb_bids (bk B i));
  li_asks : forall i, desc (fb_asks (bk B i)) /\ Forall (fun x => fst x < 0) (fb_asks (bk B i));
  li_lvl : forall i p k, lvl B i p k -> p_mem P !! k = Some (mkFl p (V i p)) /\ 0 < V i p < TWO32 /\ k ∉ p_free P;
  li_all : forall i p, p <> 0 -> 0 < V i p -> exists k, lvl B i p k;
  li_inj : forall i p i' p' k, lvl B i p k -> lvl B i' p' k -> i = i' /\ p = p';
  li_free : NoDup (p_free P) /\ Forall (fun k => (k < length (p_mem P))%nat) (p_free P);
}.
Lemma li_pick B P V i p : LI B P V -> desc (pick p (bk B i)).
Proof. intros [H1 H2 _ _ _ _]. unfold pick. destruct (0 <? p); [apply H1|apply H2]. Qed.
Lemma li_ext B P V V' : LI B P V -> (forall i p, p <> 0 -> V' i p = V i p) -> LI B P V'.
Proof.
  intros [H1 H2 H3 H4 H5 H6] E. assert (Hz : forall i p k, lvl B i p k -> p <> 0).
  { intros i p k Hl ->. unfold lvl, pick in Hl. cbn in Hl. destruct (H2 i) as [_ Hf]. rewrite Forall_forall in Hf. by apply Hf in Hl. }
  constructor; try done.
  - intros i p k Hl. rewrite E by (by eapply Hz). by apply H3.
  - intros i p Hp Hv. rewrite E in Hv by done. by apply H4.
Qed.
Lemma lvl_nz B P V i p k : LI B P V -> lvl B i p k -> p <> 0.
Proof. intros [H1 H2 _ _ _ _] Hl ->. unfold lvl, pick in Hl. cbn in Hl. destruct (H2 i) as [_ Hf]. rewrite Forall_forall in Hf. by apply Hf in Hl. Qed.
Definition upd (V : Z -> Z -> Z) (i p v : Z) : Z -> Z -> Z := fun i' p' => if decide (i' = i /\ p' = p) then v else V i' p'.
Lemma upd_same V i p v : upd V i p v i p = v.
Proof. unfold upd. by rewrite decide_True. Qed.
Lemma upd_other V i p v i' p' : ~ (i' = i /\ p' = p) -> upd V i p v i' p' = V i' p'.
Proof. intros H. unfold upd. by rewrite decide_False. Qed.

Lemma bk_insert B i b j : bk (<[i := b]> B) j = if decide (j = i) then b else bk B j.
Proof. unfold bk. destruct (decide _) as [->|]; [by rewrite lookup_insert|by rewrite lookup_insert_ne]. Qed.
Lemma pick_put p l b p' : pick p' (put_side p l b) = if decide ((0 <? p) = (0 <? p')) then l else pick p' b.
Proof. unfold pick, put_side. destruct (0 <? p), (0 <? p'); by cbn. Qed.
Lemma same_sign_pick p p' b : (0 <? p) = (0 <? p') -> pick p b = pick p' b.
Proof. intros H. unfold pick. by rewrite H. Qed.

(** A level index not in use. *)
Definition unused (B : gmap Z fbook) (P : fpool) (k : nat) : Prop :=
  (k < length (p_mem P))%nat /\ k ∉ p_free P /\ forall i p, ~ lvl B i p k.
Lemma alloc_ok B P V : LI B P V -> exists k P', p_alloc P = (k, P') /\ LI B P' V /\ unused B P' k.
Proof.
  intros H. pose proof H as [H1 H2 H3 H4 H5 [H6 H7]]. unfold p_alloc. destruct (p_free P) as [|k f] eqn:E.
  - exists (length (p_mem P)), (mkPool (p_mem P ++ [mkFl 0 0]) []). split; [done|]. split.
    + constructor; try done; cbn.
      * intros i p k Hl. destruct (H3 _ _ _ Hl) as (Hm & Hv & _). split; [|split; [done|apply not_elem_of_nil]]. by apply lookup_app_l_Some.
      * split; [constructor|constructor].
    + split; [cbn; rewrite app_length; cbn; lia|]. split; [apply not_elem_of_nil|]. intros i p Hl.
      destruct (H3 _ _ _ Hl) as (Hm & _). apply lookup_lt_Some in Hm. lia.
  - exists k, (mkPool (p_mem P) f). apply NoDup_cons in H6 as [Hk Hf]. apply Forall_cons in H7 as [Hk' Hf']. split; [done|]. split.
    + constructor; try done; cbn. intros i p j Hl. destruct (H3 _ _ _ Hl) as (Hm & Hv & Hn). apply not_elem_of_cons in Hn as [_ Hn]. done.
    + split; [done|]. split; [done|]. intros i p Hl. destruct (H3 _ _ _ Hl) as (_ & _ & Hn). rewrite ?E in Hn. apply Hn. left.
Qed.

Lemma alloc_used P k P' : p_alloc P = (k, P') ->
  (forall j, (j < length (p_mem P'))%nat -> j = k \/ j ∈ p_free P' \/ (j < length (p_mem P))%nat /\ j ∉ p_free P) /\
  (length (p_mem P') = length (p_mem P) \/ p_free P' = []).
Proof.
  unfold p_alloc. destruct (p_free P) as [|k0 f] eqn:E; intros [= <- <-]; cbn; (split; [|auto]).
  - intros j Hj. rewrite app_length in Hj. cbn in Hj. destruct (decide (j = length (p_mem P))); [by left|]. right. right. split; [lia|apply not_elem_of_nil].
  - intros j Hj. destruct (decide (j = k0)) as [->|]; [by left|]. destruct (decide (j ∈ f)) as [|Hn]; [auto|]. right. right. split; [done|]. by apply not_elem_of_cons.
Qed.

(** Volume change of a present level. *)
Lemma set_vol_ok B P V i p k v : LI B P V -> lvl B i p k -> 0 < v < TWO32 -> LI B (p_put k (mkFl p v) P) (upd V i p v).
Proof.
  intros H Hl Hv. pose proof H as [H1 H2 H3 H4 H5 [H6 H7]]. constructor; try done; cbn.
  - intros i' p' k' Hl'. destruct (H3 _ _ _ Hl') as (Hm & Hv' & Hn). destruct (decide (k' = k)) as [->|Hne].
    + destruct (H5 _ _ _ _ _ Hl' Hl) as [-> ->]. rewrite upd_same. split; [|done]. apply list_lookup_insert. by apply lookup_lt_Some in Hm.
    + rewrite list_lookup_insert_ne by done. rewrite upd_other; [done|]. intros [-> ->]. apply Hne. by eapply desc_unique; [eapply li_pick|..].
  - intros i' p' Hp' Hv'. destruct (decide (i' = i /\ p' = p)) as [[-> ->]|Hne]; [eauto|]. rewrite upd_other in Hv' by done. by apply H4.
  - split; [done|]. by rewrite insert_length.
Qed.

(** A new level. *)
Lemma new_level_ok B P V i p k v : LI B P V -> unused B P k -> p <> 0 -> (forall k, ~ lvl B i p k) -> 0 < v < TWO32 ->
  let b' := put_side p (insert_level p k (pick p (bk B i))) (bk B i) in
  LI (<[i := b']> B) (p_put k (mkFl p v) P) (upd V i p v) /\
  (forall i' p' k', lvl (<[i := b']> B) i' p' k' <-> (i' = i /\ p' = p /\ k' = k) \/ lvl B i' p' k').
Proof.
  intros H (Hk & Hkf & Hku) Hp Hnew Hv b'. pose proof H as [H1 H2 H3 H4 H5 [H6 H7]].
  assert (Hlv : forall i' p' k', lvl (<[i := b']> B) i' p' k' <-> (i' = i /\ p' = p /\ k' = k) \/ lvl B i' p' k').
  { intros i' p' k'. unfold lvl. rewrite bk_insert. destruct (decide (i' = i)) as [->|]; [|naive_solver]. unfold b'. rewrite pick_put.
    destruct (decide _) as [E|E].
    - rewrite elem_insert, (same_sign_pick p p' _ E). split; [intros [[= -> ->]|?]; auto|intros [(_ & -> & ->)|?]; auto].
    - split; [auto|]. intros [(_ & -> & _)|?]; [done|done]. }
  assert (Hd : desc (insert_level p k (pick p (bk B i)))). { apply insert_desc; [by eapply li_pick|]. intros k' Hk'. by apply (Hnew k'). }
  split; [|done]. constructor.
  - intros j. rewrite bk_insert. destruct (decide (j = i)) as [->|]; [|apply H1]. unfold b', put_side. destruct (0 <? p) eqn:Es; cbn; [|apply H1].
    split; [done|]. apply Forall_forall. intros x Hx. apply elem_insert in Hx as [->|Hx]; [cbn; lia|]. unfold pick in Hx. rewrite Es in Hx. destruct (H1 i) as [_ Hf]. rewrite Forall_forall in Hf. by apply Hf.
  - intros j. rewrite bk_insert. destruct (decide (j = i)) as [->|]; [|apply H2]. unfold b', put_side. destruct (0 <? p) eqn:Es; cbn; [apply H2|].
    split; [done|]. apply Forall_forall. intros x Hx. apply elem_insert in Hx as [->|Hx]; [cbn; lia|]. unfold pick in Hx. rewrite Es in Hx. destruct (H2 i) as [_ Hf]. rewrite Forall_forall in Hf. by apply Hf.
  - intros i' p' k' Hl. cbn. apply Hlv in Hl as [(-> & -> & ->)|Hl].
    + rewrite upd_same. split; [by apply list_lookup_insert|done].
    + destruct (H3 _ _ _ Hl) as (Hm & Hv' & Hn). assert (k' <> k) by (intros ->; by apply Hku in Hl). rewrite list_lookup_insert_ne by done.
      rewrite upd_other; [done|]. intros [-> ->]. by apply Hnew in Hl.
  - intros i' p' Hp' Hv'. destruct (decide (i' = i /\ p' = p)) as [[-> ->]|Hne]; [exists k; apply Hlv; auto|]. rewrite upd_other in Hv' by done.
    destruct (H4 _ _ Hp' Hv') as [k' Hk']. exists k'. apply Hlv. auto.
  - intros i1 p1 i2 p2 j Hl1 Hl2. apply Hlv in Hl1, Hl2. destruct Hl1 as [(-> & -> & ->)|Hl1], Hl2 as [(-> & -> & E)|Hl2]; try done.
    + by apply Hku in Hl2.
    + subst j. by apply Hku in Hl1.
    + by eapply H5.
  - cbn. split; [done|]. by rewrite insert_length.
Qed.

(** A level whose volume is gone. *)
Lemma drop_level_ok B P V i p k l : LI B P V -> lvl B i p k ->
  let b' := put_side p (erase p (pick p (bk B i))) (bk B i) in
  LI (<[i := b']> B) (p_release k (p_put k l P)) (upd V i p 0) /\
  (forall i' p' k', lvl (<[i := b']> B) i' p' k' <-> ~ (i' = i /\ p' = p) /\ lvl B i' p' k').
Proof.
  intros H Hl b'. pose proof H as [H1 H2 H3 H4 H5 [H6 H7]].
  assert (Hlv : forall i' p' k', lvl (<[i := b']> B) i' p' k' <-> ~ (i' = i /\ p' = p) /\ lvl B i' p' k').
  { intros i' p' k'. unfold lvl. rewrite bk_insert. destruct (decide (i' = i)) as [->|]; [|naive_solver]. unfold b'. rewrite pick_put.
    destruct (decide _) as [E|E].
    - rewrite elem_erase by (by eapply li_pick). rewrite (same_sign_pick p p' _ E). cbn. naive_solver.
    - split; [|tauto]. intros Hx. split; [|done]. by intros [_ ->]. }
  split; [|done]. constructor.
  - intros j. rewrite bk_insert. destruct (decide (j = i)) as [->|]; [|apply H1]. unfold b', put_side. destruct (0 <? p) eqn:Es; cbn; [|apply H1].
    unfold pick. rewrite Es. destruct (H1 i) as [Hd Hf]. split; [by apply erase_desc|]. apply Forall_forall. intros x Hx. apply elem_erase in Hx as [Hx _]; [|done]. rewrite Forall_forall in Hf. by apply Hf.
  - intros j. rewrite bk_insert. destruct (decide (j = i)) as [->|]; [|apply H2]. unfold b', put_side. destruct (0 <? p) eqn:Es; cbn; [apply H2|].
    unfold pick. rewrite Es. destruct (H2 i) as [Hd Hf]. split; [by apply erase_desc|]. apply Forall_forall. intros x Hx. apply elem_erase in Hx as [Hx _]; [|done]. rewrite Forall_forall in Hf. by apply Hf.
  - intros i' p' k' Hl'. cbn. apply Hlv in Hl' as [Hne Hl']. destruct (H3 _ _ _ Hl') as (Hm & Hv' & Hn).
    assert (k' <> k). { intros ->. destruct (H5 _ _ _ _ _ Hl' Hl) as [-> ->]. tauto. }
    rewrite list_lookup_insert_ne by done. rewrite upd_other by done. split; [done|]. split; [done|]. by apply not_elem_of_cons.
  - intros i' p' Hp' Hv'. destruct (decide (i' = i /\ p' = p)) as [[-> ->]|Hne]; [rewrite upd_same in Hv'; lia|]. rewrite upd_other in Hv' by done.
    destruct (H4 _ _ Hp' Hv') as [k' Hk']. exists k'. by apply Hlv.
  - intros i1 p1 i2 p2 j Hl1 Hl2. apply Hlv in Hl1 as [_ Hl1], Hl2 as [_ Hl2]. by eapply H5.
  - cbn. destruct (H3 _ _ _ Hl) as (Hm & _ & Hn). split; [by constructor|]. rewrite insert_length. constructor; [by apply lookup_lt_Some in Hm|done].
Qed.

(** No slot of the pool is lost: it is free or holds a level. *)
Definition used (B : gmap Z fbook) (P : fpool) : Prop :=
  forall k, (k < length (p_mem P))%nat -> k ∈ p_free P \/ exists i p, lvl B i p k.
(** [grows P P']: the memory of the pool is the same, or every slot was taken and one was added. *)
Definition grows (P P' : fpool) : Prop := length (p_mem P') = length (p_mem P) \/ p_free P' = [].

(** ** The two book operations *)
Lemma book_add_ok B P V i p q : LI B P V -> p <> 0 -> 0 < q -> 0 <= V i p -> V i p + q < TWO32 ->
  exists k b' P', fbook_add q p (bk B i) P = Ok (k, b', P') /\ LI (<[i := b']> B) P' (upd V i p (V i p + q)) /\
    lvl (<[i := b']> B) i p k /\ (forall i' p' k', lvl B i' p' k' -> lvl (<[i := b']> B) i' p' k') /\
    (used B P -> used (<[i := b']> B) P') /\ grows P P'.
Proof.
  intros H Hp Hq Hv0 Hv. unfold fbook_add, find_flevel. destruct (search p (pick p (bk B i))) as [k|] eqn:Es.
  - apply search_some in Es. pose proof (li_lvl _ _ _ H _ _ _ Es) as (Hm & Hvp & Hn). unfold p_get. rewrite Hm. cbn.
    unfold u32. rewrite Z.mod_small by lia.
    assert (Hsame : forall i' p' k', lvl (<[i := bk B i]> B) i' p' k' <-> lvl B i' p' k').
    { intros i' p' k'. unfold lvl. rewrite bk_insert. by destruct (decide _) as [->|]. }
    eexists _, _, _. split; [done|]. split; [|split; [by apply Hsame|split; [intros; by apply Hsame|split]]].
    2:{ intros Hu j Hj. cbn in Hj |- *. rewrite insert_length in Hj. destruct (Hu j Hj) as [|(i' & p' & Hl)]; [by left|]. right. exists i', p'. by apply Hsame. }
    2:{ left. cbn. by rewrite insert_length. }
    pose proof (set_vol_ok B P V i p k (V i p + q) H Es ltac:(lia)) as [G1 G2 G3 G4 G5 G6].
    assert (Hbk : forall j, bk (<[i := bk B i]> B) j = bk B j) by (intros j; rewrite bk_insert; by destruct (decide _) as [->|]).
    constructor; try done.
    + intros j. rewrite Hbk. apply G1.
    + intros j. rewrite Hbk. apply G2.
    + intros i' p' k' Hl. apply G3. by apply Hsame.
    + intros i' p' Hp' Hv'. destruct (G4 _ _ Hp' Hv') as [k' ?]. exists k'. by apply Hsame.
    + intros i1 p1 i2 p2 j Hl1 Hl2. eapply G5; apply Hsame; eassumption.
  - assert (Hnew : forall k, ~ lvl B i p k). { intros k. apply (search_none p _ (li_pick _ _ _ i p H) Es). }
    assert (V i p = 0) as Hz. { destruct (decide (0 < V i p)) as [Hpos|]; [|lia]. destruct (li_all _ _ _ H _ _ Hp Hpos) as [k Hk]. by apply Hnew in Hk. }
    destruct (alloc_ok B P V H) as (k & P' & Ea & H' & Hun). rewrite Ea. cbn.
    unfold p_get. cbn. rewrite list_lookup_insert by apply Hun. cbn.
    assert (E : p_put k (mkFl p (u32 (0 + q))) (p_put k (mkFl p 0) P') = p_put k (mkFl p (V i p + q)) P').
    { unfold p_put. cbn. rewrite list_insert_insert. unfold u32. rewrite Z.mod_small by lia. do 3 f_equal. lia. }
    eexists _, _, _. split; [done|]. rewrite E. destruct (new_level_ok B P' V i p k (V i p + q) H' Hun Hp Hnew ltac:(lia)) as [Hli Hlv].
    split; [done|]. split; [apply Hlv; auto|]. split; [intros; apply Hlv; auto|]. destruct (alloc_used P k P' Ea) as [Hu Hg]. split.
    + intros HU j Hj. cbn in Hj |- *. rewrite insert_length in Hj. destruct (Hu j Hj) as [->|[Hjf|[Hjl Hjn]]]; [right; exists i, p; apply Hlv; auto|by left|].
      destruct (HU j Hjl) as [Hf|(i' & p' & Hl)]; [done|]. right. exists i', p'. apply Hlv. auto.
    + destruct Hg as [Hg|Hg]; [left|by right]. cbn. by rewrite insert_length.
Qed.
Lemma book_reduce_fast B P V i p k q : LI B P V -> lvl B i p k -> 0 <= q <= V i p ->
  exists b' P', fbook_reduce k q (bk B i) P = Ok (b', P') /\ LI (<[i := b']> B) P' (upd V i p (V i p - q)) /\
    (forall i' p' k', lvl B i' p' k' -> ~ (i' = i /\ p' = p) \/ 0 < V i p - q -> lvl (<[i := b']> B) i' p' k') /\
    (used B P -> used (<[i := b']> B) P') /\ length (p_mem P') = length (p_mem P).
Proof.
  intros H Hl Hq. pose proof (li_lvl _ _ _ H _ _ _ Hl) as (Hm & Hvp & Hn). unfold fbook_reduce, p_get. rewrite Hm. cbn.
  unfold u32. rewrite Z.mod_small by lia. destruct (Z.eqb_spec (V i p - q) 0) as [E|E].
  - unfold delete_flevel, p_get. cbn. rewrite list_lookup_insert by (by apply lookup_lt_Some in Hm). cbn.
    eexists _, _. split; [done|]. rewrite E. destruct (drop_level_ok B P V i p k (mkFl p 0) H Hl) as [Hli Hlv]. split; [done|].
    split; [intros i' p' k' Hl' Hor; apply Hlv; split; [|done]; destruct Hor; [done|lia]|]. split; [|cbn; by rewrite insert_length].
    intros Hu j Hj. cbn in Hj |- *. rewrite insert_length in Hj. destruct (decide (j = k)) as [->|Hjk]; [left; left|].
    destruct (Hu j Hj) as [|(i' & p' & Hl')]; [left; by right|]. right. exists i', p'. apply Hlv. split; [|done]. intros [-> ->]. apply Hjk. exact (desc_unique _ _ _ _ (li_pick _ _ _ _ _ H) Hl' Hl).
  - assert (Hsame : forall i' p' k', lvl (<[i := bk B i]> B) i' p' k' <-> lvl B i' p' k').
    { intros i' p' k'. unfold lvl. rewrite bk_insert. by destruct (decide _) as [->|]. }
    eexists _, _. split; [done|]. split; [|split; [intros; by apply Hsame|split; [|cbn; by rewrite insert_length]]].
    2:{ intros Hu j Hj. cbn in Hj |- *. rewrite insert_length in Hj. destruct (Hu j Hj) as [|(i' & p' & Hl')]; [by left|]. right. exists i', p'. by apply Hsame. }
    pose proof (set_vol_ok B P V i p k (V i p - q) H Hl ltac:(lia)) as [G1 G2 G3 G4 G5 G6].
    assert (Hbk : forall j, bk (<[i := bk B i]> B) j = bk B j) by (intros j; rewrite bk_insert; by destruct (decide _) as [->|]).
    constructor; try done.
    + intros j. rewrite Hbk. apply G1.
    + intros j. rewrite Hbk. apply G2.
    + intros i' p' k' Hl'. apply G3. by apply Hsame.
    + intros i' p' Hp' Hv'. destruct (G4 _ _ Hp' Hv') as [k' ?]. exists k'. by apply Hsame.
    + intros i1 p1 i2 p2 j Hl1 Hl2. eapply G5; apply Hsame; eassumption.
Qed.
