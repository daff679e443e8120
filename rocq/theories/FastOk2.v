(** * FastOk2.v -- the level structure of the optimized manager (Fast2.v) is kept in order. *)
From Coq Require Import ZifyBool Sorting.Sorted.
From stdpp Require Import fin_maps.
From Verif Require Import Types Feed Fast2.

(** ** One side: best price first *)
Definition ranked (sd : oside) (l : list (Z * nat)) : Prop := StronglySorted (fun a b => beats sd (fst a) (fst b)) l.
Lemma ranked_cons sd x l : ranked sd (x :: l) <-> ranked sd l /\ Forall (fun b => beats sd (fst x) (fst b)) l.
Proof. split; [apply StronglySorted_inv|]. intros [? ?]. by constructor. Qed.
Lemma ranked_elem sd x l y : ranked sd (x :: l) -> y ∈ l -> beats sd (fst x) (fst y).
Proof. intros [_ H]%ranked_cons Hy. rewrite Forall_forall in H. by apply H. Qed.
Lemma worse_beats sd x p : worse sd x p = true <-> beats sd p x.
Proof. destruct sd; cbn; lia. Qed.
Lemma not_worse sd x p : worse sd x p = false -> x <> p -> beats sd x p.
Proof. destruct sd; cbn; lia. Qed.
Lemma beats_trans sd x y z : beats sd x y -> beats sd y z -> beats sd x z.
Proof. destruct sd; cbn; lia. Qed.
Lemma beats_irr sd x : ~ beats sd x x.
Proof. destruct sd; cbn; lia. Qed.
Lemma osearch_some sd p k l : osearch sd p l = Some k -> (p, k) ∈ l.
Proof.
  induction l as [|[p' k'] l IH]; cbn; [done|]. destruct (Z.eqb_spec p' p) as [->|]; [intros [= ->]; left|].
  destruct (worse _ _ _); [done|]. intros H. right. by apply IH.
Qed.
Lemma osearch_none sd p l : ranked sd l -> osearch sd p l = None -> forall k, (p, k) ∉ l.
Proof.
  induction l as [|[p' k'] l IH]; cbn; intros Hd Hs k Hin; [by apply not_elem_of_nil in Hin|].
  destruct (Z.eqb_spec p' p) as [->|Hne]; [done|]. apply elem_of_cons in Hin as [[= -> ->]|Hin]; [done|].
  destruct (worse sd p' p) eqn:Hw.
  - apply worse_beats in Hw. pose proof (ranked_elem _ _ _ _ Hd Hin) as Hb. cbn in Hb. by eapply beats_irr, beats_trans.
  - apply ranked_cons in Hd as [Hd _]. by apply (IH Hd Hs k).
Qed.
Lemma ranked_unique sd p k k' l : ranked sd l -> (p, k) ∈ l -> (p, k') ∈ l -> k = k'.
Proof.
  induction l as [|x l IH]; intros Hd H1 H2; [by apply not_elem_of_nil in H1|].
  apply elem_of_cons in H1, H2. destruct H1 as [E1|H1], H2 as [E2|H2].
  - congruence.
  - pose proof (ranked_elem _ _ _ _ Hd H2) as Hb. subst x. by apply beats_irr in Hb.
  - pose proof (ranked_elem _ _ _ _ Hd H1) as Hb. subst x. by apply beats_irr in Hb.
  - apply ranked_cons in Hd as [Hd _]. by apply IH.
Qed.
Lemma elem_oinsert sd p k l x : x ∈ oinsert sd p k l <-> x = (p, k) \/ x ∈ l.
Proof.
  induction l as [|[p' k'] l IH]; cbn.
  - rewrite elem_of_list_singleton, elem_of_nil. tauto.
  - destruct (worse _ _ _); rewrite !elem_of_cons; [tauto|]. rewrite IH. tauto.
Qed.
Lemma oinsert_ranked sd p k l : ranked sd l -> (forall k', (p, k') ∉ l) -> ranked sd (oinsert sd p k l).
Proof.
  induction l as [|[p' k'] l IH]; intros Hd Hn; cbn; [repeat constructor|].
  destruct (worse sd p' p) eqn:Hw.
  - apply worse_beats in Hw. apply ranked_cons. split; [done|]. apply Forall_forall. intros y Hy. apply elem_of_cons in Hy as [->|Hy]; [done|].
    pose proof (ranked_elem _ _ _ _ Hd Hy). by eapply beats_trans.
  - assert (Hne : p' <> p). { intros ->. apply (Hn k'). left. } apply ranked_cons in Hd as [Hd Hf]. apply ranked_cons. split.
    + apply IH; [done|]. intros j Hj. apply (Hn j). by right.
    + apply Forall_forall. intros y Hy. apply elem_oinsert in Hy as [->|Hy]; [by apply not_worse|]. rewrite Forall_forall in Hf. by apply Hf.
Qed.
Lemma elem_oerase sd p l x : ranked sd l -> x ∈ oerase sd p l <-> x ∈ l /\ fst x <> p.
Proof.
  induction l as [|[p' k'] l IH]; intros Hd; cbn.
  - rewrite elem_of_nil. tauto.
  - pose proof (fun y => ranked_elem _ _ _ y Hd) as Hx. cbn in Hx. pose proof Hd as [Hd' _]%ranked_cons. specialize (IH Hd'). destruct (Z.eqb_spec p' p) as [->|Hne].
    + rewrite !elem_of_cons. split; [intros H; split; [by right|]; intros E; specialize (Hx _ H); rewrite E in Hx; by apply beats_irr in Hx|]. intros [[->|H] Hp]; [done|done].
    + destruct (worse sd p' p) eqn:Hw.
      * apply worse_beats in Hw. split; [|tauto]. intros H. split; [done|]. apply elem_of_cons in H as [->|H]; [done|]. intros E. specialize (Hx _ H). rewrite E in Hx. by eapply beats_irr, beats_trans.
      * rewrite !elem_of_cons, IH. split; [|tauto]. intros [->|H]; [|tauto]. split; [by left|done].
Qed.
Lemma oerase_ranked sd p l : ranked sd l -> ranked sd (oerase sd p l).
Proof.
  induction l as [|[p' k'] l IH]; intros Hd; cbn; [done|]. pose proof Hd as [Hd' Hf]%ranked_cons. destruct (_ =? _); [done|]. destruct (worse _ _ _); [done|].
  apply ranked_cons. split; [by apply IH|]. apply Forall_forall. intros y Hy. apply elem_oerase in Hy as [Hy _]; [|done]. rewrite Forall_forall in Hf. by apply Hf.
Qed.

(** ** All levels of all books; [V i sd p] is the volume and the number of orders at that price *)
Definition obk (B : gmap Z obook) (i : Z) : obook := default (mkObook [] []) (B !! i).
Definition olvl (B : gmap Z obook) (i : Z) (sd : oside) (p : Z) (k : nat) : Prop := (p, k) ∈ ob_side sd (obk B i).
Record OL (B : gmap Z obook) (P : opool) (V : Z -> oside -> Z -> Z * Z) : Prop := {
  ol_ranked : forall i sd, ranked sd (ob_side sd (obk B i));
  ol_lvl : forall i sd p k, olvl B i sd p k ->
    op_mem P !! k = Some (mkOl sd p (fst (V i sd p)) (snd (V i sd p))) /\ 0 < fst (V i sd p) < TWO32 /\ k ∉ op_free P;
  ol_few : forall i sd p, 0 <= snd (V i sd p) <= fst (V i sd p);
  ol_all : forall i sd p, 0 < fst (V i sd p) -> exists k, olvl B i sd p k;
  ol_inj : forall i sd p i' sd' p' k, olvl B i sd p k -> olvl B i' sd' p' k -> i = i' /\ sd = sd' /\ p = p';
  ol_free : NoDup (op_free P) /\ Forall (fun k => (k < length (op_mem P))%nat) (op_free P);
}.
Lemma ol_ext B P V V' : OL B P V -> (forall i sd p, V' i sd p = V i sd p) -> OL B P V'.
Proof.
  intros [H1 H2 H3 H4 H5 H6] E. constructor; try done.
  - intros i sd p k. rewrite E. apply H2.
  - intros i sd p. rewrite E. apply H3.
  - intros i sd p. rewrite E. apply H4.
Qed.
Lemma ol_same B B' P V : OL B P V -> (forall i, obk B' i = obk B i) -> OL B' P V.
Proof.
  intros [H1 H2 H3 H4 H5 H6] E. assert (El : forall i sd p k, olvl B' i sd p k <-> olvl B i sd p k) by (intros; unfold olvl; by rewrite E). constructor; try done.
  - intros i sd. rewrite E. apply H1.
  - intros i sd p k Hl. apply H2. by apply El.
  - intros i sd p Hv. destruct (H4 _ _ _ Hv) as [k Hk]. exists k. by apply El.
  - intros i sd p i' sd' p' k Hl Hl'. eapply H5; apply El; eassumption.
Qed.
Definition oupd (V : Z -> oside -> Z -> Z * Z) (i : Z) (sd : oside) (p : Z) (v : Z * Z) : Z -> oside -> Z -> Z * Z :=
  fun i' sd' p' => if decide (i' = i /\ sd' = sd /\ p' = p) then v else V i' sd' p'.
Lemma oupd_same V i sd p v : oupd V i sd p v i sd p = v.
Proof. unfold oupd. by rewrite decide_True. Qed.
Lemma oupd_other V i sd p v i' sd' p' : ~ (i' = i /\ sd' = sd /\ p' = p) -> oupd V i sd p v i' sd' p' = V i' sd' p'.
Proof. intros H. unfold oupd. by rewrite decide_False. Qed.
Lemma oupd_few V i sd p v : (forall i sd p, 0 <= snd (V i sd p) <= fst (V i sd p)) -> 0 <= snd v <= fst v ->
  forall i' sd' p', 0 <= snd (oupd V i sd p v i' sd' p') <= fst (oupd V i sd p v i' sd' p').
Proof. intros H Hv i' sd' p'. unfold oupd. destruct (decide _); [done|apply H]. Qed.
Lemma obk_insert B i b j : obk (<[i := b]> B) j = if decide (j = i) then b else obk B j.
Proof. unfold obk. destruct (decide _) as [->|]; [by rewrite lookup_insert|by rewrite lookup_insert_ne]. Qed.
Lemma side_put sd l b sd' : ob_side sd' (ob_put sd l b) = if decide (sd' = sd) then l else ob_side sd' b.
Proof. by destruct sd, sd'. Qed.

(** A level index not in use. *)
Definition ounused (B : gmap Z obook) (P : opool) (k : nat) : Prop :=
  (k < length (op_mem P))%nat /\ k ∉ op_free P /\ forall i sd p, ~ olvl B i sd p k.
Lemma oalloc_ok B P V : OL B P V -> exists k P', op_alloc P = (k, P') /\ OL B P' V /\ ounused B P' k.
Proof.
  intros H. pose proof H as [H1 H2 H3 H4 H5 [H6 H7]]. unfold op_alloc. destruct (op_free P) as [|k f] eqn:E.
  - exists (length (op_mem P)), (mkOpool (op_mem P ++ [mkOl BUY 0 0 0]) []). split; [done|]. split.
    + constructor; try done; cbn.
      * intros i sd p k Hl. destruct (H2 _ _ _ _ Hl) as (Hm & Hv & _). split; [|split; [done|apply not_elem_of_nil]]. by apply lookup_app_l_Some.
      * split; [constructor|constructor].
    + split; [cbn; rewrite app_length; cbn; lia|]. split; [apply not_elem_of_nil|]. intros i sd p Hl.
      destruct (H2 _ _ _ _ Hl) as (Hm & _). apply lookup_lt_Some in Hm. lia.
  - exists k, (mkOpool (op_mem P) f). apply NoDup_cons in H6 as [Hk Hf]. apply Forall_cons in H7 as [Hk' Hf']. split; [done|]. split.
    + constructor; try done; cbn. intros i sd p j Hl. destruct (H2 _ _ _ _ Hl) as (Hm & Hv & Hn). rewrite ?E in Hn. apply not_elem_of_cons in Hn as [_ Hn]. done.
    + split; [done|]. split; [done|]. intros i sd p Hl. destruct (H2 _ _ _ _ Hl) as (_ & _ & Hn). rewrite ?E in Hn. apply Hn. left.
Qed.

(** Change of a present level. *)
Lemma oset_ok B P V i sd p k v : OL B P V -> olvl B i sd p k -> 0 < fst v < TWO32 -> 0 <= snd v <= fst v ->
  OL B (op_put k (mkOl sd p (fst v) (snd v)) P) (oupd V i sd p v).
Proof.
  intros H Hl Hv Hc. pose proof H as [H1 H2 H3 H4 H5 [H6 H7]]. constructor; try done; cbn.
  - intros i' sd' p' k' Hl'. destruct (H2 _ _ _ _ Hl') as (Hm & Hv' & Hn). destruct (decide (k' = k)) as [->|Hne].
    + destruct (H5 _ _ _ _ _ _ _ Hl' Hl) as (-> & -> & ->). rewrite oupd_same. split; [|done]. apply list_lookup_insert. by apply lookup_lt_Some in Hm.
    + rewrite list_lookup_insert_ne by done. rewrite oupd_other; [done|]. intros (-> & -> & ->). apply Hne. by eapply ranked_unique; [apply H1|..].
  - by apply oupd_few.
  - intros i' sd' p' Hv'. destruct (decide (i' = i /\ sd' = sd /\ p' = p)) as [(-> & -> & ->)|Hne]; [eauto|]. rewrite oupd_other in Hv' by done. by apply H4.
  - split; [done|]. by rewrite insert_length.
Qed.

(** A new level. *)
Lemma onew_ok B P V i sd p k v : OL B P V -> ounused B P k -> (forall k, ~ olvl B i sd p k) -> 0 < fst v < TWO32 -> 0 <= snd v <= fst v ->
  let b' := ob_put sd (oinsert sd p k (ob_side sd (obk B i))) (obk B i) in
  OL (<[i := b']> B) (op_put k (mkOl sd p (fst v) (snd v)) P) (oupd V i sd p v) /\
  (forall i' sd' p' k', olvl (<[i := b']> B) i' sd' p' k' <-> (i' = i /\ sd' = sd /\ p' = p /\ k' = k) \/ olvl B i' sd' p' k').
Proof.
  intros H (Hk & Hkf & Hku) Hnew Hv Hc b'. pose proof H as [H1 H2 H3 H4 H5 [H6 H7]].
  assert (Hlv : forall i' sd' p' k', olvl (<[i := b']> B) i' sd' p' k' <-> (i' = i /\ sd' = sd /\ p' = p /\ k' = k) \/ olvl B i' sd' p' k').
  { intros i' sd' p' k'. unfold olvl. rewrite obk_insert. destruct (decide (i' = i)) as [->|]; [|naive_solver]. unfold b'. rewrite side_put.
    destruct (decide _) as [->|E]; [|naive_solver]. rewrite elem_oinsert. split; [intros [[= -> ->]|?]; auto|intros [(_ & _ & -> & ->)|?]; auto]. }
  split; [|done]. constructor.
  - intros j sd'. rewrite obk_insert. destruct (decide (j = i)) as [->|]; [|apply H1]. unfold b'. rewrite side_put. destruct (decide _) as [->|]; [|apply H1].
    apply oinsert_ranked; [apply H1|]. intros k' Hk'. by apply (Hnew k').
  - intros i' sd' p' k' Hl. cbn. apply Hlv in Hl as [(-> & -> & -> & ->)|Hl].
    + rewrite oupd_same. split; [by apply list_lookup_insert|done].
    + destruct (H2 _ _ _ _ Hl) as (Hm & Hv' & Hn). assert (k' <> k) by (intros ->; by apply Hku in Hl). rewrite list_lookup_insert_ne by done.
      rewrite oupd_other; [done|]. intros (-> & -> & ->). by apply Hnew in Hl.
  - by apply oupd_few.
  - intros i' sd' p' Hv'. destruct (decide (i' = i /\ sd' = sd /\ p' = p)) as [(-> & -> & ->)|Hne]; [exists k; apply Hlv; auto|]. rewrite oupd_other in Hv' by done.
    destruct (H4 _ _ _ Hv') as [k' Hk']. exists k'. apply Hlv. auto.
  - intros i1 s1 p1 i2 s2 p2 j Hl1 Hl2. apply Hlv in Hl1, Hl2. destruct Hl1 as [(-> & -> & -> & ->)|Hl1], Hl2 as [(-> & -> & -> & E)|Hl2]; try done.
    + by apply Hku in Hl2.
    + subst j. by apply Hku in Hl1.
    + by eapply H5.
  - cbn. split; [done|]. by rewrite insert_length.
Qed.

(** A level whose volume is gone. *)
Lemma odrop_ok B P V i sd p k l : OL B P V -> olvl B i sd p k ->
  let b' := ob_put sd (oerase sd p (ob_side sd (obk B i))) (obk B i) in
  OL (<[i := b']> B) (op_release k (op_put k l P)) (oupd V i sd p (0, 0)) /\
  (forall i' sd' p' k', olvl (<[i := b']> B) i' sd' p' k' <-> ~ (i' = i /\ sd' = sd /\ p' = p) /\ olvl B i' sd' p' k').
Proof.
  intros H Hl b'. pose proof H as [H1 H2 H3 H4 H5 [H6 H7]].
  assert (Hlv : forall i' sd' p' k', olvl (<[i := b']> B) i' sd' p' k' <-> ~ (i' = i /\ sd' = sd /\ p' = p) /\ olvl B i' sd' p' k').
  { intros i' sd' p' k'. unfold olvl. rewrite obk_insert. destruct (decide (i' = i)) as [->|]; [|naive_solver]. unfold b'. rewrite side_put.
    destruct (decide _) as [->|E]; [|naive_solver]. rewrite elem_oerase by apply H1. cbn. naive_solver. }
  split; [|done]. constructor.
  - intros j sd'. rewrite obk_insert. destruct (decide (j = i)) as [->|]; [|apply H1]. unfold b'. rewrite side_put. destruct (decide _) as [->|]; [|apply H1].
    apply oerase_ranked, H1.
  - intros i' sd' p' k' Hl'. cbn. apply Hlv in Hl' as [Hne Hl']. destruct (H2 _ _ _ _ Hl') as (Hm & Hv' & Hn).
    assert (k' <> k). { intros ->. destruct (H5 _ _ _ _ _ _ _ Hl' Hl) as (-> & -> & ->). tauto. }
    rewrite list_lookup_insert_ne by done. rewrite oupd_other by done. split; [done|]. split; [done|]. by apply not_elem_of_cons.
  - apply oupd_few; [done|cbn; lia].
  - intros i' sd' p' Hv'. destruct (decide (i' = i /\ sd' = sd /\ p' = p)) as [(-> & -> & ->)|Hne]; [rewrite oupd_same in Hv'; cbn in Hv'; lia|]. rewrite oupd_other in Hv' by done.
    destruct (H4 _ _ _ Hv') as [k' Hk']. exists k'. by apply Hlv.
  - intros i1 s1 p1 i2 s2 p2 j Hl1 Hl2. apply Hlv in Hl1 as [_ Hl1], Hl2 as [_ Hl2]. by eapply H5.
  - cbn. destruct (H2 _ _ _ _ Hl) as (Hm & _ & Hn). split; [by constructor|]. rewrite insert_length. constructor; [by apply lookup_lt_Some in Hm|done].
Qed.

Lemma oalloc_used P k P' : op_alloc P = (k, P') ->
  forall j, (j < length (op_mem P'))%nat -> j = k \/ j ∈ op_free P' \/ (j < length (op_mem P))%nat /\ j ∉ op_free P.
Proof.
  unfold op_alloc. destruct (op_free P) as [|k0 f] eqn:E; intros [= <- <-]; cbn.
  - intros j Hj. rewrite app_length in Hj. cbn in Hj. destruct (decide (j = length (op_mem P))); [by left|]. right. right. split; [lia|apply not_elem_of_nil].
  - intros j Hj. destruct (decide (j = k0)) as [->|]; [by left|]. destruct (decide (j ∈ f)) as [|Hn]; [auto|]. right. right. split; [done|]. by apply not_elem_of_cons.
Qed.
(** No slot of the pool is lost: it is free or holds a level. *)
Definition oused (B : gmap Z obook) (P : opool) : Prop :=
  forall k, (k < length (op_mem P))%nat -> k ∈ op_free P \/ exists i sd p, olvl B i sd p k.
Lemma oused_same B B' k l P : oused B P -> (forall i, obk B' i = obk B i) -> oused B' (op_put k l P).
Proof.
  intros H E j Hj. cbn in Hj |- *. rewrite insert_length in Hj. destruct (H j Hj) as [|(i & sd & p & Hl)]; [by left|]. right. exists i, sd, p. unfold olvl. by rewrite E.
Qed.

(** ** The two book operations *)
Definition at_level (k : nat) (o : oord) : oord := mkOord (oo_id o) (oo_sym o) (oo_side o) (oo_price o) (oo_qty o) k.
Lemma obook_add_ok B P V i o : OL B P V -> let sd := oo_side o in let p := oo_price o in let v := V i sd p in
  0 < oo_qty o -> fst v + oo_qty o < TWO32 ->
  exists k b' P' u, obook_add o (obk B i) P = Ok (at_level k o, b', P', u) /\
    OL (<[i := b']> B) P' (oupd V i sd p (fst v + oo_qty o, snd v + 1)) /\
    olvl (<[i := b']> B) i sd p k /\ (forall i' sd' p' k', olvl B i' sd' p' k' -> olvl (<[i := b']> B) i' sd' p' k') /\
    (oused B P -> oused (<[i := b']> B) P').
Proof.
  intros H sd p v Hq Hc. pose proof (ol_few _ _ _ H i sd p) as Hfew. fold v in Hfew. unfold obook_add, find_olevel. fold sd p.
  assert (T64 : TWO32 < TWO64) by done.
  destruct (osearch sd p (ob_side sd (obk B i))) as [k|] eqn:Es.
  - apply osearch_some in Es. pose proof (ol_lvl _ _ _ H _ _ _ _ Es) as (Hm & Hvp & Hn). unfold op_get. rewrite Hm. cbn. fold v.
    unfold u32, u64. rewrite !Z.mod_small by lia.
    assert (Hbk : forall j, obk (<[i := obk B i]> B) j = obk B j) by (intros j; rewrite obk_insert; by destruct (decide _) as [->|]).
    eexists k, _, _, _. split; [done|]. split.
    { eapply ol_same; [|done]. apply (oset_ok B P V i sd p k (fst v + oo_qty o, snd v + 1) H Es); cbn; lia. }
    split; [unfold olvl; by rewrite Hbk|]. split; [intros i' sd' p' k'; unfold olvl; by rewrite Hbk|]. intros HU. by eapply oused_same.
  - assert (Hnew : forall k, ~ olvl B i sd p k). { intros k. apply (osearch_none sd p _ (ol_ranked _ _ _ H i sd) Es). }
    assert (v = (0, 0)) as Hz.
    { destruct (decide (0 < fst v)) as [Hpos|]; [destruct (ol_all _ _ _ H _ _ _ Hpos) as [k Hk]; by apply Hnew in Hk|]. destruct v; cbn in *. f_equal; lia. }
    destruct (oalloc_ok B P V H) as (k & P' & Ea & H' & Hun). rewrite Ea. cbn.
    unfold op_get. cbn. rewrite list_lookup_insert by apply Hun. cbn. unfold u32, u64. rewrite Hz in *. cbn in *. rewrite Z.mod_small by lia.
    eexists k, _, _, _. split; [done|].
    unfold op_put. cbn. rewrite list_insert_insert.
    destruct (onew_ok B P' V i sd p k (oo_qty o, 1) H' Hun Hnew ltac:(cbn; lia) ltac:(cbn; lia)) as [Hli Hlv].
    split; [done|]. split; [apply Hlv; auto|]. split; [intros; apply Hlv; auto|].
    intros HU j Hj. cbn in Hj |- *. rewrite insert_length in Hj. destruct (oalloc_used P k P' Ea j Hj) as [->|[Hf|[Hl Hn]]]; [right; exists i, sd, p; apply Hlv; auto|by left|].
    destruct (HU j Hl) as [Hf|(i' & sd' & p' & Hl')]; [done|]. right. exists i', sd', p'. apply Hlv. auto.
Qed.
Lemma obook_take_ok B P V i o q last : OL B P V -> let sd := oo_side o in let p := oo_price o in let v := V i sd p in
  olvl B i sd p (oo_lvl o) -> 0 <= q <= fst v -> 0 <= snd v - Z.b2z last <= fst v - q ->
  exists b' P' u, obook_take o q last (obk B i) P = Ok (b', P', u) /\
    OL (<[i := b']> B) P' (oupd V i sd p (fst v - q, snd v - Z.b2z last)) /\
    (forall i' sd' p' k', olvl B i' sd' p' k' -> ~ (i' = i /\ sd' = sd /\ p' = p) \/ 0 < fst v - q -> olvl (<[i := b']> B) i' sd' p' k') /\
    (oused B P -> oused (<[i := b']> B) P').
Proof.
  intros H sd p v Hl Hq Hc. pose proof (ol_lvl _ _ _ H _ _ _ _ Hl) as (Hm & Hvp & Hn). fold v in Hm, Hvp. pose proof (ol_few _ _ _ H i sd p) as Hfew. fold v in Hfew.
  assert (T64 : TWO32 < TWO64) by done.
  unfold obook_take, op_get. rewrite Hm. cbn. replace (if last then u64 (snd v - 1) else snd v) with (snd v - Z.b2z last).
  2:{ destruct last; cbn in *; [|lia]. unfold u64. rewrite Z.mod_small; lia. }
  unfold u32. rewrite Z.mod_small by lia. destruct (Z.eqb_spec (fst v - q) 0) as [E|E].
  - eexists _, _, _. split; [done|]. rewrite E. replace (snd v - Z.b2z last) with 0 by lia.
    destruct (odrop_ok B P V i sd p (oo_lvl o) (mkOl sd p 0 0) H Hl) as [Hli Hlv]. split; [exact Hli|].
    split; [intros i' sd' p' k' Hl' Hor; apply Hlv; split; [|done]; destruct Hor; [done|lia]|].
    intros HU j Hj. cbn in Hj |- *. rewrite insert_length in Hj. destruct (decide (j = oo_lvl o)) as [->|Hjk]; [left; left|].
    destruct (HU j Hj) as [|(i' & sd' & p' & Hl')]; [left; by right|]. right. exists i', sd', p'. apply Hlv. split; [|done]. intros (-> & -> & ->). apply Hjk. exact (ranked_unique _ _ _ _ _ (ol_ranked _ _ _ H i sd) Hl' Hl).
  - assert (Hbk : forall j, obk (<[i := obk B i]> B) j = obk B j) by (intros j; rewrite obk_insert; by destruct (decide _) as [->|]).
    eexists _, _, _. split; [done|]. split; [|split; [intros i' sd' p' k'; unfold olvl; by rewrite Hbk|intros HU; by eapply oused_same]].
    eapply ol_same; [|done]. apply (oset_ok B P V i sd p (oo_lvl o) (fst v - q, snd v - Z.b2z last) H Hl); cbn; lia.
Qed.
