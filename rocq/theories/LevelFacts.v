(** * LevelFacts.v -- facts on the sorted level lists (proofs only). *)
From Coq Require Export Sorting.Sorted.
From Verif Require Import Types Book.

Definition before (k : kind) (a b : level) : Prop := better k (l_price a) (l_price b) = true.
Definition sorted (k : kind) (ls : list level) : Prop := StronglySorted (before k) ls.

Lemma better_irrefl k p : better k p p = false.
Proof. unfold better; destruct (desc k); lia. Qed.
Lemma better_trans k p q r : better k p q = true -> better k q r = true -> better k p r = true.
Proof. unfold better; destruct (desc k); lia. Qed.
Lemma better_total k p q : p <> q -> better k p q = false -> better k q p = true.
Proof. unfold better; destruct (desc k); lia. Qed.
Lemma better_asym k p q : better k p q = true -> better k q p = false.
Proof. unfold better; destruct (desc k); lia. Qed.
Lemma better_neq k p q : better k p q = true -> p <> q.
Proof. intros H ->. rewrite better_irrefl in H. done. Qed.

Lemma find_level_price p ls l : find_level p ls = Some l -> l_price l = p.
Proof.
  induction ls as [|a ls IH]; cbn; [done|].
  destruct (Z.eqb_spec (l_price a) p); [by intros [= ->]|done].
Qed.
Lemma find_level_elem p ls l : find_level p ls = Some l -> l ∈ ls.
Proof.
  induction ls as [|a ls IH]; cbn; [done|].
  destruct (Z.eqb_spec (l_price a) p); [intros [= ->]; left|right; auto].
Qed.
Lemma find_level_None p ls : find_level p ls = None <-> (forall l, l ∈ ls -> l_price l <> p).
Proof.
  induction ls as [|a ls IH]; cbn.
  { split; [intros _ l Hl; by apply elem_of_nil in Hl|done]. }
  destruct (Z.eqb_spec (l_price a) p) as [E|E].
  - split; [done|]. intros H. exfalso. apply (H a); [left|done].
  - rewrite IH. split.
    + intros H l Hl. apply elem_of_cons in Hl as [->|Hl]; auto.
    + intros H l Hl. apply H. by right.
Qed.

Lemma sorted_cons_inv k a ls : sorted k (a :: ls) -> sorted k ls /\ (forall l, l ∈ ls -> before k a l).
Proof.
  intros H. apply StronglySorted_inv in H as [H1 H2]. split; [done|].
  intros l Hl. rewrite Forall_forall in H2. auto.
Qed.
Lemma sorted_cons k a ls : sorted k ls -> (forall l, l ∈ ls -> before k a l) -> sorted k (a :: ls).
Proof. intros H1 H2. constructor; [done|]. apply Forall_forall. auto. Qed.

Lemma sorted_find k ls l : sorted k ls -> l ∈ ls -> find_level (l_price l) ls = Some l.
Proof.
  induction ls as [|a ls IH]; intros Hs Hl; [by apply elem_of_nil in Hl|].
  apply sorted_cons_inv in Hs as [Hs Ha].
  cbn. apply elem_of_cons in Hl as [->|Hl].
  - by rewrite Z.eqb_refl.
  - destruct (Z.eqb_spec (l_price a) (l_price l)) as [E|E]; [|auto].
    specialize (Ha _ Hl). unfold before in Ha. rewrite E, better_irrefl in Ha. done.
Qed.

(** upd_level *)
Lemma find_upd p l' q ls : l_price l' = p ->
  find_level q (upd_level p l' ls) =
  if q =? p then (match find_level p ls with Some _ => Some l' | None => None end) else find_level q ls.
Proof.
  intros Hp. induction ls as [|a ls IH]; cbn.
  { by destruct (q =? p). }
  destruct (Z.eqb_spec (l_price a) p) as [E|E]; cbn.
  - rewrite Hp. destruct (Z.eqb_spec q p) as [->|Hq].
    + by rewrite Z.eqb_refl.
    + rewrite E. destruct (Z.eqb_spec p q); [congruence|done].
  - rewrite IH. destruct (Z.eqb_spec q p) as [->|Hq].
    + by destruct (Z.eqb_spec (l_price a) p).
    + done.
Qed.
Lemma upd_prices_map p l' ls : l_price l' = p -> map l_price (upd_level p l' ls) = map l_price ls.
Proof.
  intros Hp. induction ls as [|a ls IH]; cbn; [done|].
  destruct (Z.eqb_spec (l_price a) p) as [E|E]; cbn; congruence.
Qed.
Lemma sorted_map k ls : sorted k ls <-> StronglySorted (fun p q => better k p q = true) (map l_price ls).
Proof.
  induction ls as [|a ls IH]; cbn.
  { split; constructor. }
  split.
  - intros H. apply StronglySorted_inv in H as [H1 H2]. constructor; [by apply IH|].
    apply Forall_map. eapply Forall_impl; [exact H2|]. auto.
  - intros H. apply StronglySorted_inv in H as [H1 H2]. constructor; [by apply IH|].
    apply Forall_map in H2. eapply Forall_impl; [exact H2|]. auto.
Qed.
Lemma sorted_upd k p l' ls : l_price l' = p -> sorted k ls -> sorted k (upd_level p l' ls).
Proof. intros Hp. rewrite !sorted_map, upd_prices_map; auto. Qed.

(** ins_level *)
Lemma elem_ins k l' ls l : l ∈ ins_level k l' ls <-> l = l' \/ l ∈ ls.
Proof.
  induction ls as [|a ls IH]; cbn.
  - rewrite elem_of_list_singleton. split; [auto|intros [?|H]; [done|by apply elem_of_nil in H]].
  - destruct (better k (l_price l') (l_price a)).
    + rewrite elem_of_cons. done.
    + rewrite !elem_of_cons, IH. tauto.
Qed.
Lemma sorted_ins k l' ls : sorted k ls -> find_level (l_price l') ls = None -> sorted k (ins_level k l' ls).
Proof.
  induction ls as [|a ls IH]; cbn; intros Hs Hf.
  { apply sorted_cons; [constructor|]. intros l Hl; by apply elem_of_nil in Hl. }
  destruct (Z.eqb_spec (l_price a) (l_price l')) as [E|E]; [done|].
  destruct (better k (l_price l') (l_price a)) eqn:B.
  - apply sorted_cons; [done|]. intros l Hl.
    apply sorted_cons_inv in Hs as [Hs Ha].
    apply elem_of_cons in Hl as [->|Hl]; [done|].
    eapply better_trans; [exact B|]. by apply Ha.
  - apply sorted_cons_inv in Hs as [Hs Ha].
    apply sorted_cons; [auto|]. intros l Hl.
    apply elem_ins in Hl as [->|Hl]; [|auto].
    apply better_total; [congruence|done].
Qed.
Lemma find_ins k l' q ls : find_level (l_price l') ls = None ->
  find_level q (ins_level k l' ls) = if q =? l_price l' then Some l' else find_level q ls.
Proof.
  induction ls as [|a ls IH]; cbn; intros Hf.
  { destruct (Z.eqb_spec (l_price l') q), (Z.eqb_spec q (l_price l')); congruence. }
  destruct (Z.eqb_spec (l_price a) (l_price l')) as [E|E]; [done|].
  destruct (better k (l_price l') (l_price a)) eqn:B; cbn.
  - destruct (Z.eqb_spec (l_price l') q), (Z.eqb_spec q (l_price l')); congruence.
  - rewrite (IH Hf). destruct (Z.eqb_spec (l_price a) q), (Z.eqb_spec q (l_price l')); congruence.
Qed.

(** del_level *)
Lemma elem_del p ls l : l ∈ del_level p ls -> l ∈ ls.
Proof.
  induction ls as [|a ls IH]; cbn; [done|].
  destruct (l_price a =? p); [by right|].
  rewrite !elem_of_cons. intros [?|?]; auto.
Qed.
Lemma sorted_del k p ls : sorted k ls -> sorted k (del_level p ls).
Proof.
  induction ls as [|a ls IH]; cbn; intros Hs; [done|].
  apply sorted_cons_inv in Hs as [Hs Ha].
  destruct (l_price a =? p); [done|].
  apply sorted_cons; [auto|]. intros l Hl. apply Ha. by eapply elem_del.
Qed.
Lemma find_del k p q ls : sorted k ls ->
  find_level q (del_level p ls) = if q =? p then None else find_level q ls.
Proof.
  induction ls as [|a ls IH]; cbn; intros Hs.
  { by destruct (q =? p). }
  apply sorted_cons_inv in Hs as [Hs Ha].
  destruct (Z.eqb_spec (l_price a) p) as [E|E]; cbn.
  - destruct (Z.eqb_spec q p) as [->|Hq].
    + apply find_level_None. intros l Hl E'. specialize (Ha _ Hl). unfold before in Ha.
      rewrite E, E', better_irrefl in Ha. done.
    + destruct (Z.eqb_spec (l_price a) q); [congruence|done].
  - rewrite (IH Hs). destruct (Z.eqb_spec q p) as [->|Hq]; [|done].
    by destruct (Z.eqb_spec (l_price a) p).
Qed.
Lemma length_del_le p ls : (length (del_level p ls) <= length ls)%nat.
Proof. induction ls as [|a ls IH]; cbn; [lia|]. destruct (l_price a =? p); cbn; lia. Qed.
Lemma length_del p ls : find_level p ls <> None -> S (length (del_level p ls)) = length ls.
Proof.
  induction ls as [|a ls IH]; cbn; intros H; [done|].
  destruct (l_price a =? p); cbn; [done|]. f_equal. auto.
Qed.
Lemma length_upd p l' ls : length (upd_level p l' ls) = length ls.
Proof. induction ls as [|a ls IH]; cbn; [done|]. destruct (l_price a =? p); cbn; congruence. Qed.
Lemma length_ins k l' ls : length (ins_level k l' ls) = S (length ls).
Proof. induction ls as [|a ls IH]; cbn; [done|]. destruct (better _ _ _); cbn; congruence. Qed.

(** best = price of the first level *)
Definition headp (ls : list level) : option Z := match ls with [] => None | l :: _ => Some (l_price l) end.
Lemma headp_upd p l' ls : l_price l' = p -> headp (upd_level p l' ls) = headp ls.
Proof.
  intros Hp. destruct ls as [|a ls]; cbn; [done|].
  destruct (Z.eqb_spec (l_price a) p); cbn; congruence.
Qed.
Lemma headp_ins k l' ls :
  headp (ins_level k l' ls) =
  match headp ls with
  | None => Some (l_price l')
  | Some b => if better k (l_price l') b then Some (l_price l') else Some b
  end.
Proof. destruct ls as [|a ls]; cbn; [done|]. by destruct (better _ _ _). Qed.
Lemma headp_del p ls :
  headp (del_level p ls) =
  if match headp ls with Some b => b =? p | None => false end then next_level p ls else headp ls.
Proof.
  destruct ls as [|a ls]; cbn; [done|].
  unfold next_level; cbn.
  destruct (Z.eqb_spec (l_price a) p); cbn; [|done].
  by destruct ls.
Qed.
Lemma headp_find p ls : headp ls = Some p -> exists l, find_level p ls = Some l /\ head ls = Some l.
Proof. destruct ls as [|a ls]; cbn; [done|]. intros [= <-]. rewrite Z.eqb_refl. eauto. Qed.
Lemma headp_best k ls p q l : sorted k ls -> headp ls = Some p -> find_level q ls = Some l ->
  q = p \/ better k p q = true.
Proof.
  destruct ls as [|a ls]; cbn; [done|]. intros Hs [= <-] Hf.
  apply sorted_cons_inv in Hs as [Hs Ha].
  destruct (Z.eqb_spec (l_price a) q); [by left|].
  right. pose proof (find_level_price _ _ _ Hf) as <-. apply Ha. by eapply find_level_elem.
Qed.

(** from_level *)
Lemma from_level_find p ls : 
  match find_level p ls with
  | Some l => exists r, from_level p ls = l :: r
  | None => from_level p ls = []
  end.
Proof.
  induction ls as [|a ls IH]; cbn; [done|].
  destruct (l_price a =? p); [eauto|done].
Qed.
Lemma from_level_head l r : from_level (l_price l) (l :: r) = l :: r.
Proof. cbn. by rewrite Z.eqb_refl. Qed.
Lemma from_level_suffix p ls : exists pre, ls = pre ++ from_level p ls.
Proof.
  induction ls as [|a ls [pre IH]]; cbn; [by exists []|].
  destruct (l_price a =? p); [by exists []|]. exists (a :: pre). cbn. congruence.
Qed.
Lemma sorted_app_r k a b : sorted k (a ++ b) -> sorted k b.
Proof. induction a as [|x a IH]; cbn; [done|]. intros H. apply sorted_cons_inv in H as [H _]. auto. Qed.
