(** * PropsGuard.v -- the guarded positive parts of C06, C07 and C08. *)
From Coq Require Import ZifyBool.
From stdpp Require Import fin_maps relations.
From Verif Require Import Types Book Engine Manager Factory Validate LevelFacts BookInv EngInv EngPrim Steps StepsOk Api StateInv Micro Reach Calls Witness PropsState CallFacts PropsBasic Spec Spec17.
Open Scope Z_scope. Open Scope list_scope.

(** ** C08: every id but the largest *)
Theorem C08_ids_partial s sy : reach s -> 0 <= sy_id sy < TWO32 - 1 -> get_symbol (sy_id sy) s = None ->
  exists s', call s (AddSymbol sy) s' OK [EAddSymbol sy] /\ get_symbol (sy_id sy) s' = Some sy /\
    (forall i, i <> sy_id sy -> get_symbol i s' = get_symbol i s) /\
    (forall i, get_book i s' = get_book i s) /\ (forall i, get_order i s' = get_order i s).
Proof.
  intros Hr Hi Hn. destruct (call_exists s (AddSymbol sy) (reach_inv _ Hr) Hi) as (s' & er & evs & Hc).
  destruct (C30_registry s (AddSymbol sy) s' er evs Hr Hi Hc) as (Hb & Ho & H). rewrite Hn in H. destruct H as (-> & -> & Hg & Hf).
  exists s'. done.
Qed.
Print Assumptions C08_ids_partial.
Example C08_example : let s := hist [AddSymbol (mkSymbol 3 8)] in let sy := mkSymbol 4000 9 in
  reach s /\ 0 <= sy_id sy < TWO32 - 1 /\ get_symbol (sy_id sy) s = None /\ get_symbol 3 s = Some (mkSymbol 3 8).
Proof. split; [apply hist_reach|]. vm_compute. done. Qed.

(** ** C07: books deleted under live orders, not added again *)
Lemma loose_order s i : loose s -> get_order i s = st_ords s !! i.
Proof.
  intros Hi. unfold get_order. destruct (Z.eqb_spec i 0) as [->|]; [|done].
  destruct (st_ords s !! 0) as [o|] eqn:E; [|done]. pose proof (lo_idpos _ _ (mo_live _ (ls_map _ Hi) _ _ E)). lia.
Qed.
Lemma fair_step_ok s a : loose s -> fair s a -> exists s' er, step s a = Ok (s', er) /\ loose s'.
Proof.
  intros Hinv Hop. destruct (order_op a) eqn:Hord.
  { destruct (order_op_ok s a Hinv ltac:(by destruct a) Hord) as (s' & er & Heq & Ho). exists s', er. split; [done|]. by eapply outcome_loose. }
  destruct a as [sy|i|sy|i|o|i q|i p q|i p q|i ni p q|i o|i|i q|i p q| | |]; try done; cbn [step]; cbn in Hop.
  - unfold add_symbol. destruct (vresize_add (sy_id sy) (st_syms s) Hop) as [Hg Hf].
    set (v' := if vsize (st_syms s) <=? sy_id sy then _ else _) in *.
    destruct (vget (sy_id sy) v') as [[x|]|] eqn:Ex; [| |done].
    + eexists _, _. split; [reflexivity|]. destruct Hinv as [Hm Hb Hsy]. constructor; try done. intros j x' Hj. apply Hsy. unfold get_symbol in *. cbn in Hj. by rewrite Hf in Hj.
    + assert (Hv : forall j, vfind j (vset (sy_id sy) (Some sy) v') = if decide (sy_id sy = j) then Some sy else get_symbol j s).
      { intros j. rewrite vfind_vset by (try rewrite Ex; lia || done). by rewrite Hf. }
      eexists _, _. split; [reflexivity|]. destruct Hinv as [Hm Hb Hsy]. constructor; try done. intros j x' Hj. unfold get_symbol in Hj. cbn in Hj. rewrite Hv in Hj.
      destruct (decide (sy_id sy = j)) as [<-|]; [by injection Hj as <-|]. by apply Hsy.
  - unfold delete_symbol. destruct (vfind i (st_syms s)) as [sy|] eqn:Es; [|by eexists _, _].
    pose proof (vfind_get _ _ _ Es) as [Hg Hi].
    assert (Hv : forall j, vfind j (vset i None (st_syms s)) = if decide (i = j) then None else get_symbol j s) by (intros j; by rewrite vfind_vset).
    eexists _, _. split; [reflexivity|]. destruct Hinv as [Hm Hb Hsy]. constructor; try done. intros j x' Hj. unfold get_symbol in Hj. cbn in Hj. rewrite Hv in Hj.
    destruct (decide (i = j)) as [<-|]; [done|]. by apply Hsy.
  - destruct Hop as [Hop Hno]. unfold add_order_book. destruct (vfind (sy_id sy) (st_syms s)) as [reg|] eqn:Es; [|by eexists _, _].
    destruct (vresize_add (sy_id sy) (st_books s) Hop) as [Hg Hf].
    set (v' := if vsize (st_books s) <=? sy_id sy then _ else _) in *.
    destruct (vget (sy_id sy) v') as [[x|]|] eqn:Ex; [| |done].
    + eexists _, _. split; [reflexivity|]. destruct Hinv as [Hm Hb Hsy]. constructor; try done.
      intros j x' Hj. apply Hb. unfold get_book in *. cbn in Hj. by rewrite Hf in Hj.
    + assert (Hgs : get_book (sy_id sy) s = None). { unfold get_book. rewrite <- Hf. unfold vfind. by rewrite Ex. }
      assert (Hv : forall j, vfind j (vset (sy_id sy) (Some (new_book reg)) v') = if decide (sy_id sy = j) then Some (new_book reg) else get_book j s).
      { intros j. rewrite vfind_vset by (try rewrite Ex; lia || done). by rewrite Hf. }
      eexists _, _. split; [reflexivity|]. pose proof (loose_order s) as Hlo. constructor; try by destruct Hinv.
      intros j x' Hj. unfold get_book in Hj. cbn in Hj. rewrite Hv in Hj. cbn.
      destruct (decide (sy_id sy = j)) as [<-|]; [|by apply Hinv]. injection Hj as <-.
      apply book_ok_new; [by apply Hinv|]. intros j o Hj E. apply (Hno Hgs j o); [by rewrite Hlo|done].
  - unfold delete_order_book. destruct (vfind i (st_books s)) as [b|] eqn:Es; [|by eexists _, _].
    pose proof (vfind_get _ _ _ Es) as [Hg Hi].
    assert (Hv : forall j, vfind j (vset i None (st_books s)) = if decide (i = j) then None else get_book j s) by (intros j; by rewrite vfind_vset).
    eexists _, _. split; [reflexivity|]. destruct Hinv as [Hm Hb Hsy]. constructor; try done.
    intros j x' Hj. unfold get_book in Hj. cbn in Hj. rewrite Hv in Hj. destruct (decide (i = j)) as [<-|]; [done|]. by apply Hb.
  - unfold api_replace_with. destruct Hop as (Hi & Hrg & Htot).
    destruct (order_op_ok s (DeleteOrder i) Hinv Hi eq_refl) as (s1 & er1 & Heq1 & Ho1). cbn [step] in Heq1.
    rewrite Heq1. cbn [rbind]. pose proof (outcome_loose _ _ _ _ Hinv Ho1) as Hinv1.
    destruct (decide (er1 = OK)) as [->|Hne].
    + assert (Hop1 : op_ok s1 (AddOrder o)).
      { split; [done|]. pose proof (outcome_total s _ s1 Hinv Ho1). lia. }
      destruct (order_op_ok s1 (AddOrder o) Hinv1 Hop1 eq_refl) as (s' & er & Heq & Ho). exists s', er. split; [done|]. by eapply outcome_loose.
    + exists s1, er1. split; [by destruct er1|done].
  - destruct (match_books_loose (seq 0 (length (st_books (set_matching true s)))) (set_matching true s)) as (s' & Heq & Hm & Hi).
    { destruct Hinv as [Hm Hb Hsy]. by constructor. }
    unfold match_all. rewrite Heq. cbn [rbind]. by exists s', OK.
  - exists (set_matching false s), OK. split; [done|]. destruct Hinv as [Hm Hb Hsy]. by constructor.
  - destruct (match_books_loose (seq 0 (length (st_books s))) s Hinv) as (s' & Heq & Hm & Hi).
    unfold match_all. rewrite Heq. cbn [rbind]. by exists s', OK.
Qed.
Lemma fair_loose s : reach_fair s -> loose s.
Proof.
  induction 1 as [|s a s' er _ IH Hop Heq]; [apply inv_loose, inv_init|].
  destruct (fair_step_ok s a IH Hop) as (s1 & er1 & Heq1 & Hi). by rewrite Heq in Heq1; injection Heq1 as -> ->.
Qed.
(** Every call is well defined and returns. *)
Theorem C07_defined_partial s a : reach_fair s -> fair s a -> exists s' er, step s a = Ok (s', er).
Proof. intros Hr Hf. destruct (fair_step_ok s a (fair_loose _ Hr) Hf) as (s' & er & H & _). by exists s', er. Qed.
Print Assumptions C07_defined_partial.
(** Calls on an order whose book is gone are answered [ORDER_BOOK_NOT_FOUND] and change nothing. *)
Theorem C07_orphan_partial s a i o : reach_fair s -> fair s a -> get_order i s = Some o -> get_book (o_sym o) s = None -> addresses a i o ->
  call s a s ORDER_BOOK_NOT_FOUND [].
Proof.
  intros Hr Hf Ho Hb Ha. assert (Hi0 : i <> 0). { intros ->. unfold get_order in Ho. done. }
  assert (Ho' : st_ords s !! i = Some o) by (by rewrite (loose_order _ _ (fair_loose _ Hr)) in Ho).
  assert (Hw : forall f, with_order i f s = Ok (s, ORDER_BOOK_NOT_FOUND)) by (intros f; unfold with_order; by rewrite Ho', Hb).
  split; [|by rewrite app_nil_r].
  destruct a as [sy|j|sy|j|x|j q|j p q|j p q|j nj p q|j x|j|j q|j p q| | |]; cbn in Ha; try done; cbn [step].
  1,2,3,7,8: destruct Ha as [-> Hq]; unfold api_reduce, api_modify, api_execute, api_execute_at, check_id, check_qty; by rewrite (proj2 (Z.eqb_neq i 0)), (proj2 (Z.eqb_neq q 0)).
  - destruct Ha as (-> & Hn & Hq & Ht). unfold api_replace, check_id, check_qty. rewrite (proj2 (Z.eqb_neq i 0)), (proj2 (Z.eqb_neq nj 0)), (proj2 (Z.eqb_neq q 0)) by done.
    rewrite Ho'. unfold is_limit. rewrite bool_decide_eq_true_2 by done. cbn [negb]. apply Hw.
  - subst j. unfold api_replace_with, api_delete, check_id. rewrite (proj2 (Z.eqb_neq i 0)) by done. rewrite Hw. done.
  - subst j. unfold api_delete, check_id. by rewrite (proj2 (Z.eqb_neq i 0)).
Qed.
Print Assumptions C07_orphan_partial.
(** The books that are left stay sound: every level holds live orders of its symbol, with exact totals, as in C03 and C04. *)
Theorem C07_other_books_partial s i b k l : reach_fair s -> get_book i s = Some b -> l ∈ s_lvls (get_side k b) ->
  exists os, Forall2 (fun j o => get_order j s = Some o) (l_ids l) os /\ os <> [] /\ NoDup (l_ids l) /\
    Forall (fun o => o_sym o = i /\ 0 < o_leaves o) os /\
    li_total (l_info l) = sumZ (map o_leaves os) /\ li_count (l_info l) = Z.of_nat (length os).
Proof.
  intros Hr Hb Hl. pose proof (fair_loose _ Hr) as Hinv. pose proof (ls_book _ Hinv _ _ Hb) as Hok.
  pose proof (level_of_side _ _ _ _ _ (bk_side _ _ _ Hok k) Hl) as [Hne Hnd Hin Hty Htot Hhid Hvis Hcnt].
  assert (H : exists os, Forall2 (fun j o => get_order j s = Some o) (l_ids l) os /\ Forall (fun o => o_sym o = i /\ 0 < o_leaves o) os).
  { clear -Hin Hinv. induction (l_ids l) as [|j ids IH]; [by exists []|]. destruct IH as (os & Hos & Hss).
    { intros i' Hi'. apply Hin. by right. }
    destruct (Hin j) as (o & Ho & Hs & _); [left|]. exists (o :: os). split; constructor; try done; [by rewrite loose_order|]. split; [done|]. apply (lo_leaves _ _ (mo_live _ (ls_map _ Hinv) _ _ Ho)). }
  destruct H as (os & Hos & Hss). exists os. split; [done|]. split. { intros ->. inversion Hos. congruence. }
  assert (Hsum : forall f, osum f (st_ords s) (l_ids l) = sumZ (map f os)).
  { intros f. clear -Hos Hinv. induction Hos as [|j o ids os Hj _ IH]; [done|]. rewrite osum_cons. cbn.
    rewrite loose_order in Hj by done. rewrite Hj, IH. done. }
  split; [done|]. split; [done|]. rewrite Htot, Hcnt, Hsum. split; [done|]. by rewrite (Forall2_length _ _ _ Hos).
Qed.
Print Assumptions C07_other_books_partial.

Definition fairb (s : state) (a : op) : bool :=
  match a with
  | DeleteOrderBook _ => true
  | AddOrderBook sy => (0 <=? sy_id sy) && (sy_id sy <? TWO32 - 1) && forallb (fun x => negb (o_sym (snd x) =? sy_id sy)) (map_to_list (st_ords s))
  | _ => op_okb s a
  end.
Lemma fairb_ok s a : fairb s a = true -> fair s a.
Proof.
  destruct a; try (intros H; by apply (op_okb_ok s _ H)); cbn; [|done].
  intros H. apply andb_prop in H as [H1 H2]. split; [lia|]. intros _ j o Hj E. unfold get_order in Hj. destruct (j =? 0); [done|].
  apply elem_of_map_to_list, elem_of_list_In in Hj. pose proof (proj1 (forallb_forall _ _) H2 _ Hj) as H3. cbn in H3. lia.
Qed.
Fixpoint fair_history (s : state) (ops : list op) : option state :=
  match ops with
  | [] => Some s
  | a :: ops => if fairb s a then match step s a with Ok (s', _) => fair_history s' ops | _ => None end else None
  end.
Lemma fair_history_reach ops : forall s s', reach_fair s -> fair_history s ops = Some s' -> reach_fair s'.
Proof.
  induction ops as [|a ops IH]; intros s s' Hr H; cbn [fair_history] in H; [by injection H as <-|].
  destruct (fairb s a) eqn:E; [|done]. apply fairb_ok in E.
  destruct (step s a) as [[s1 er]| |] eqn:Es; [|done|done]. eapply IH; [|done]. by eapply rf_step.
Qed.
Example C07_example : exists s o, reach_fair s /\ get_order 1 s = Some o /\ get_book (o_sym o) s = None /\ get_order 2 s <> None /\
  fair s (DeleteOrder 1) /\ addresses (DeleteOrder 1) 1 o /\ get_book 1 s <> None /\ fair s (AddOrder (LimitOrder 3 1 SELL 5 5 GTC MAX64)).
Proof.
  pose (ops := [AddSymbol (mkSymbol 0 7); AddOrderBook (mkSymbol 0 7); AddSymbol (mkSymbol 1 7); AddOrderBook (mkSymbol 1 7); EnableMatching;
    AddOrder (LimitOrder 1 0 BUY 100 10 GTC MAX64); AddOrder (LimitOrder 2 1 BUY 100 10 GTC MAX64); DeleteOrderBook 0]).
  destruct (fair_history init ops) as [s|] eqn:E; [|vm_compute in E; discriminate].
  pose proof (fair_history_reach ops init s rf_init E) as Hr. exists s. vm_compute in E. injection E as <-.
  eexists. split; [exact Hr|]. split; [vm_compute; reflexivity|]. split; [vm_compute; reflexivity|]. split; [vm_compute; discriminate|].
  split; [apply fairb_ok; vm_compute; reflexivity|]. split; [reflexivity|]. split; [vm_compute; discriminate|]. apply fairb_ok; vm_compute; reflexivity.
Qed.
