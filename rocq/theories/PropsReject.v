(** * PropsReject.v -- rejected calls and replacement: C22, C26. *)
From Coq Require Import ZifyBool.
From stdpp Require Import fin_maps relations.
From Verif Require Import Types Book Engine Manager Factory Validate LevelFacts BookInv EngInv EngPrim Steps StepsOk Refine3 Refine4 Api StateInv Micro Reach Calls Witness PropsState PropsSettle CallFacts Trades PropsFill PropsMirror PropsMirror2 Split PropsStops PropsDirect Spec Spec2 Spec3 Spec4 Spec5.

(** ** C22: a rejected call changes nothing and notifies nobody.
    Proved for every error code but ORDER_DUPLICATE, and for ReplaceOrder(id, order) when there is no
    order [id]; the two missing cases are false ([C22_duplicate_refuted], [C22_replace_refuted]). *)
Theorem C22_rejected_partial s a s' er evs : reach s -> op_ok s a -> call s a s' er evs -> er <> OK -> er <> ORDER_DUPLICATE ->
  (forall i o, a = ReplaceWith i o -> get_order i s = None) -> same_contents s s' /\ evs = [].
Proof.
  intros Hr Hop Hc H1 H2 H3. destruct (refusal s a) as [e|] eqn:Hf.
  - by destruct (C46_refused s a s' er evs e Hr Hop Hc Hf) as (_ & H & ?).
  - destruct (plain_op a) eqn:Hp.
    + by destruct (C46_accepted s a s' er evs Hr Hop Hc Hf Hp) as [?|[? _]].
    + destruct a as [| | | | | | | | |i o| | | | | |]; try done. specialize (H3 i o eq_refl). cbn [refusal] in Hf. unfold need_order in Hf. rewrite H3 in Hf. by destruct (decide (i = 0)).
Qed.
Print Assumptions C22_rejected_partial.
(** AddOrder with an id in use returns ORDER_DUPLICATE, but only after the order has traded. *)
Theorem C22_duplicate_refuted : exists s a s' evs r p q, reach s /\ op_ok s a /\ call s a s' ORDER_DUPLICATE evs /\
  EExecute r p q ∈ evs /\ o_id r = 2 /\ get_order 2 s <> None /\ get_order 2 s' = None.
Proof.
  set (ops := setup ++ [EnableMatching; SL 1 110 10; SL 2 100 4]). set (s := hist ops). set (a := BL 1 100 10).
  assert (Hn : news s a !! 1%nat = Some (EExecute (LimitOrder 2 0 SELL 100 4 GTC MAX64) 100 4)) by (vm_compute; reflexivity).
  assert (Hop : op_ok s a) by (apply op_okb_ok; vm_compute; reflexivity).
  assert (Hc : call s a (after s a) ORDER_DUPLICATE (news s a)) by (assert (ret s a = ORDER_DUPLICATE) as <- by (vm_compute; reflexivity); apply (hist_call ops); vm_compute; reflexivity).
  assert (Hg : exists o, get_order 2 s = Some o) by (eexists; vm_compute; reflexivity).
  assert (Hl : get_order 2 (after s a) = None) by (vm_compute; reflexivity).
  pose proof (hist_reach ops : reach s) as Hr. generalize dependent (after s a). generalize dependent (news s a). clearbody s. intros evs Hn s' Hc Hl.
  exists s, a, s', evs, (LimitOrder 2 0 SELL 100 4 GTC MAX64), 100, 4. split; [exact Hr|]. split; [exact Hop|]. split; [exact Hc|].
  split. { apply elem_of_list_lookup. exists 1%nat. exact Hn. } split; [reflexivity|]. split; [|exact Hl]. destruct Hg as [o Ho]. by rewrite Ho.
Qed.
Print Assumptions C22_duplicate_refuted.
(** ReplaceOrder(id, order) with an invalid order returns the error of AddOrder, but only after the
    old order has been deleted. *)
Theorem C22_replace_refuted : exists s a s' evs, reach s /\ op_ok s a /\ call s a s' ORDER_QUANTITY_INVALID evs /\
  evs <> [] /\ get_order 1 s <> None /\ get_order 1 s' = None.
Proof.
  set (ops := setup ++ [SL 1 100 10]). set (s := hist ops). set (a := ReplaceWith 1 (LimitOrder 2 0 SELL 100 0 GTC MAX64)).
  assert (Hn : exists ev l, news s a = ev :: l) by (eexists _, _; vm_compute; reflexivity).
  assert (Hop : op_ok s a) by (apply op_okb_ok; vm_compute; reflexivity).
  assert (Hc : call s a (after s a) ORDER_QUANTITY_INVALID (news s a)) by (assert (ret s a = ORDER_QUANTITY_INVALID) as <- by (vm_compute; reflexivity); apply (hist_call ops); vm_compute; reflexivity).
  assert (Hg : exists o, get_order 1 s = Some o) by (eexists; vm_compute; reflexivity).
  assert (Hl : get_order 1 (after s a) = None) by (vm_compute; reflexivity).
  pose proof (hist_reach ops : reach s) as Hr. generalize dependent (after s a). generalize dependent (news s a). clearbody s. intros evs (ev & l & ->) s' Hc Hl.
  exists s, a, s', (ev :: l). split; [exact Hr|]. split; [exact Hop|]. split; [exact Hc|]. split; [done|]. split; [|exact Hl]. destruct Hg as [o Ho]. by rewrite Ho.
Qed.
Print Assumptions C22_replace_refuted.
(** With matching off a duplicate is harmless: orders and queues stay, but the handlers see the
    rejected order come and go. *)
Theorem C22_duplicate_off s o s' evs : reach s -> op_ok s (AddOrder o) -> st_match s = false -> call s (AddOrder o) s' ORDER_DUPLICATE evs ->
  (forall i, get_order i s' = get_order i s) /\ queues_kept s s' /\ exists o1 o2, o_id o1 = o_id o /\ o_id o2 = o_id o /\ evs = [EAddOrder o1; EDeleteOrder o2].
Proof.
  intros Hr Hop Hm Hc. pose proof (reach_inv _ Hr) as Hinv0.
  destruct (refusal s (AddOrder o)) as [e|] eqn:Hf.
  { exfalso. destruct (C46_refused s _ s' _ evs e Hr Hop Hc Hf) as (<- & _). cbn [refusal] in Hf. destruct (decide _) as [Hv|Hv]; [by destruct (get_book _ s)|].
    injection Hf as Hf. unfold validate in Hf. repeat (destruct (_ =? _); [done|]). repeat (case_match; try done). }
  destruct (off_call _ _ _ _ _ Hr Hop eq_refl Hc Hm Hf) as (sid & b & hevs & c & evs2 & Hinv & Hinv' & Hb & Htg & Hh & Hcf & Hoff & ->).
  inversion Hh as [o0 o' Hsym Hval| | | | |a2 i' price q0 o0 u e' q1 o' Q' evs' Ha]; subst; try (by destruct mit); [|by destruct Ha as [[? _]|?]].
  inversion Hoff as [| | |e o2 Hce Hex]; subst. injection Hce as <- E2. split; [|split].
  - intros i. by rewrite !get_order_inv by done.
  - exact (put_queues s (o_sym o) b (emit (EDeleteOrder o2) (emit (EAddOrder o') (eng_of b s))) (fun b b' => forall k p, queue b' k p = queue b k p) Hb ltac:(done) ltac:(done)).
  - eexists _, o2. split; [|split; [|done]]; [|rewrite <- E2]; unfold o'; by rewrite placed_id.
Qed.
Print Assumptions C22_duplicate_off.

(** ** C26: ReplaceOrder(id, new id, price, quantity) with a new id that is free (or the old one)
    either is rejected and changes nothing or replaces the order. *)
Theorem C26_replace_partial s i ni p q s' er evs : reach s -> op_ok s (ReplaceOrder i ni p q) -> call s (ReplaceOrder i ni p q) s' er evs ->
  ni = i \/ get_order ni s = None ->
  er <> OK /\ same_contents s s' /\ evs = [] \/
  er = OK /\ exists o pre post, get_order i s = Some o /\ evs = pre ++ EDeleteOrder o :: EAddOrder (replacement ni p q o) :: post /\ execs pre = [] /\
    (i <> ni -> get_order i s' = None).
Proof.
  intros Hr Hop Hc Hni. destruct (refusal s (ReplaceOrder i ni p q)) as [e|] eqn:Hf.
  { left. destruct (C46_refused s _ s' er evs e Hr Hop Hc Hf) as (-> & H1 & H2). split; [|done]. intros ->. cbn [refusal] in Hf. unfold need_order in Hf.
    repeat case_match; try done. }
  right. assert (er = OK) as ->.
  { destruct (C46_accepted s _ s' er evs Hr Hop Hc Hf eq_refl) as [?|(_ & j & Hj & Hl & Hne)]; [done|]. cbn in Hj, Hne. subst j. destruct Hni as [->|Hni]; congruence. }
  split; [done|]. pose proof (reach_inv _ Hr) as Hinv. pose proof (call_result _ _ _ _ _ Hr Hop Hc) as (_ & _ & Hinv').
  destruct (order_call_seg s _ s' OK evs Hr Hop eq_refl Hc) as [(_ & _ & Hn & _)|Hseg]; [done|].
  inversion Hseg as [a sid b hevs c uevs e2 Hoo Hb Htg Hh Hcf Hfr1 Hfr2 Hus|]; subst.
  inversion Hh as [| |mit i' p0 q0 o0 u e' o' evs' Q' Ho' Hid Hsym Hq' He' Hords Hlog Hpr Hp Ea|i' ni' p0 q0 o0 u e' o' Q' evs' Ho Hid Hsym Hq Hni' Hty He' Hords Hlog Hpr Hp| |a2 i' price q0 o0 u e' q1 o' Q' evs' Ha]; subst;
    [by destruct mit| |by destruct Ha as [[? _]|?]].
  exists o0, (lim_evs o0 (o_sym o0) u), uevs. split; [by rewrite get_order_inv|]. split. { unfold evs'. rewrite <- app_assoc. by destruct o0. } split; [apply execs_lim|].
  intros Hne. rewrite get_order_inv by done. cbn [put_eng st_ords].
  destruct (usteps_ids _ _ _ _ _ Hus Hcf (o_id o0)) as [H _]; [cbn [fst]; by rewrite Hords, lookup_delete| |done]. intros o [= <-] E. by apply Hne.
Qed.
Print Assumptions C26_replace_partial.
(** With a new id in use, the call loses the old order and adds no new one. *)
Theorem C26_duplicate_refuted : exists s s' evs, reach s /\ op_ok s (ReplaceOrder 1 2 100 10) /\ call s (ReplaceOrder 1 2 100 10) s' ORDER_DUPLICATE evs /\
  get_order 1 s <> None /\ get_order 1 s' = None /\ get_order 2 s' = get_order 2 s.
Proof.
  set (ops := setup ++ [EnableMatching; SL 1 110 10; SL 2 100 4]). set (s := hist ops). set (a := ReplaceOrder 1 2 100 10).
  assert (Hop : op_ok s a) by (apply op_okb_ok; vm_compute; reflexivity).
  assert (Hc : call s a (after s a) ORDER_DUPLICATE (news s a)) by (assert (ret s a = ORDER_DUPLICATE) as <- by (vm_compute; reflexivity); apply (hist_call ops); vm_compute; reflexivity).
  assert (Hg : exists o, get_order 1 s = Some o) by (eexists; vm_compute; reflexivity).
  assert (Hl : get_order 1 (after s a) = None) by (vm_compute; reflexivity).
  assert (Hm : get_order 2 (after s a) = get_order 2 s) by (vm_compute; reflexivity).
  pose proof (hist_reach ops : reach s) as Hr. exists s, (after s a), (news s a). 
  split; [exact Hr|]. split; [exact Hop|]. split; [exact Hc|]. split; [|split; [exact Hl|exact Hm]]. destruct Hg as [o Ho]. by rewrite Ho.
Qed.
Print Assumptions C26_duplicate_refuted.
(** ReplaceOrder(id, order) is atomic when the new order is valid, its book exists and its id is free
    (or the old one): the old order is deleted and the new one is accepted. *)
Theorem C26_replace_with_partial s i o s' er evs : reach s -> op_ok s (ReplaceWith i o) -> call s (ReplaceWith i o) s' er evs ->
  validate o = OK -> get_book (o_sym o) s <> None -> o_id o = i \/ get_order (o_id o) s = None ->
  er <> OK /\ same_contents s s' /\ evs = [] \/
  er = OK /\ exists old s1 evs1 evs2, get_order i s = Some old /\ call s (DeleteOrder i) s1 OK evs1 /\ EDeleteOrder old ∈ evs1 /\ get_order i s1 = None /\
    call s1 (AddOrder o) s' OK evs2 /\ evs = evs1 ++ evs2.
Proof.
  intros Hr Hop Hc Hv Hbk Hid. pose proof (reach_inv _ Hr) as Hinv. destruct (refusal s (ReplaceWith i o)) as [e|] eqn:Hf.
  { left. destruct (C46_refused s _ s' er evs e Hr Hop Hc Hf) as (-> & H1 & H2). split; [|done]. intros ->. cbn [refusal] in Hf. unfold need_order in Hf.
    repeat case_match; try done. }
  right. destruct (C47_replace_with s i o s' er evs Hr Hop Hc Hf) as (s1 & evs1 & evs2 & Hc1 & Hc2 & ->).
  assert (Hop1 : op_ok s (DeleteOrder i)) by (destruct Hop; done).
  destruct (call_outcome s _ s1 OK evs1 Hr Hop1 eq_refl Hc1) as (_ & Hout & Hinv1). pose proof (outcome_total s i s1 Hinv Hout) as Htot.
  assert (Hop2 : op_ok s1 (AddOrder o)). { cbn in Hop |- *. destruct Hop as (_ & Hrg & Htot'). split; [done|]. lia. }
  assert (Hr1 : reach s1) by (eapply reach_step; [exact Hr|exact Hop1|exact (proj1 Hc1)]).
  destruct (order_call_seg s _ s1 OK evs1 Hr Hop1 eq_refl Hc1) as [(_ & _ & Hn & _)|Hseg]; [done|].
  inversion Hseg as [a sid b hevs c uevs e2 Hoo Hb Htg Hh Hcf Hfr1 Hfr2 Hus|]; subst.
  inversion Hh as [| |mit i' p0 q0 o0 u e' o' evs' Q' Ho' Hid' Hsym Hq' He' Hords Hlog Hpr Hp Ea| |i' o0 u e' Q' evs' Ho Hid' Hsym He' Hords Hlog Hpr Hp|a2 i' price q0 o0 u e' q1 o' Q' evs' Ha]; subst;
    [by destruct mit| |by destruct Ha as [[? _]|?]].
  assert (Hgone : forall j, st_ords s !! j = None \/ j = o_id o0 -> e_ords e2 !! j = None).
  { intros j Hj. destruct (usteps_ids _ _ _ _ _ Hus Hcf j) as [H _]; [|by intros ?|done]. cbn [fst]. rewrite Hords. apply lookup_delete_None. cbn. naive_solver. }
  destruct (refusal (put_eng (o_sym o0) e2 s) (AddOrder o)) as [e|] eqn:Hf2.
  - exfalso. revert Hf2. cbn [refusal]. rewrite decide_True by done. rewrite (get_book_put _ _ _ _ _ Hb). destruct (decide _); [done|]. by destruct (get_book (o_sym o) s).
  - destruct (C46_accepted _ _ s' er evs2 Hr1 Hop2 Hc2 Hf2 eq_refl) as [->|(_ & j & Hj & Hl & _)].
    + split; [done|]. eexists o0, _, _, evs2. split; [by rewrite get_order_inv|]. split; [exact Hc1|]. split; [|split; [|split; [exact Hc2|done]]].
      * unfold evs'. rewrite <- app_assoc. apply elem_of_app. right. left.
      * rewrite get_order_inv by done. apply Hgone. by right.
    + exfalso. apply Hl. cbn in Hj. subst j. rewrite get_order_inv by done. apply Hgone. destruct Hid as [->|Hid]; [by right|left]. by rewrite get_order_inv in Hid.
Qed.
Print Assumptions C26_replace_with_partial.
Theorem C26_replace_with_refuted : exists s o s' evs, reach s /\ op_ok s (ReplaceWith 1 o) /\ call s (ReplaceWith 1 o) s' ORDER_QUANTITY_INVALID evs /\
  get_order 1 s <> None /\ get_order 1 s' = None /\ get_order (o_id o) s' = None.
Proof.
  set (ops := setup ++ [SL 1 100 10]). set (s := hist ops). set (o := LimitOrder 2 0 SELL 100 0 GTC MAX64). set (a := ReplaceWith 1 o).
  assert (Hop : op_ok s a) by (apply op_okb_ok; vm_compute; reflexivity).
  assert (Hc : call s a (after s a) ORDER_QUANTITY_INVALID (news s a)) by (assert (ret s a = ORDER_QUANTITY_INVALID) as <- by (vm_compute; reflexivity); apply (hist_call ops); vm_compute; reflexivity).
  assert (Hg : exists o, get_order 1 s = Some o) by (eexists; vm_compute; reflexivity).
  assert (Hl : get_order 1 (after s a) = None) by (vm_compute; reflexivity).
  assert (Hm : get_order (o_id o) (after s a) = None) by (vm_compute; reflexivity).
  pose proof (hist_reach ops : reach s) as Hr. exists s, o, (after s a), (news s a).
  split; [exact Hr|]. split; [exact Hop|]. split; [exact Hc|]. split; [|split; [exact Hl|exact Hm]]. destruct Hg as [x Hx]. by rewrite Hx.
Qed.
Print Assumptions C26_replace_with_refuted.

(** ** Concrete cases of the hypotheses of this file and of PropsDirect.v *)
Definition meets (ops : list op) (a : op) (er : err) : Prop :=
  let s := hist ops in reach s /\ op_ok s a /\ call s a (after s a) er (news s a).
Lemma meets_by ops a er : op_okb (hist ops) a = true -> ret (hist ops) a = er -> meets ops a er.
Proof. intros H1 H2. split; [apply hist_reach|]. split; [by apply op_okb_ok|]. rewrite <- H2. by apply hist_call. Qed.
Ltac meet := apply meets_by; vm_compute; reflexivity.
(** Two bids at 100, an ask at 101 and a stop order; matching is off. *)
Definition ex_off : list op := setup ++ [BL 1 100 10; BL 2 100 5; SL 3 101 7; AddOrder (StopOrder 4 0 BUY 112 3 GTC MAX64)].
(** ... and a partial execution of order 1. *)
Definition ex_off2 : list op := ex_off ++ [ExecuteOrder 1 4].
Example C22_rejected_example : meets ex_off (DeleteOrder 9) ORDER_NOT_FOUND /\ get_order 9 (hist ex_off) = None.
Proof. split; [meet|vm_compute; reflexivity]. Qed.
Example C22_duplicate_off_example : meets ex_off (SL 1 99 5) ORDER_DUPLICATE /\ st_match (hist ex_off) = false.
Proof. split; [meet|vm_compute; reflexivity]. Qed.
Example C26_replace_example : meets ex_off2 (ReplaceOrder 1 7 101 9) OK /\ get_order 7 (hist ex_off2) = None.
Proof. split; [meet|vm_compute; reflexivity]. Qed.
Example C26_replace_with_example : meets (ex_off2 ++ [EnableMatching]) (ReplaceWith 1 (LimitOrder 1 0 BUY 101 9 IOC MAX64)) OK.
Proof. meet. Qed.
Example C46_example : meets ex_off (ReplaceOrder 4 5 100 1) ORDER_TYPE_INVALID /\ refusal (hist ex_off) (ReplaceOrder 4 5 100 1) = Some ORDER_TYPE_INVALID /\
  meets ex_off (ReplaceOrder 2 3 100 1) ORDER_DUPLICATE /\ refusal (hist ex_off) (ReplaceOrder 2 3 100 1) = None.
Proof. split; [meet|]. split; [vm_compute; reflexivity|]. split; [meet|vm_compute; reflexivity]. Qed.
Example C47_example : meets ex_off (ReplaceWith 2 (LimitOrder 3 0 SELL 90 1 GTC MAX64)) ORDER_DUPLICATE /\
  refusal (hist ex_off) (ReplaceWith 2 (LimitOrder 3 0 SELL 90 1 GTC MAX64)) = None.
Proof. split; [meet|vm_compute; reflexivity]. Qed.
Example C25_example : meets ex_off2 (ReduceOrder 1 2) OK /\ meets ex_off2 (ReduceOrder 1 99) OK /\ meets ex_off2 (ModifyOrder 1 101 20) OK /\
  st_match (hist ex_off2) = false /\ exists o, get_order 1 (hist ex_off2) = Some o /\ o_leaves o = 6 /\ o_exec o = 4 /\ o_type o = LIMIT.
Proof. split; [meet|]. split; [meet|]. split; [meet|]. split; [vm_compute; reflexivity|]. eexists. split; [vm_compute; reflexivity|]. split; [reflexivity|]. split; reflexivity. Qed.
Example C37_example : meets ex_off2 (DeleteOrder 4) OK /\ meets ex_off2 (ExecuteOrder 1 3) OK /\ meets ex_off2 (ExecuteOrderAt 2 300 9) OK.
Proof. split; [meet|]. split; [meet|meet]. Qed.
Example C32_example : meets ex_off2 (SL 9 90 5) OK /\ meets ex_off2 (ModifyOrder 4 0 5) OK /\ meets ex_off2 (ReplaceWith 4 (LimitOrder 5 0 SELL 90 1 GTC MAX64)) OK.
Proof. split; [meet|]. split; [meet|meet]. Qed.
