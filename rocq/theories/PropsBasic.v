(** * PropsBasic.v -- validation, factories, registry, isolation: C21, C45, C30, C31. *)
From Coq Require Import ZifyBool.
From stdpp Require Import fin_maps relations.
From Verif Require Import Types Book Engine Manager Factory Validate LevelFacts BookInv EngInv EngPrim Steps StepsOk Refine3 Refine4 Api StateInv Micro Reach Calls Witness PropsState PropsSettle CallFacts Spec Spec2.

(** ** C21
    Exactly the rules, with the smallest percentage distance accepted being -1000 (10%).  Missing
    for the full claim: the documented bound -10000 (100%), which is refuted below. *)
Theorem C21_validate_partial o : order_range o ->
  (validate o = ORDER_ID_INVALID <-> o_id o = 0) /\
  (validate o = ORDER_QUANTITY_INVALID <-> o_id o <> 0 /\ ~ quantity_rule o) /\
  (validate o = ORDER_PARAMETER_INVALID <-> o_id o <> 0 /\ quantity_rule o /\ ~ parameter_rule (-1000) o) /\
  (validate o = OK <-> o_id o <> 0 /\ quantity_rule o /\ parameter_rule (-1000) o).
Proof. apply validate_spec. Qed.
Print Assumptions C21_validate_partial.
(** Every documented error is the only one possible. *)
Theorem C21_codes o : validate o = OK \/ validate o = ORDER_ID_INVALID \/ validate o = ORDER_QUANTITY_INVALID \/ validate o = ORDER_PARAMETER_INVALID.
Proof. apply validate_codes. Qed.
Print Assumptions C21_codes.
(** AddOrder applies Validate: a rejected order gives its error code and changes nothing. *)
Theorem C21_add_order s o s' er evs : reach s -> call s (AddOrder o) s' er evs -> validate o <> OK ->
  er = validate o /\ s' = s /\ evs = [].
Proof.
  intros _ [Hst Hlog] Hv. cbn in Hst. unfold api_add in Hst.
  destruct (validate o) eqn:E; [done|..]; injection Hst as <- <-; (split; [done|]; split; [done|]);
  apply (f_equal length) in Hlog; rewrite app_length in Hlog; destruct evs; cbn in *; [done|lia| done|lia|done|lia|done|lia|done|lia|done|lia|done|lia|done|lia|done|lia|done|lia].
Qed.
Print Assumptions C21_add_order.
(** The documented range of percentage distances (order.h:184-194, and the message of the assertion
    in Validate) is not accepted: a 50% trailing stop is refused. *)
Theorem C21_documented_refuted : exists o, order_range o /\ o_id o <> 0 /\ quantity_rule o /\ parameter_rule (-10000) o /\ validate o = ORDER_PARAMETER_INVALID.
Proof.
  exists (TrailingStopOrder 1 0 SELL 100 10 (-5000) (-1) GTC MAX64). split; [apply order_rangeb_ok; reflexivity|].
  unfold quantity_rule, parameter_rule, trailing_rule. cbn. repeat split; try lia; done.
Qed.
Print Assumptions C21_documented_refuted.
Example C21_example : let o := TrailingStopLimitOrder 1 0 SELL 100 90 10 (-500) (-20) GTC 5 in order_range o /\ validate o = OK /\ parameter_rule (-1000) o.
Proof. split; [apply order_rangeb_ok; reflexivity|]. split; [reflexivity|]. unfold parameter_rule, trailing_rule. cbn. unfold MAX64. lia. Qed.

(** ** C45 *)
Theorem C45_factories id sym sd p stp q slip mv d st tf :
  u64_range id -> id <> 0 -> u64_range q -> q <> 0 -> 0 <= sym < TWO32 -> u64_range p -> u64_range stp ->
  u64_range slip -> u64_range mv -> i64_range d -> i64_range st ->
  let built o := validate o = OK /\ o_exec o = 0 /\ o_qty o = q /\ o_leaves o = q /\ o_id o = id /\ o_sym o = sym /\ o_side o = sd in
  built (MarketOrder id sym sd q slip) /\
  (built (LimitOrder id sym sd p q tf mv) /\ o_price (LimitOrder id sym sd p q tf mv) = p) /\
  (tf <> AON -> built (StopOrder id sym sd stp q tf slip) /\ o_stop (StopOrder id sym sd stp q tf slip) = stp) /\
  (built (StopLimitOrder id sym sd stp p q tf mv) /\ o_stop (StopLimitOrder id sym sd stp p q tf mv) = stp /\ o_price (StopLimitOrder id sym sd stp p q tf mv) = p) /\
  ((0 < d /\ 0 <= st < d) \/ (-1000 <= d <= -1 /\ d < st <= 0) ->
    (tf <> AON -> built (TrailingStopOrder id sym sd stp q d st tf slip)) /\ built (TrailingStopLimitOrder id sym sd stp p q d st tf mv)).
Proof.
  intros H1 H2 H3 H4 H5 H6 H7 H8 H9 H10 H11 built.
  destruct (factories_valid id sym sd p stp q slip mv d st tf) as ((A1&_)&(A2&_)&(A3&_)&(A4&_)&A5); try done.
  unfold built. cbn [o_exec o_qty o_leaves o_id o_sym o_side o_price o_stop MarketOrder LimitOrder StopOrder StopLimitOrder TrailingStopOrder TrailingStopLimitOrder].
  split; [done|]. split; [done|]. split.
  { intros Ht. split; [|done]. split; [|done]. rewrite A3. unfold is_aon. cbn. by rewrite bool_decide_eq_false_2. }
  split; [done|]. intros Hl. destruct (A5 Hl) as (B1 & B2 & _). split; [|done]. intros Ht. split; [by apply B1|done].
Qed.
Print Assumptions C45_factories.

(** ** C30 *)
Theorem C30_registry s a s' er evs : reach s -> op_ok s a -> call s a s' er evs ->
  match a with
  | AddSymbol sy =>
      (forall i, get_book i s' = get_book i s) /\ (forall i, get_order i s' = get_order i s) /\
      match get_symbol (sy_id sy) s with
      | Some _ => er = SYMBOL_DUPLICATE /\ evs = [] /\ forall i, get_symbol i s' = get_symbol i s
      | None => er = OK /\ evs = [EAddSymbol sy] /\ get_symbol (sy_id sy) s' = Some sy /\
                forall i, i <> sy_id sy -> get_symbol i s' = get_symbol i s
      end
  | DeleteSymbol i =>
      (forall j, get_book j s' = get_book j s) /\ (forall j, get_order j s' = get_order j s) /\
      match get_symbol i s with
      | None => er = SYMBOL_NOT_FOUND /\ evs = [] /\ forall j, get_symbol j s' = get_symbol j s
      | Some sy => er = OK /\ evs = [EDeleteSymbol sy] /\ get_symbol i s' = None /\
                   forall j, j <> i -> get_symbol j s' = get_symbol j s
      end
  | AddOrderBook sy =>
      (forall i, get_symbol i s' = get_symbol i s) /\ (forall i, get_order i s' = get_order i s) /\
      match get_symbol (sy_id sy) s, get_book (sy_id sy) s with
      | None, _ => er = SYMBOL_NOT_FOUND /\ evs = [] /\ forall i, get_book i s' = get_book i s
      | Some _, Some _ => er = ORDER_BOOK_DUPLICATE /\ evs = [] /\ forall i, get_book i s' = get_book i s
      | Some reg, None => er = OK /\ evs = [EAddBook (sy_id sy)] /\ get_book (sy_id sy) s' = Some (new_book reg) /\
                          forall i, i <> sy_id sy -> get_book i s' = get_book i s
      end
  | DeleteOrderBook i =>
      (forall j, get_symbol j s' = get_symbol j s) /\ (forall j, get_order j s' = get_order j s) /\
      match get_book i s with
      | None => er = ORDER_BOOK_NOT_FOUND /\ evs = [] /\ forall j, get_book j s' = get_book j s
      | Some _ => er = OK /\ evs = [EDeleteBook i] /\ get_book i s' = None /\
                  forall j, j <> i -> get_book j s' = get_book j s
      end
  | _ => (forall i, get_symbol i s' = get_symbol i s) /\ (forall i, get_book i s' = None <-> get_book i s = None) /\
         (forall i b b', get_book i s = Some b -> get_book i s' = Some b' -> b_sym b' = b_sym b)
  end.
Proof.
  intros Hr Hop Hc. destruct (registry_op a) eqn:Hreg.
  2: { destruct (call_segs _ _ _ _ _ Hr Hop Hc Hreg) as (l & Hs & _). destruct (segs_keep _ _ _ _ _ Hs) as (K1 & _ & K2).
    assert (K1' : st_syms s' = st_syms s) by (by destruct a).
    assert (K3 : forall i, match get_book i s, get_book i s' with Some b, Some b' => b_sym b' = b_sym b | None, None => True | _, _ => False end).
    { intros i. specialize (K2 i). by destruct a. }
    assert (H : (forall i, get_symbol i s' = get_symbol i s) /\ (forall i, get_book i s' = None <-> get_book i s = None) /\
         (forall i b b', get_book i s = Some b -> get_book i s' = Some b' -> b_sym b' = b_sym b)); [|by destruct a].
    split; [intros i; unfold get_symbol; by rewrite K1'|]. split.
    - intros i. specialize (K3 i). destruct (get_book i s), (get_book i s'); done.
    - intros i b b' Hb Hb'. specialize (K3 i). by rewrite Hb, Hb' in K3. }
  destruct (call_result _ _ _ _ _ Hr Hop Hc) as (Hinv & Hres & Hinv'). destruct Hc as [Hst Hlog].
  inversion Hres as [? ? ? Hord Ho|i o ? H1 H2 Ho|i o s1 ? ? Ho1 Hi1 Hop1 Ho2|? Hm|? Hm| |sy v Hg Hv|sy v Hg Hi Hv|i Hg|i sy v Hg Hv|sy Hg|sy v Hg Hg' Hv|sy reg v Hg Hg' Hv|i Hg|i b v Hg Hv]; subst; try done; try (by destruct a).
  - split; [done|]. split; [done|]. destruct (get_symbol (sy_id sy) s); [|done]. split; [done|]. split; [first [exact (log_same _ evs Hlog) | exact (log_same s evs Hlog)]|exact Hv].
  - split; [done|]. split; [done|]. rewrite Hg. split; [done|]. split; [by eapply (log_one s)|].
    split; [rewrite <- (Hv (sy_id sy)) at 1 || idtac|].
    + unfold get_symbol. cbn [st_syms]. rewrite Hv. by rewrite decide_True.
    + intros i Hi'. unfold get_symbol at 1. cbn [st_syms]. rewrite Hv. by rewrite decide_False.
  - split; [done|]. split; [done|]. rewrite Hg. split; [done|]. split; [first [exact (log_same _ evs Hlog) | exact (log_same s evs Hlog)]|done].
  - split; [done|]. split; [done|]. rewrite Hg. split; [done|]. split; [by eapply (log_one s)|].
    split.
    + unfold get_symbol. cbn [st_syms]. rewrite Hv. by rewrite decide_True.
    + intros j Hj. unfold get_symbol at 1. cbn [st_syms]. rewrite Hv. by rewrite decide_False.
  - split; [done|]. split; [done|]. rewrite Hg. split; [done|]. split; [first [exact (log_same _ evs Hlog) | exact (log_same s evs Hlog)]|done].
  - split; [done|]. split; [done|]. destruct (get_symbol (sy_id sy) s); [|done]. destruct (get_book (sy_id sy) s) eqn:Eb; [|done].
    split; [done|]. split; [first [exact (log_same _ evs Hlog) | exact (log_same s evs Hlog)]|exact Hv].
  - split; [done|]. split; [done|]. rewrite Hg, Hg'. split; [done|]. split; [by eapply (log_one s)|].
    split.
    + unfold get_book. cbn [st_books]. rewrite Hv. by rewrite decide_True.
    + intros j Hj. unfold get_book at 1. cbn [st_books]. rewrite Hv. by rewrite decide_False.
  - split; [done|]. split; [done|]. rewrite Hg. split; [done|]. split; [first [exact (log_same _ evs Hlog) | exact (log_same s evs Hlog)]|done].
  - split; [done|]. split; [done|]. rewrite Hg. split; [done|]. split; [by eapply (log_one s)|].
    split.
    + unfold get_book. cbn [st_books]. rewrite Hv. by rewrite decide_True.
    + intros j Hj. unfold get_book at 1. cbn [st_books]. rewrite Hv. by rewrite decide_False.
Qed.
Print Assumptions C30_registry.
(** Lookups of ids never added find nothing; new managers are empty. *)
Theorem C30_empty i : get_symbol i init = None /\ get_book i init = None /\ get_order i init = None.
Proof.
  unfold get_symbol, get_book, get_order, vfind, vget, vsize, init. cbn [st_syms st_books st_ords length Z.of_nat]. rewrite lookup_empty.
  rewrite ?lookup_nil. destruct (_ && _); (split; [done|]; split; [done|]); by destruct (i =? 0).
Qed.
Print Assumptions C30_empty.
Example C30_example : let s := hist [AddSymbol (mkSymbol 3 8); AddSymbol (mkSymbol 0 7); AddOrderBook (mkSymbol 0 9)] in
  reach s /\ get_symbol 3 s = Some (mkSymbol 3 8) /\ get_symbol 1 s = None /\ b_sym <$> get_book 0 s = Some (mkSymbol 0 7) /\
  get_book 3 s = None /\ ret s (AddOrderBook (mkSymbol 3 8)) = OK /\ ret s (AddOrderBook (mkSymbol 1 8)) = SYMBOL_NOT_FOUND /\ ret s (AddOrderBook (mkSymbol 0 8)) = ORDER_BOOK_DUPLICATE /\
  ret s (DeleteOrderBook 0) = OK /\ ret s (DeleteSymbol 3) = OK /\ ret s (DeleteSymbol 2) = SYMBOL_NOT_FOUND.
Proof. split; [apply hist_reach|]. vm_compute. done. Qed.

(** ** C31 *)
Lemma frame_keep i j s s' : inv s -> inv s' -> frame i (st_ords s) (st_ords s') -> j <> i ->
  forall n o, o_sym o = j -> get_order n s' = Some o <-> get_order n s = Some o.
Proof. intros Hi Hi' Hf Hne n o Ho. rewrite !get_order_inv by done. symmetry. apply Hf. congruence. Qed.
Theorem C31_isolation s a s' er evs : reach s -> op_ok s a -> about_orders a = true -> call s a s' er evs ->
  (forall i, ~ concerns s a i ->
     get_book i s' = get_book i s /\ forall j o, o_sym o = i -> get_order j s' = Some o <-> get_order j s = Some o) /\
  (forall i, get_symbol i s' = get_symbol i s) /\
  Forall (fun ev => concerns s a (event_symbol ev)) evs.
Proof.
  intros Hr Hop Hab Hc. assert (Hreg : registry_op a = false) by (by destruct a).
  destruct (call_result _ _ _ _ _ Hr Hop Hc) as (Hinv & Hres & Hinv').
  assert (Hout : forall s a s' er evs, inv s -> inv s' -> op_ok s a -> order_op a = true -> outcome s a s' er -> st_log s' = st_log s ++ evs ->
    (forall i, ~ concerns s a i ->
     get_book i s' = get_book i s /\ forall j o, o_sym o = i -> get_order j s' = Some o <-> get_order j s = Some o) /\
    (forall i, get_symbol i s' = get_symbol i s) /\ Forall (fun ev => call_symbol s a = Some (event_symbol ev)) evs).
  { clear. intros s a s' er evs Hinv Hinv' Hop Hord Ho Hlog.
    destruct (outcome_seg True s a s' er Hinv Hop Hord Ho ltac:(by left)) as [(-> & _ & _)|(evs' & Hseg & Hi)].
    { apply log_same in Hlog as ->. done. }
    assert (segs (wide True) s [Some a] (evs' ++ []) s') as Hsg. { eapply sg_cons; try done; [by intros x [= <-]|constructor]. }
    rewrite app_nil_r in Hsg. apply segs_log in Hsg. rewrite Hlog in Hsg. apply app_inv_head in Hsg as <-.
    destruct (seg_frame _ _ _ _ _ Hinv Hseg) as (i & Htg & S1 & S2 & S3 & _ & S4 & S5). cbn in Htg.
    rewrite <- (call_symbol_target s a Hinv) in Htg.
    split; [|split].
    - intros j Hj. assert (j <> i). { intros ->. apply Hj. by left. } split; [by apply S3|]. by eapply frame_keep.
    - intros j. unfold get_symbol. by rewrite S1.
    - eapply Forall_impl; [done|]. cbn. intros ev <-. done. }
  destruct Hc as [Hst Hlog].
  inversion Hres as [? ? ? Hord Ho|i o ? H1 H2 Ho|i o s1 ? ? Ho1 Hi1 Hop1 Ho2|? Hm|? Hm| |sy v Hg Hv|sy v Hg Hi Hv|i Hg|i sy v Hg Hv|sy Hg|sy v Hg Hg' Hv|sy reg v Hg Hg' Hv|i Hg|i b v Hg Hv]; subst; try done; try (by destruct a).
  - destruct (Hout _ _ _ _ _ Hinv Hinv' Hop Hord Ho Hlog) as (H1 & H2 & H3). split; [done|]. split; [done|].
    eapply Forall_impl; [done|]. intros ev Hev. by left.
  - apply log_same in Hlog as ->. done.
  - assert (exists e1, st_log s1 = st_log s ++ e1) as [e1 Hl1].
    { destruct (outcome_segs True s (DeleteOrder i) s1 OK Hinv (proj1 Hop) eq_refl Ho1 ltac:(by left)) as (l1 & ev1 & Hs1 & _). exists ev1. by eapply segs_log. }
    assert (exists e2, st_log s' = st_log s1 ++ e2) as [e2 Hl2].
    { destruct (outcome_segs True s1 (AddOrder o) s' er Hi1 Hop1 eq_refl Ho2 ltac:(by left)) as (l1 & ev1 & Hs1 & _). exists ev1. by eapply segs_log. }
    assert (evs = e1 ++ e2) as ->. { rewrite Hl2, Hl1, <- app_assoc in Hlog. by apply app_inv_head in Hlog. }
    destruct (Hout s (DeleteOrder i) s1 OK e1 Hinv Hi1 (proj1 Hop) eq_refl Ho1 Hl1) as (A1 & A2 & A3).
    destruct (Hout s1 (AddOrder o) s' er e2 Hi1 Hinv' Hop1 eq_refl Ho2 Hl2) as (B1 & B2 & B3).
    assert (Hcs : forall j, ~ concerns s (ReplaceWith i o) j -> ~ concerns s (DeleteOrder i) j /\ ~ concerns s1 (AddOrder o) j).
    { intros j Hj. split; intros [H|(x & Hx & Hxs)]; apply Hj.
      - by left. - done. - injection H as H. right. by exists o. - right. by exists x. }
    split; [|split].
    + intros j Hj. destruct (Hcs j Hj) as [C1 C2]. destruct (A1 j C1) as [A4 A5]. destruct (B1 j C2) as [B4 B5].
      split; [congruence|]. intros n x Hx. rewrite (B5 n x Hx). by apply A5.
    + intros j. by rewrite B2.
    + apply Forall_app. split; [eapply Forall_impl; [exact A3|]|eapply Forall_impl; [exact B3|]]; cbn; intros ev Hev.
      * by left. * right. exists o. split; [done|]. by injection Hev.
Qed.
Print Assumptions C31_isolation.
Definition setup2 : list op := setup ++ [AddSymbol (mkSymbol 1 8); AddOrderBook (mkSymbol 1 8)].
Example C31_example : let s := hist (setup2 ++ [EnableMatching; BL 1 100 10; AddOrder (LimitOrder 2 1 SELL 100 5 GTC MAX64)]) in
  reach s /\ call_symbol s (SL 3 90 4) = Some 0 /\ (length (news s (SL 3 90 4)) = 7)%nat /\ get_order 2 s <> None /\
  ~ concerns s (SL 3 90 4) 1.
Proof.
  split; [apply hist_reach|]. split; [done|]. split; [vm_compute; done|]. split; [vm_compute; done|].
  intros [H|(o & [= <-] & H)]; done.
Qed.
