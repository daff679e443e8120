(** * PropsDirect.v -- return codes, rejected calls and the direct effect of calls: C22, C25, C26, C32, C37, C46. *)
From Coq Require Import ZifyBool.
From stdpp Require Import fin_maps relations.
From Verif Require Import Types Book Engine Manager Factory Validate LevelFacts BookInv EngInv EngPrim Steps StepsOk Refine3 Refine4 Api StateInv Micro Reach Calls Witness PropsState PropsSettle CallFacts Trades PropsFill PropsMirror PropsMirror2 Split PropsStops Spec Spec2 Spec3 Spec4 Spec5.

(** ** Return codes *)
Definition accepted_code (er : err) : Prop := er = OK \/ er = ORDER_DUPLICATE.
Ltac rb := match goal with H : rbind ?x _ = Ok _ |- _ => let E := fresh "E" in let y := fresh "y" in destruct x as [y| |] eqn:E; cbn [rbind] in H; try done; try (destruct y) end.
Lemma finish_code mt e x : finish mt e = Ok x -> snd x = OK.
Proof. unfold finish. intros H. rb. by injection H as <-. Qed.
Lemma insert_code mt o e x : insert_rest mt o e = Ok x -> accepted_code (snd x).
Proof.
  unfold insert_rest, accepted_code. destruct (_ !! _); intros H; [injection H as <-; by right|left; by eapply finish_code].
Qed.
Lemma limit_tail_code mt o e x : add_limit_tail mt o e = Ok x -> accepted_code (snd x).
Proof.
  unfold add_limit_tail. intros H. rb.  destruct (_ && _); [by eapply insert_code|left; by eapply finish_code].
Qed.
Lemma stop_rest_code mt o e x : add_stop_rest mt o e = Ok x -> accepted_code (snd x).
Proof. unfold add_stop_rest. destruct (0 <? _); intros H; [by eapply insert_code|left; by eapply finish_code]. Qed.
Lemma add_order_code mt o e x : add_order mt o e = Ok x -> accepted_code (snd x).
Proof.
  unfold add_order. destruct (o_type o); unfold add_market, add_limit, add_stop, add_stop_limit.
  - intros H. rb.  left. by eapply finish_code.
  - apply limit_tail_code.
  - destruct (_ && _); [|apply stop_rest_code]. intros H. rb.  left. by eapply finish_code.
  - destruct (_ && _); [apply limit_tail_code|apply stop_rest_code].
  - destruct (_ && _); [|apply stop_rest_code]. intros H. rb.  left. by eapply finish_code.
  - destruct (_ && _); [apply limit_tail_code|apply stop_rest_code].
Qed.
Lemma modify_code mt m o p q e x : modify_order mt m o p q e = Ok x -> snd x = OK.
Proof.
  unfold modify_order. intros H. rb. destruct (0 <? _); [|by eapply finish_code]. rb.  destruct (0 <? _); by eapply finish_code.
Qed.
Lemma replace_code mt o ni p q e x : replace_order mt o ni p q e = Ok x -> accepted_code (snd x).
Proof.
  unfold replace_order. intros H. rb. rb.  destruct (0 <? _); [by eapply insert_code|left; by eapply finish_code].
Qed.
Lemma execute_code mt o p q e x : execute_order mt o p q e = Ok x -> snd x = OK.
Proof. unfold execute_order. intros H. rb. destruct (0 <? _); by eapply finish_code. Qed.
Lemma on_book_code {A} i b (f : eng -> res (eng * A)) s x (P : A -> Prop) : (forall e y, f e = Ok y -> P (snd y)) -> on_book i b f s = Ok x -> P (snd x).
Proof. intros Hf. unfold on_book. intros H. destruct (f _) as [[e y]| |] eqn:E; [|done|done]. cbn in H. injection H as <-. exact (Hf _ _ E). Qed.
Lemma with_order_code i f s x (P : err -> Prop) o : inv s -> st_ords s !! i = Some o -> (forall o e y, f o e = Ok y -> P (snd y)) -> with_order i f s = Ok x -> P (snd x).
Proof.
  intros Hinv Ho Hf. unfold with_order. rewrite Ho. pose proof (iv_home _ Hinv _ _ Ho) as Hh. destruct (get_book (o_sym o) s) as [b|]; [|done].
  apply on_book_code. apply Hf.
Qed.
Lemma option_bool {A B} (x : option A) (a b : B) : (if x then a else b) = match x with Some _ => a | None => b end.
Proof. done. Qed.
(** A refused call returns the code of the first check that fails, changes nothing and says nothing. *)
Lemma refused_step s a er : inv s -> order_call a = true \/ plain_op a = false -> refusal s a = Some er -> step s a = Ok (s, er).
Proof.
  intros Hinv Hoc H.
  assert (Hlk : forall i, get_order i s = st_ords s !! i) by (intros; by apply get_order_inv).
  assert (Hw : forall i f, need_order i s = Some er -> with_order i f s = Ok (s, er)).
  { intros i f. unfold need_order, with_order. rewrite Hlk. destruct (st_ords s !! i); [done|]. by intros [= <-]. }
  assert (Hi : forall i k, (if decide (i = 0) then Some ORDER_ID_INVALID else k) = Some er -> forall K, (k = Some er -> K = Ok (s, er)) -> check_id i s K = Ok (s, er)).
  { intros i k Hk K HK. unfold check_id. destruct (decide (i = 0)), (Z.eqb_spec i 0); try done; [by injection Hk as <-|auto]. }
  assert (Hq : forall i k, (if decide (i = 0) then Some ORDER_QUANTITY_INVALID else k) = Some er -> forall K, (k = Some er -> K = Ok (s, er)) -> check_qty i s K = Ok (s, er)).
  { intros i k Hk K HK. unfold check_qty. destruct (decide (i = 0)), (Z.eqb_spec i 0); try done; [by injection Hk as <-|auto]. }
  assert (H3 : forall i q K, (if decide (i = 0) then Some ORDER_ID_INVALID else if decide (q = 0) then Some ORDER_QUANTITY_INVALID else need_order i s) = Some er ->
    check_id i s (check_qty q s (with_order i K s)) = Ok (s, er)).
  { intros i q K Hk. eapply Hi; [exact Hk|]. intros Hk2. eapply Hq; [exact Hk2|]. apply Hw. }
  destruct a; cbn [step refusal order_call plain_op] in *; try (by destruct Hoc); try (by apply H3).
  - unfold api_add. destruct (decide (validate o = OK)) as [E|E]; [rewrite E; destruct (get_book _ _); [done|by injection H as <-]|injection H as <-]. by destruct (validate o).
  - unfold api_replace, check_id, check_qty. rewrite Hlk in H. destruct (Z.eqb_spec i 0) as [->|]; [rewrite decide_True in H by auto; by injection H as <-|].
    destruct (Z.eqb_spec ni 0) as [->|]; [rewrite decide_True in H by auto; by injection H as <-|]. rewrite decide_False in H by naive_solver.
    destruct (Z.eqb_spec q 0) as [->|]; [rewrite decide_True in H by auto; by injection H as <-|]. rewrite decide_False in H by done.
    destruct (st_ords s !! i) as [o|]; [|by injection H as <-]. unfold is_limit. case_decide; [done|]. rewrite bool_decide_eq_false_2 by done. by injection H as <-.
  - unfold api_replace_with, api_delete. rewrite (Hi i _ H (with_order i _ s)) by apply Hw. cbn. unfold need_order in H.
    destruct (decide (i = 0)); [by injection H as <-|]. destruct (get_order i s); [done|]. by injection H as <-.
  - eapply Hi; [exact H|]. apply Hw.
Qed.
Lemma accepted_step s a s' er : inv s -> order_call a = true -> refusal s a = None -> step s a = Ok (s', er) -> accepted_code er.
Proof.
  intros Hinv Hoc H Hst.
  assert (Hlk : forall i, get_order i s = st_ords s !! i) by (intros; by apply get_order_inv).
  assert (Hok : forall x, snd x = OK -> accepted_code (@snd eng err x)) by (intros; by left).
  assert (H3 : forall i q K, (if decide (i = 0) then Some ORDER_ID_INVALID else if decide (q = 0) then Some ORDER_QUANTITY_INVALID else need_order i s) = None ->
    (forall o e y, K o e = Ok y -> accepted_code (snd y)) -> check_id i s (check_qty q s (with_order i K s)) = Ok (s', er) -> accepted_code er).
  { intros i q K Hk HK. unfold check_id, check_qty, need_order in *. rewrite Hlk in Hk. destruct (decide (i = 0)), (Z.eqb_spec i 0); try done. destruct (decide (q = 0)), (Z.eqb_spec q 0); try done.
    destruct (st_ords s !! i) as [o|] eqn:Ho; [|done]. intros E. exact (with_order_code i K s (s', er) accepted_code o Hinv Ho HK E). }
  destruct a; cbn [step refusal order_call] in *; try done; try (revert Hst; apply H3; [done|]; intros o0 e0 y0 Hy; cbn in Hy).
  - unfold api_add in Hst. destruct (decide (validate o = OK)) as [E|E]; [|done]. rewrite E in Hst. destruct (get_book (o_sym o) s) as [b|]; [|done].
    change er with (snd (s', er)). eapply on_book_code; [|exact Hst]. intros e y. apply add_order_code.
  - destruct (reduce_order _ _ _); [|done|done]. cbn in Hy. left. by eapply finish_code.
  - left. by eapply modify_code.
  - left. by eapply modify_code.
  - unfold api_replace, check_id, check_qty in Hst. rewrite Hlk in H.
    destruct (Z.eqb_spec i 0) as [->|]; [by rewrite decide_True in H by auto|].
    destruct (Z.eqb_spec ni 0) as [->|]; [by rewrite decide_True in H by auto|]. rewrite decide_False in H by naive_solver.
    destruct (Z.eqb_spec q 0) as [->|]; [by rewrite decide_True in H by auto|]. rewrite decide_False in H by done.
    destruct (st_ords s !! i) as [o|] eqn:Ho; [|done]. unfold is_limit in Hst. destruct (decide (o_type o = LIMIT)); [|done].
    rewrite bool_decide_eq_true_2 in Hst by done. cbn [negb] in Hst. refine (with_order_code i _ s (s', er) accepted_code o Hinv Ho _ Hst). intros o0 e0 y0. apply replace_code.
  - unfold api_delete, check_id, need_order in *. rewrite Hlk in H. destruct (decide (i = 0)), (Z.eqb_spec i 0); try done.
    destruct (st_ords s !! i) as [o|] eqn:Ho; [|done]. refine (with_order_code i _ s (s', er) accepted_code o Hinv Ho _ Hst).
    intros o0 e0 y0 Hy. cbn in Hy. destruct (delete_order _ _); [|done|done]. cbn in Hy. left. by eapply finish_code.
  - left. by eapply execute_code.
  - left. by eapply execute_code.
Qed.
Lemma call_same s a er evs : call s a s er evs -> evs = [].
Proof. intros [_ H]. rewrite <- (app_nil_r (st_log s)) in H at 1. by apply app_inv_head in H. Qed.
Lemma nil_log {A} (l evs : list A) : l = l ++ evs -> evs = [].
Proof. intros H. rewrite <- (app_nil_r l) in H at 1. by apply app_inv_head in H. Qed.
Lemma same_refl s : same_contents s s.
Proof. done. Qed.
(** ** C46: exact return codes *)
Theorem C46_refused s a s' er evs e : reach s -> op_ok s a -> call s a s' er evs -> refusal s a = Some e ->
  er = e /\ same_contents s s' /\ evs = [].
Proof.
  intros Hr Hop Hc Hf. destruct (call_result _ _ _ _ _ Hr Hop Hc) as (Hinv & Hres & Hinv').
  destruct (decide (order_call a = true \/ plain_op a = false)) as [Ho|Ho].
  { pose proof (refused_step _ _ _ Hinv Ho Hf) as Hst. pose proof Hc as [Hst' _]. rewrite Hst in Hst'. injection Hst' as <- <-. split; [done|]. split; [done|]. by eapply call_same. }
  destruct Hc as [_ Hlog]. inversion Hres as [a' s2 er2 Hoo Hout|i o er2 Hn1 Hn2 Hout|i o s1 s2 er2 Hout Hi1 Hop1 Hout1|s2 Hm|s2 Hm| |sy v Hdup Hv|sy v Hno Hsy Hv|i Hno|i sy v Hs Hv|sy Hno|sy v Hs Hdup Hv|sy reg v Hreg Hno Hv|i Hno|i b v Hb Hv]; subst; cbn [refusal] in Hf; try done;
    try (by destruct a; destruct Ho; auto); try (by destruct Ho; auto).
  - destruct (get_symbol (sy_id sy) s); [|done]. injection Hf as <-. split; [done|]. split; [|by eapply nil_log].
    unfold same_contents. cbn. split; [exact Hv|done].
  - by rewrite Hno in Hf.
  - rewrite Hno in Hf. injection Hf as <-. split; [done|]. split; [done|]. by eapply nil_log.
  - by rewrite Hs in Hf.
  - rewrite Hno in Hf. injection Hf as <-. split; [done|]. split; [done|]. by eapply nil_log.
  - destruct (get_symbol (sy_id sy) s); [|done]. destruct (get_book (sy_id sy) s); [|done]. injection Hf as <-. split; [done|]. split; [|by eapply nil_log].
    unfold same_contents. cbn. split; [done|]. split; [exact Hv|done].
  - by rewrite Hreg, Hno in Hf.
  - rewrite Hno in Hf. injection Hf as <-. split; [done|]. split; [done|]. by eapply nil_log.
  - by rewrite Hb in Hf.
Qed.
Print Assumptions C46_refused.
Theorem C46_accepted s a s' er evs : reach s -> op_ok s a -> call s a s' er evs -> refusal s a = None -> plain_op a = true ->
  er = OK \/ er = ORDER_DUPLICATE /\ exists i, introduces a i /\ get_order i s <> None /\ refers a <> Some i.
Proof.
  intros Hr Hop Hc Hf Hpl. destruct (call_result _ _ _ _ _ Hr Hop Hc) as (Hinv & Hres & Hinv').
  destruct (order_call a) eqn:Ho.
  - destruct (accepted_step s a s' er Hinv Ho Hf (proj1 Hc)) as [->| ->]; [by left|right]. split; [done|].
    destruct (call_outcome _ _ _ _ _ Hr Hop Ho Hc) as (_ & Hout & _).
    inversion Hout as [? ? Hnd|sid b c e' ? Hb Htg Hhd Hcf Hfr Hend]; subst; [done|].
    inversion Hend as [|e1 o o1 Hsn Hrt _ Hex _ _ _ _]; subst.
    destruct (head_hstep s sid b a c Hinv Hb Htg Hhd) as [hevs Hh].
    destruct Hh as [o0 o' Hsym Hval|i q0 o0 u e1' q1 o' Q' Hoo Hid Hsym Hq He' Hords Hlog Hpr Hp|mit i p0 q0 o0 u e1' o' evs' Q' Hoo Hid Hsym Hq He' Hords Hlog Hpr Hp|i ni p0 q0 o0 u e1' o' Q' evs' Hoo Hid Hsym Hq Hni Hty He' Hords Hlog Hpr Hp|i o0 u e1' Q' evs' Hoo Hid Hsym He' Hords Hlog Hpr Hp|a2 i price q0 o0 u e1' q1 o' Q' evs' Ha Hoo Hid Hsym Hq He' Hords Hlog Hpr Hp];
      cbn [fst snd] in *; try done.
    + injection Hsn as <-. exists (o_id o0). split; [done|]. split; [|done]. rewrite get_order_inv by done. unfold o' in Hex. rewrite placed_id in Hex. exact Hex.
    + injection Hsn as <-. exfalso. apply Hex. rewrite Hords. assert (o_id o' = i) as -> by (unfold o', modified; by destruct mit). apply lookup_delete.
    + injection Hsn as <-. exists ni. split; [done|]. cbn in Hex. rewrite Hords in Hex. destruct (decide (i = ni)) as [<-|Hne]; [by rewrite lookup_delete in Hex|].
      rewrite lookup_delete_ne in Hex by done. split; [by rewrite get_order_inv|]. cbn. congruence.
  - left. inversion Hres as [a' s2 er2 Hoo Hout|i o er2 Hn1 Hn2 Hout|i o s1 s2 er2 Hout Hi1 Hop1 Hout1|s2 Hm|s2 Hm| |sy v Hdup Hv|sy v Hno Hsy Hv|i Hno|i sy v Hs Hv|sy Hno|sy v Hs Hdup Hv|sy reg v Hreg Hno Hv|i Hno|i b v Hb Hv]; subst; cbn [refusal] in Hf; try done.
    + by destruct a.
    + by destruct (get_symbol (sy_id sy) s).
    + by rewrite Hno in Hf.
    + by rewrite Hno in Hf.
    + destruct (get_symbol (sy_id sy) s); [|done]. by destruct (get_book (sy_id sy) s).
    + by rewrite Hno in Hf.
Qed.
Print Assumptions C46_accepted.
(** ReplaceOrder(id, order), when there is an order to replace, is DeleteOrder(id) followed by
    AddOrder(order), whatever AddOrder returns. *)
Theorem C47_replace_with s i o s' er evs : reach s -> op_ok s (ReplaceWith i o) -> call s (ReplaceWith i o) s' er evs -> refusal s (ReplaceWith i o) = None ->
  exists s1 evs1 evs2, call s (DeleteOrder i) s1 OK evs1 /\ call s1 (AddOrder o) s' er evs2 /\ evs = evs1 ++ evs2.
Proof.
  intros Hr Hop Hc Hf. pose proof (reach_inv _ Hr) as Hinv. destruct Hc as [Hst Hlog]. cbn [step] in Hst. unfold api_replace_with in Hst.
  assert (Hop1 : op_ok s (DeleteOrder i)) by (destruct Hop; done).
  destruct (call_exists s (DeleteOrder i) Hinv Hop1) as (s1 & er1 & evs1 & Hc1).
  assert (er1 = OK) as ->. { destruct (C46_accepted s (DeleteOrder i) s1 er1 evs1 Hr Hop1 Hc1 Hf eq_refl) as [?|(_ & j & [] & _)]; done. }
  pose proof Hc1 as [Hst1 Hlog1]. pose proof Hst1 as Hst1'. cbn [step] in Hst1. rewrite Hst1 in Hst. cbn in Hst.
  destruct (call_outcome s _ s1 OK evs1 Hr Hop1 eq_refl Hc1) as (_ & Hout & Hinv1). pose proof (outcome_total s i s1 Hinv Hout) as Ht.
  assert (Hop2 : op_ok s1 (AddOrder o)). { cbn in Hop |- *. destruct Hop as (_ & Hrg & Htot). split; [done|]. lia. }
  destruct (call_exists s1 (AddOrder o) Hinv1 Hop2) as (s2 & er2 & evs2 & Hc2). pose proof Hc2 as [Hst2 Hlog2]. cbn [step] in Hst2. rewrite Hst in Hst2. injection Hst2 as <- <-.
  exists s1, evs1, evs2. split; [done|]. split; [done|]. rewrite Hlog2, Hlog1, <- app_assoc in Hlog. by apply app_inv_head in Hlog.
Qed.
Print Assumptions C47_replace_with.

(** ** With matching off *)
Inductive off_end (s : state) (sid : Z) (c : cfg) : state -> err -> list event -> Prop :=
| off_none e : c = (e, None) -> off_end s sid c (put_eng sid (reset_m e) s) OK []
| off_rest e o u e' : c = (e, Some o) -> e_ords e !! o_id o = None -> o_type o <> MARKET -> (o_type o = LIMIT -> immediate o = false) ->
    e_ords e' = <[o_id o := o]> (e_ords e) -> e_log e' = e_log e ++ lim_evs o sid u ->
    bprices (e_bk e') = bprices (e_bk e) ->
    prim (e_ords e') (okind o) (okey o) (queue (e_bk e) (okind o) (okey o) ++ [o_id o]) (e_bk e) (e_bk e') u ->
    off_end s sid c (put_eng sid (reset_m e') s) OK (lim_evs o sid u)
| off_done e o : c = (e, Some o) -> may_vanish e o -> off_end s sid c (put_eng sid (reset_m (emit (EDeleteOrder o) e)) s) OK [EDeleteOrder o]
| off_dup e o : c = (e, Some o) -> e_ords e !! o_id o <> None ->
    off_end s sid c (put_eng sid (emit (EDeleteOrder o) e) s) ORDER_DUPLICATE [EDeleteOrder o].
Lemma ending_off W s sid c e' er : ending W false sid c e' er -> cfg_ok sid c -> exists evs, off_end s sid c (put_eng sid e' s) er evs /\ e_log e' = e_log (fst c) ++ evs.
Proof.
  intros Hend [He Hf]. inversion Hend as [e1 e2 Hc _ H2 _ He2 -> |e1 o o1 Hsn _ Hc Hex _ _ _ ->]; subst.
  - specialize (H2 eq_refl). subst e2. destruct Hc as [-> |(c1 & _ & Hso & Hc1 & Hms)].
    + exists []. split; [by apply off_none|]. by rewrite app_nil_r.
    + specialize (Hc1 eq_refl). subst c1. destruct c as [e [o|]]; [|by destruct Hso]. inversion Hms; subst.
      * match goal with Hn : e_ords _ !! _ = None |- _ => rename Hn into Hfr end.
        cbn in He, Hf. destruct (eng_add_ok sid e o) as (u & e3 & Heq & He3 & Ho3 & Hl3 & Hp3 & Hpr3); try done; [by eapply fly_live|by apply Hf|by apply Hf|].
        rewrite Heq in *. exists (lim_evs o sid u). split; [|done]. by eapply off_rest.
      * exists [EDeleteOrder o]. split; [by eapply off_done|done].
  - specialize (Hc eq_refl). subst c. cbn in *. injection Hsn as <-. exists [EDeleteOrder o1]. split; [by eapply off_dup|done].
Qed.
Lemma off_call s a s' er evs : reach s -> op_ok s a -> order_call a = true -> call s a s' er evs -> st_match s = false -> refusal s a = None ->
  exists sid b hevs c evs2, inv s /\ inv s' /\ get_book sid s = Some b /\ target s a = Some sid /\ hstep sid (eng_of b s) a hevs c /\ cfg_ok sid c /\
    off_end s sid c s' er evs2 /\ evs = hevs ++ evs2.
Proof.
  intros Hr Hop Ho Hc Hm Hf. destruct (call_outcome _ _ _ _ _ Hr Hop Ho Hc) as (Hinv & Hout & Hinv').
  pose proof (accepted_step s a s' er Hinv Ho Hf (proj1 Hc)) as Hac.
  inversion Hout as [? H1 H2|sid b c e' ? Hb Htg Hhd Hcf Hfr Hend]; subst; [by destruct Hac|]. rewrite Hm in Hend.
  destruct (head_hstep s sid b a c Hinv Hb Htg Hhd) as [hevs Hh]. destruct (ending_off _ s _ _ _ _ Hend Hcf) as (evs2 & Hoff & Hl).
  exists sid, b, hevs, c, evs2. do 7 (split; [done|]). destruct Hc as [_ Hlog]. cbn in Hlog. rewrite Hl, (hstep_log _ _ _ _ _ Hh), <- app_assoc in Hlog. by apply app_inv_head in Hlog.
Qed.
Lemma hstep_others sid e a evs c j : hstep sid e a evs c -> refers a <> Some j -> e_ords (fst c) !! j = e_ords e !! j.
Proof.
  intros Hh Hre. destruct Hh as [o0 o' Hsym Hval|i q0 o0 u e' q1 o' Q' Ho Hid Hsym Hq He' Hords Hlog Hpr Hp
    |mit i p0 q0 o0 u e' o' evs' Q' Ho Hid Hsym Hq He' Hords Hlog Hpr Hp
    |i ni p0 q0 o0 u e' o' Q' evs' Ho Hid Hsym Hq Hni Hty He' Hords Hlog Hpr Hp
    |i o0 u e' Q' evs' Ho Hid Hsym He' Hords Hlog Hpr Hp
    |a2 i price q0 o0 u e' q1 o' Q' evs' Ha Ho Hid Hsym Hq He' Hords Hlog Hpr Hp]; cbn [fst]; [done| | | | |]; rewrite Hords.
  - unfold reduced_map. destruct (_ =? 0); cbn; [rewrite lookup_delete_ne|rewrite lookup_insert_ne]; try done; intros E; apply Hre; cbn; congruence.
  - rewrite lookup_delete_ne; [done|]. intros E. apply Hre. destruct mit; cbn; congruence.
  - rewrite lookup_delete_ne; [done|]. intros E. apply Hre. cbn; congruence.
  - rewrite lookup_delete_ne; [done|]. intros E. apply Hre. cbn; congruence.
  - unfold reduced_map. destruct (_ =? 0); cbn; [rewrite lookup_delete_ne|rewrite lookup_insert_ne]; try done; intros E; apply Hre; destruct Ha as [[-> _]| ->]; cbn; congruence.
Qed.
Lemma hstep_flight sid e a evs c o : hstep sid e a evs c -> snd c = Some o -> introduces a (o_id o) \/ refers a = Some (o_id o).
Proof.
  intros Hh Hc. destruct Hh as [o0 o' Hsym Hval|i q0 o0 u e' q1 o' Q' Ho Hid Hsym Hq He' Hords Hlog Hpr Hp
    |mit i p0 q0 o0 u e' o' evs' Q' Ho Hid Hsym Hq He' Hords Hlog Hpr Hp
    |i ni p0 q0 o0 u e' o' Q' evs' Ho Hid Hsym Hq Hni Hty He' Hords Hlog Hpr Hp
    |i o0 u e' Q' evs' Ho Hid Hsym He' Hords Hlog Hpr Hp
    |a2 i price q0 o0 u e' q1 o' Q' evs' Ha Ho Hid Hsym Hq He' Hords Hlog Hpr Hp]; cbn [snd] in Hc; try done; injection Hc as <-.
  - left. cbn. unfold o'. by rewrite placed_id.
  - right. assert (o_id o' = i) as -> by (unfold o', modified; by destruct mit). by destruct mit.
  - by left.
Qed.
Lemma off_others s a sid b hevs c s' er evs2 j : hstep sid (eng_of b s) a hevs c -> off_end s sid c s' er evs2 ->
  refers a <> Some j -> (introduces a j -> st_ords s !! j <> None) -> st_ords s' !! j = st_ords s !! j.
Proof.
  intros Hh Hoff Hre Hin. pose proof (hstep_others _ _ _ _ _ j Hh Hre) as H1. change (st_ords s) with (e_ords (eng_of b s)) in *.
  inversion Hoff as [e Hc|e o u e' Hc Hfr Hty Htif Hords Hlog Hpr Hp|e o Hc Hv|e o Hc Hex]; subst; cbn [put_eng st_ords e_ords reset_m set_bk emit fst] in *; try done.
  rewrite Hords. destruct (decide (o_id o = j)) as [Eij|Hne]; [|rewrite lookup_insert_ne by done; exact H1]. exfalso.
  destruct (hstep_flight _ _ _ _ _ o Hh eq_refl) as [Hi|Hi]; [|by rewrite Eij in Hi].
  apply Hin; [by rewrite <- Eij|]. etransitivity; [symmetry; exact H1|]. by rewrite <- Eij.
Qed.
(** The orders of another book never carry an id of this one. *)
Lemma foreign_queue s n bn k p i o : inv s -> get_book n s = Some bn -> st_ords s !! i = Some o -> o_sym o <> n -> i ∉ queue bn k p.
Proof.
  intros Hinv Hb Ho Hne Hin. destruct (queue_facts n (eng_of bn s) k p i (inv_eng _ _ _ Hinv Hb) Hin) as (r & Hr & _ & Hs & _). cbn in Hr. congruence.
Qed.
Lemma absent_queue s n bn k p i : inv s -> get_book n s = Some bn -> st_ords s !! i = None -> i ∉ queue bn k p.
Proof.
  intros Hinv Hb Ho Hin. destruct (queue_facts n (eng_of bn s) k p i (inv_eng _ _ _ Hinv Hb) Hin) as (r & Hr & _). cbn in Hr. congruence.
Qed.
Lemma filter_notin (i : Z) (l : list Z) : i ∉ l -> filter (fun j => j <> i) l = l.
Proof. intros H. apply filter_id. intros j Hj ->. done. Qed.
(** The book after one level operation, and the other books. *)
Lemma taken_queue s sid b m i o b' u k p : inv s -> get_book sid s = Some b -> st_ords s !! i = Some o -> o_id o = i -> o_sym o = sid ->
  prim m (okind o) (okey o) (filter (fun j => j <> o_id o) (queue b (okind o) (okey o))) b b' u -> queue b' k p = filter (fun j => j <> i) (queue b k p).
Proof.
  intros Hinv Hb Ho Hid Hs Hp. rewrite (prim_queue _ _ _ _ _ _ _ Hp). case_decide as Hd.
  - destruct Hd as [-> ->]. by rewrite Hid.
  - symmetry. apply filter_notin. intros Hin. apply Hd. destruct (queue_facts sid (eng_of b s) k p i (inv_eng _ _ _ Hinv Hb) Hin) as (r & Hr & _ & _ & Hk & Hkp & _). cbn in Hr.
    assert (r = o) as -> by congruence. done.
Qed.
Lemma kept_queue m k0 p0 b b' u k p : prim m k0 p0 (queue b k0 p0) b b' u -> queue b' k p = queue b k p.
Proof. intros Hp. rewrite (prim_queue _ _ _ _ _ _ _ Hp). case_decide as Hd; [by destruct Hd as [-> ->]|done]. Qed.
Lemma reset_queue e k p : queue (e_bk (reset_m e)) k p = queue (e_bk e) k p.
Proof. apply same_sides_queue, same_sides_reset. Qed.
Lemma put_queues s sid b e (R : book -> book -> Prop) : get_book sid s = Some b -> R b (e_bk e) -> (forall n bn, n <> sid -> get_book n s = Some bn -> R bn bn) ->
  forall n, match get_book n s, get_book n (put_eng sid e s) with Some b, Some b' => R b b' | None, None => True | _, _ => False end.
Proof.
  intros Hb HR Ho n. rewrite (get_book_put _ _ _ _ _ Hb). destruct (decide (sid = n)) as [<-|Hne]; [by rewrite Hb|].
  destruct (get_book n s) as [bn|] eqn:E; [|done]. by apply (Ho n).
Qed.
Lemma live_accept s i o q : inv s -> get_order i s = Some o -> q <> 0 ->
  (if decide (i = 0) then Some ORDER_ID_INVALID else if decide (q = 0) then Some ORDER_QUANTITY_INVALID else need_order i s) = None.
Proof.
  intros Hinv Ho Hq. rewrite decide_False. 2: { intros ->. done. } rewrite decide_False by done. unfold need_order. by rewrite Ho.
Qed.

Lemma left_put s sid b e i o m u : inv s -> get_book sid s = Some b -> st_ords s !! i = Some o -> o_id o = i -> o_sym o = sid ->
  prim m (okind o) (okey o) (filter (fun j => j <> o_id o) (queue b (okind o) (okey o))) b (e_bk e) u -> left_queues i s (put_eng sid (reset_m e) s).
Proof.
  intros Hinv Hb Ho Hid Hs Hp. refine (put_queues s sid b (reset_m e) (fun b b' => forall k p, queue b' k p = filter (fun j => j <> i) (queue b k p)) Hb _ _).
  - intros k p. rewrite reset_queue. by eapply taken_queue.
  - intros n bn Hne Hbn k p. symmetry. apply filter_notin. eapply foreign_queue; [done|done|done|congruence].
Qed.
Lemma kept_put s sid b e m k0 p0 u : get_book sid s = Some b -> prim m k0 p0 (queue b k0 p0) b (e_bk e) u -> queues_kept s (put_eng sid (reset_m e) s).
Proof.
  intros Hb Hp. refine (put_queues s sid b (reset_m e) (fun b b' => forall k p, queue b' k p = queue b k p) Hb _ _); [|done].
  intros k p. rewrite reset_queue. by eapply kept_queue.
Qed.

(** ** C25 *)
Theorem C25_reduce s i q s' er evs o : reach s -> op_ok s (ReduceOrder i q) -> st_match s = false -> call s (ReduceOrder i q) s' er evs ->
  get_order i s = Some o -> q <> 0 ->
  let n := Z.min q (o_leaves o) in
  er = OK /\ others_kept i s s' /\
  get_order i s' = (if decide (n = o_leaves o) then None else Some (with_leaves (o_leaves o - n) o)) /\
  (if decide (n = o_leaves o) then left_queues i s s' else queues_kept s s').
Proof.
  intros Hr Hop Hm Hc Ho Hq n. pose proof (reach_inv _ Hr) as Hinv0.
  destruct (off_call _ _ _ _ _ Hr Hop eq_refl Hc Hm) as (sid & b & hevs & c & evs2 & Hinv & Hinv' & Hb & Htg & Hh & Hcf & Hoff & ->).
  { by eapply live_accept. }
  rewrite get_order_inv in Ho by done.
  assert (Hoth : others_kept i s s'). { intros j Hj. rewrite !get_order_inv by done. eapply off_others; [done|done|cbn; congruence|done]. }
  inversion Hh as [|i' q0 o0 u e' q1 o' Q' Ho' Hid Hsym Hq' He' Hords Hlog Hpr Hp| | | |a2 i' price q0 o0 u e' q1 o' Q' evs' Ha]; subst; try (by destruct mit); [|by destruct Ha as [[? _]|?]].
  cbn in Ho'. assert (o0 = o) as -> by congruence. fold n in q1. assert (q1 = n) as -> by done. clear Hh.
  inversion Hoff as [e Hce|e o2 u2 e2 Hce|e o2 Hce|e o2 Hce]; subst; try done. injection Hce as <-.
  split; [done|]. split; [done|]. rewrite get_order_inv by done. cbn [put_eng st_ords].
  assert (e_ords (reset_m e') = e_ords e') as -> by done. rewrite Hords. unfold reduced_map. cbn [o_leaves o_id].
  assert (o_leaves o' =? 0 = bool_decide (n = o_leaves o)) as -> by (cbn; case_bool_decide; lia). assert (o_id o' = o_id o) as -> by done.
  case_bool_decide as Hd; [rewrite !(decide_True _ _ Hd)|rewrite !(decide_False _ _ Hd)].
  - split; [apply lookup_delete|]. rewrite (proj2 (Z.eqb_eq _ _) Hd) in Hp. by eapply (left_put s (o_sym o) b).
  - split; [by rewrite lookup_insert|]. rewrite (proj2 (Z.eqb_neq _ _) Hd) in Hp. by eapply (kept_put s (o_sym o) b).
Qed.
Print Assumptions C25_reduce.

(** ** C37 *)
Theorem C37_delete s i s' er evs o : reach s -> op_ok s (DeleteOrder i) -> st_match s = false -> call s (DeleteOrder i) s' er evs ->
  get_order i s = Some o ->
  er = OK /\ get_order i s' = None /\ others_kept i s s' /\ left_queues i s s' /\ execs evs = [] /\ EDeleteOrder o ∈ evs.
Proof.
  intros Hr Hop Hm Hc Ho. pose proof (reach_inv _ Hr) as Hinv0.
  destruct (off_call _ _ _ _ _ Hr Hop eq_refl Hc Hm) as (sid & b & hevs & c & evs2 & Hinv & Hinv' & Hb & Htg & Hh & Hcf & Hoff & ->).
  { cbn [refusal]. rewrite decide_False by (by intros ->). unfold need_order. by rewrite Ho. }
  rewrite get_order_inv in Ho by done.
  assert (Hoth : others_kept i s s'). { intros j Hj. rewrite !get_order_inv by done. eapply off_others; [done|done|cbn; congruence|done]. }
  inversion Hh as [| | | |i' o0 u e' Q' evs' Ho' Hid Hsym He' Hords Hlog Hpr Hp|a2 i' price q0 o0 u e' q1 o' Q' evs' Ha]; subst; try (by destruct mit); [|by destruct Ha as [[? _]|?]].
  cbn in Ho'. assert (o0 = o) as -> by congruence. clear Hh.
  inversion Hoff as [e Hce|e o2 u2 e2 Hce|e o2 Hce|e o2 Hce]; subst; try done. injection Hce as <-.
  split; [done|]. rewrite get_order_inv by done. cbn [put_eng st_ords].
  assert (e_ords (reset_m e') = e_ords e') as -> by done. rewrite Hords. split; [apply lookup_delete|]. split; [done|].
  split; [by eapply (left_put s (o_sym o) b)|]. unfold evs'. rewrite app_nil_r. split; [|set_solver]. by rewrite execs_app, execs_lim.
Qed.
Print Assumptions C37_delete.
Theorem C37_execute s a i p q s' er evs o : reach s -> op_ok s a -> st_match s = false -> call s a s' er evs ->
  (a = ExecuteOrder i q /\ p = o_price o) \/ a = ExecuteOrderAt i p q -> get_order i s = Some o -> q <> 0 ->
  let n := Z.min q (o_leaves o) in
  er = OK /\ execs evs = [(o, p, n)] /\ others_kept i s s' /\
  get_order i s' = (if decide (n = o_leaves o) then None else Some (with_execution n o)) /\
  (if decide (n = o_leaves o) then left_queues i s s' else queues_kept s s').
Proof.
  intros Hr Hop Hm Hc Ha Ho Hq n. pose proof (reach_inv _ Hr) as Hinv0.
  assert (Hoc : order_call a = true) by (by destruct Ha as [[-> _]| ->]). assert (Hrf : refers a = Some i) by (by destruct Ha as [[-> _]| ->]).
  destruct (off_call _ _ _ _ _ Hr Hop Hoc Hc Hm) as (sid & b & hevs & c & evs2 & Hinv & Hinv' & Hb & Htg & Hh & Hcf & Hoff & ->).
  { destruct Ha as [[-> _]| ->]; by eapply live_accept. }
  rewrite get_order_inv in Ho by done.
  assert (Hoth : others_kept i s s'). { intros j Hj. rewrite !get_order_inv by done. eapply off_others; [done|done|congruence|]. by destruct Ha as [[-> _]| ->]. }
  destruct Hh as [o0 o' Hsym Hval|i' q0 o0 u e' q1 o' Q' Ho' Hid Hsym Hq' He' Hords Hlog Hpr Hp
    |mit i' p0 q0 o0 u e' o' evs' Q' Ho' Hid Hsym Hq' He' Hords Hlog Hpr Hp
    |i' ni p0 q0 o0 u e' o' Q' evs' Ho' Hid Hsym Hq' Hni Hty He' Hords Hlog Hpr Hp
    |i' o0 u e' Q' evs' Ho' Hid Hsym He' Hords Hlog Hpr Hp
    |a2 i' price q0 o0 u e' q1 o' Q' evs' Ha' Ho' Hid Hsym Hq' He' Hords Hlog Hpr Hp];
    try (by destruct Ha as [[? _]|?]); try (destruct mit; by destruct Ha as [[? _]|?]).
  cbn in Ho'. assert (i' = i) as -> by (destruct Ha as [[-> _]| ->], Ha' as [[E _]|E]; congruence).
  assert (o0 = o) as -> by congruence. assert (q0 = q) as -> by (destruct Ha as [[-> _]| ->], Ha' as [[E _]|E]; congruence).
  assert (price = p) as ->. { destruct Ha as [[-> Hp']| ->], Ha' as [[E Hp2]|E]; try congruence. }
  assert (q1 = n) as Eq1 by done.
  inversion Hoff as [e Hce|e o2 u2 e2 Hce|e o2 Hce|e o2 Hce]; subst; try done. injection Hce as <-.
  split; [done|]. split. { unfold evs'. rewrite app_nil_r. rewrite app_comm_cons, execs_app. cbn. rewrite execs_lim. unfold red_ev. by destruct (_ =? 0). }
  split; [done|]. rewrite get_order_inv by done. cbn [put_eng st_ords].
  assert (e_ords (reset_m e') = e_ords e') as -> by done. rewrite Hords. unfold reduced_map.
  assert (o_leaves o' =? 0 = bool_decide (n = o_leaves o)) as -> by (cbn; fold q1; case_bool_decide; lia). assert (o_id o' = o_id o) as -> by done.
  rewrite Eq1 in *. case_bool_decide as Hd; [rewrite !(decide_True _ _ Hd)|rewrite !(decide_False _ _ Hd)].
  - split; [apply lookup_delete|]. rewrite (proj2 (Z.eqb_eq _ _) Hd) in Hp. by eapply (left_put s (o_sym o) b).
  - split; [by rewrite lookup_insert|]. rewrite (proj2 (Z.eqb_neq _ _) Hd) in Hp. by eapply (kept_put s (o_sym o) b).
Qed.
Print Assumptions C37_execute.

(** ** C32 *)
Lemma hstep_execs sid e a evs c : hstep sid e a evs c -> is_execute a = false -> execs evs = [].
Proof.
  intros Hh Hx. destruct Hh as [o0 o' Hsym Hval|i q0 o0 u e' q1 o' Q' Ho Hid Hsym Hq He' Hords Hlog Hpr Hp
    |mit i p0 q0 o0 u e' o' evs' Q' Ho Hid Hsym Hq He' Hords Hlog Hpr Hp
    |i ni p0 q0 o0 u e' o' Q' evs' Ho Hid Hsym Hq Hni Hty He' Hords Hlog Hpr Hp
    |i o0 u e' Q' evs' Ho Hid Hsym He' Hords Hlog Hpr Hp
    |a2 i price q0 o0 u e' q1 o' Q' evs' Ha Ho Hid Hsym Hq He' Hords Hlog Hpr Hp]; try done.
  - change (red_ev o' :: lim_evs o0 sid u) with ([red_ev o'] ++ lim_evs o0 sid u). rewrite execs_app, execs_lim. unfold red_ev. by destruct (_ =? 0).
  - unfold evs'. rewrite execs_app, execs_lim. by destruct (0 <? _).
  - unfold evs'. by rewrite execs_app, execs_lim.
  - unfold evs'. by rewrite execs_app, execs_lim.
  - by destruct Ha as [[-> _]| ->].
Qed.
Lemma lim_not_updo o sid u x : EUpdateOrder x ∉ lim_evs o sid u.
Proof. apply lim_not_upd. Qed.
Lemma hstep_upd sid e a evs c x : hstep sid e a evs c -> EUpdateOrder x ∈ evs -> refers a = Some (o_id x).
Proof.
  intros Hh Hx. destruct Hh as [o0 o' Hsym Hval|i q0 o0 u e' q1 o' Q' Ho Hid Hsym Hq He' Hords Hlog Hpr Hp
    |mit i p0 q0 o0 u e' o' evs' Q' Ho Hid Hsym Hq He' Hords Hlog Hpr Hp
    |i ni p0 q0 o0 u e' o' Q' evs' Ho Hid Hsym Hq Hni Hty He' Hords Hlog Hpr Hp
    |i o0 u e' Q' evs' Ho Hid Hsym He' Hords Hlog Hpr Hp
    |a2 i price q0 o0 u e' q1 o' Q' evs' Ha Ho Hid Hsym Hq He' Hords Hlog Hpr Hp].
  - by apply elem_of_list_singleton in Hx.
  - apply elem_of_cons in Hx as [Hx|Hx]; [|by apply lim_not_upd in Hx]. unfold red_ev in Hx. destruct (_ =? 0); [done|]. injection Hx as ->. cbn. congruence.
  - unfold evs' in Hx. apply elem_of_app in Hx as [Hx|Hx]; [by apply lim_not_upd in Hx|]. destruct (0 <? _); [|by apply elem_of_nil in Hx].
    apply elem_of_list_singleton in Hx. injection Hx as ->. assert (o_id o' = i) as -> by (unfold o', modified; by destruct mit). by destruct mit.
  - unfold evs' in Hx. apply elem_of_app in Hx as [Hx|Hx]; [by apply lim_not_upd in Hx|]. by repeat (apply elem_of_cons in Hx as [Hx|Hx]; [done|]); apply elem_of_nil in Hx.
  - unfold evs' in Hx. apply elem_of_app in Hx as [Hx|Hx]; [by apply lim_not_upd in Hx|]. by apply elem_of_list_singleton in Hx.
  - unfold evs' in Hx. apply elem_of_cons in Hx as [Hx|Hx]; [done|]. apply elem_of_app in Hx as [Hx|Hx]; [by apply lim_not_upd in Hx|].
    apply elem_of_list_singleton in Hx. unfold red_ev in Hx. destruct (_ =? 0); [done|]. injection Hx as ->. destruct Ha as [[-> _]| ->]; cbn; congruence.
Qed.
Lemma off_end_evs s sid c s' er evs : off_end s sid c s' er evs -> execs evs = [] /\ forall x, EUpdateOrder x ∉ evs.
Proof.
  intros H. inversion H; subst; try (split; [done|]; set_solver). split; [apply execs_lim|]. intros x. apply lim_not_upd.
Qed.
(** The order named by the call, if it is still live, is the same kind of order. *)
Lemma off_referred s a sid b hevs c s' er evs2 j o o' : inv s -> hstep sid (eng_of b s) a hevs c -> off_end s sid c s' er evs2 ->
  ~ introduces a j -> st_ords s !! j = Some o -> st_ords s' !! j = Some o' -> o_type o' = o_type o /\ o_stop o' = o_stop o.
Proof.
  intros Hinv Hh Hoff Hin Ho Ho'. destruct (decide (refers a = Some j)) as [Hre|Hre].
  2: { rewrite (off_others _ _ _ _ _ _ _ _ _ j Hh Hoff Hre) in Ho' by done. assert (o' = o) as -> by congruence. done. }
  destruct Hh as [o0 o1 Hsym Hval|i q0 o0 u e' q1 o1 Q' Ho1 Hid Hsym Hq He' Hords Hlog Hpr Hp
    |mit i p0 q0 o0 u e' o1 evs' Q' Ho1 Hid Hsym Hq He' Hords Hlog Hpr Hp
    |i ni p0 q0 o0 u e' o1 Q' evs' Ho1 Hid Hsym Hq Hni Hty He' Hords Hlog Hpr Hp
    |i o0 u e' Q' evs' Ho1 Hid Hsym He' Hords Hlog Hpr Hp
    |a2 i price q0 o0 u e' q1 o1 Q' evs' Ha Ho1 Hid Hsym Hq He' Hords Hlog Hpr Hp]; try done;
  inversion Hoff as [e Hce|e o2 u2 e2 Hce Hfr Hty2 Htif Hords2 Hlog2 Hpr2 Hp2|e o2 Hce Hv|e o2 Hce Hex]; subst s' er evs2; try done;
  cbn in Ho1; subst i; first [injection Hce as <- E12; rewrite <- E12 in * |injection Hce as <-]; cbn in Ho'; rewrite ?Hords2, ?Hords in Ho'; cbn in Hre.
  - assert (o0 = o) as -> by congruence. unfold reduced_map in Ho'. cbn in Ho'. destruct (_ =? 0).
    + apply lookup_delete_Some in Ho' as [Hn _]. congruence.
    + apply lookup_insert_Some in Ho' as [[_ <-]|[Hn _]]; [done|congruence].
  - assert (o_id o0 = j) as Ej by (destruct mit; cbn in Hre; congruence). assert (o0 = o) as -> by congruence.
    apply lookup_insert_Some in Ho' as [[_ E2]|[Hn _]]; [rewrite <- E2; unfold o1, modified; by destruct mit|]. exfalso. apply Hn. rewrite <- Ej. unfold o1, modified. by destruct mit.
  - assert (o_id o0 = j) as Ej by (destruct mit; cbn in Hre; congruence). rewrite Ej in Ho'. by rewrite lookup_delete in Ho'.
  - assert (o_id o0 = j) as Ej by (destruct mit; cbn in Hre; congruence). rewrite Ej in Ho'. by rewrite lookup_delete in Ho'.
  - injection Hre as Ej. rewrite Ej in Ho'. apply lookup_insert_Some in Ho' as [[E _]|[_ Ho']]; [|by rewrite lookup_delete in Ho']. by destruct Hin.
  - injection Hre as Ej. rewrite Ej in Ho'. by rewrite lookup_delete in Ho'.
  - injection Hre as Ej. rewrite Ej in Ho'. by rewrite lookup_delete in Ho'.
  - injection Hre as Ej. rewrite Ej in Ho'. by rewrite lookup_delete in Ho'.
  - assert (o_id o0 = j) as Ej by (destruct Ha as [[-> _]| ->]; cbn in Hre; congruence). assert (o0 = o) as -> by congruence. unfold reduced_map in Ho'. cbn in Ho'. destruct (_ =? 0).
    + apply lookup_delete_Some in Ho' as [Hn _]. congruence.
    + apply lookup_insert_Some in Ho' as [[_ <-]|[Hn _]]; [done|congruence].
Qed.
Lemma hstep_live sid e a evs c j : hstep sid e a evs c -> refers a = Some j -> e_ords e !! j <> None.
Proof.
  intros Hh Hre. destruct Hh as [o0 o1 Hsym Hval|i q0 o0 u e' q1 o1 Q' Ho1|mit i p0 q0 o0 u e' o1 evs' Q' Ho1|i ni p0 q0 o0 u e' o1 Q' evs' Ho1|i o0 u e' Q' evs' Ho1|a2 i price q0 o0 u e' q1 o1 Q' evs' Ha Ho1]; cbn in Hre; try done; try (injection Hre as <-; congruence).
  - destruct mit; injection Hre as <-; congruence. - destruct Ha as [[-> _]| ->]; injection Hre as <-; congruence.
Qed.
Lemma off_frozen s a s' er evs : reach s -> op_ok s a -> order_call a = true -> st_match s = false -> trading_call a = false -> call s a s' er evs ->
  execs evs = [] /\ (forall x, EUpdateOrder x ∈ evs -> refers a = Some (o_id x)) /\
  (forall j o, get_order j s = Some o -> refers a <> Some j -> get_order j s' = Some o) /\
  (forall j o o', get_order j s = Some o -> get_order j s' = Some o' -> ~ introduces a j -> o_type o' = o_type o /\ o_stop o' = o_stop o) /\ st_match s' = false /\
  (forall j, get_order j s = None -> ~ introduces a j -> get_order j s' = None).
Proof.
  intros Hr Hop Ho Hm Ht Hc. pose proof (reach_inv _ Hr) as Hinv0. destruct (refusal s a) as [er0|] eqn:Hf.
  { pose proof (refused_step s a er0 Hinv0 (or_introl Ho) Hf) as Hst. pose proof Hc as [Hst' _]. rewrite Hst in Hst'. injection Hst' as <- <-. rewrite (call_same _ _ _ _ Hc).
    split; [done|]. split; [set_solver|]. split; [done|]. split; [|split; done]. intros j o o' H1 H2 _. assert (o' = o) as -> by congruence. done. }
  destruct (off_call _ _ _ _ _ Hr Hop Ho Hc Hm Hf) as (sid & b & hevs & c & evs2 & Hinv & Hinv' & Hb & Htg & Hh & Hcf & Hoff & ->).
  destruct (off_end_evs _ _ _ _ _ _ Hoff) as [Hx2 Hu2].
  assert (Hex : is_execute a = false) by (by destruct a).
  split; [by rewrite execs_app, (hstep_execs _ _ _ _ _ Hh Hex), Hx2|].
  split. { intros x Hx. apply elem_of_app in Hx as [Hx|Hx]; [by eapply hstep_upd|by destruct (Hu2 x)]. }
  split. { intros j o Hj Hre. rewrite get_order_inv in Hj |- * by done. rewrite (off_others _ _ _ _ _ _ _ _ _ j Hh Hoff Hre); [done|]. intros _. by rewrite Hj. }
  split. { intros j o o' Hj Hj' Hin. rewrite get_order_inv in Hj, Hj' by done. exact (off_referred _ _ _ _ _ _ _ _ _ j o o' Hinv Hh Hoff Hin Hj Hj'). }
  split; [by inversion Hoff|]. intros j Hj Hin. rewrite get_order_inv in Hj |- * by done. rewrite (off_others _ _ _ _ _ _ _ _ _ j Hh Hoff); [done| |done].
  intros Hre. by destruct (hstep_live _ _ _ _ _ _ Hh Hre).
Qed.
Theorem C32_frozen s a s' er evs : reach s -> op_ok s a -> st_match s = false -> trading_call a = false -> call s a s' er evs ->
  execs evs = [] /\ (forall x, EUpdateOrder x ∈ evs -> refers a = Some (o_id x)) /\
  (forall j o, get_order j s = Some o -> refers a <> Some j -> get_order j s' = Some o) /\
  (forall j o o', get_order j s = Some o -> get_order j s' = Some o' -> ~ introduces a j -> o_type o' = o_type o /\ o_stop o' = o_stop o).
Proof.
  intros Hr Hop Hm Ht Hc. pose proof (reach_inv _ Hr) as Hinv.
  destruct (order_call a) eqn:Ho. { by destruct (off_frozen s a s' er evs Hr Hop Ho Hm Ht Hc) as (H1 & H2 & H3 & H4 & _). }
  destruct (call_result _ _ _ _ _ Hr Hop Hc) as (_ & Hres & Hinv').
  destruct (registry_op a) eqn:Hreg.
  { destruct (result_registry _ _ _ _ Hres Hreg) as (Eo & _ & evs' & Hl & _ & He). destruct Hc as [_ Hlog]. rewrite Hlog in Hl. apply app_inv_head in Hl. subst evs'.
    assert (Hno : execs evs = [] /\ forall x, EUpdateOrder x ∉ evs). { destruct He as [->|(ev & -> & Hev)]; [split; [done|set_solver]|]. destruct ev; try done; split; [done|set_solver|done|set_solver|done|set_solver|done|set_solver]. }
    destruct Hno as [H1 H2]. split; [done|]. split; [intros x Hx; by destruct (H2 x)|]. split; [intros j o; rewrite !get_order_inv by done; by rewrite Eo|].
    intros j o o'. rewrite !get_order_inv by done. rewrite Eo. intros E1 E2. assert (o' = o) as -> by congruence. done. }
  destruct a as [sy|i|sy|i|o|i q|i p q|i p q|i ni p q|i o|i|i q|i p q| | |]; try done.
  - destruct (refusal s (ReplaceWith i o)) as [er0|] eqn:Hf.
    { pose proof (refused_step s (ReplaceWith i o) er0 Hinv (or_intror eq_refl) Hf) as Hst. pose proof Hc as [Hst' _]. rewrite Hst in Hst'. injection Hst' as <- <-. rewrite (call_same _ _ _ _ Hc).
      split; [done|]. split; [set_solver|]. split; [done|]. intros j x x' H1 H2 _. assert (x' = x) as -> by congruence. done. }
    destruct (C47_replace_with s i o s' er evs Hr Hop Hc Hf) as (s1 & evs1 & evs2 & Hc1 & Hc2 & ->).
    assert (Hop1 : op_ok s (DeleteOrder i)) by (destruct Hop; done).
    destruct (call_outcome s _ s1 OK evs1 Hr Hop1 eq_refl Hc1) as (_ & Hout & Hinv1). pose proof (outcome_total s i s1 Hinv Hout) as Htot.
    assert (Hop2 : op_ok s1 (AddOrder o)). { cbn in Hop |- *. destruct Hop as (_ & Hrg & Htot'). split; [done|]. lia. }
    assert (Hr1 : reach s1) by (eapply reach_step; [exact Hr|exact Hop1|exact (proj1 Hc1)]).
    destruct (off_frozen s _ s1 OK evs1 Hr Hop1 eq_refl Hm eq_refl Hc1) as (A1 & A2 & A3 & A4 & A5 & A6).
    destruct (off_frozen s1 _ s' er evs2 Hr1 Hop2 eq_refl A5 eq_refl Hc2) as (B1 & B2 & B3 & B4 & B5 & B6).
    split; [by rewrite execs_app, A1, B1|]. split. { intros x Hx. apply elem_of_app in Hx as [Hx|Hx]; [exact (A2 _ Hx)|by specialize (B2 _ Hx)]. }
    split. { intros j x Hj Hre. apply B3; [|done]. exact (A3 j x Hj Hre). }
    intros j x x' Hj Hj' Hin. destruct (get_order j s1) as [y|] eqn:Hy.
    + assert (get_order j s' = Some y) as Hy' by (by apply B3). assert (x' = y) as -> by congruence. apply (A4 j x y Hj Hy). by intros [].
    + by rewrite (B6 j Hy Hin) in Hj'.
  - inversion Hres; subst; [done|]. destruct Hc as [_ Hlog]. cbn in Hlog. apply nil_log in Hlog. subst evs. split; [done|]. split; [set_solver|]. split; [done|].
    intros j x x' H1 H2 _. assert (x' = x) as -> by (unfold get_order in *; cbn in *; congruence). done.
Qed.
Print Assumptions C32_frozen.
Lemma joined_put s sid b b1 e i o m1 u1 (P : Z -> Prop) `{!forall x, Decision (P x)} : get_book sid s = Some b ->
  (forall k p, queue b1 k p = filter P (queue b k p)) -> (forall n bn k p, n <> sid -> get_book n s = Some bn -> filter P (queue bn k p) = queue bn k p) ->
  prim m1 (okind o) (okey o) (queue b1 (okind o) (okey o) ++ [i]) b1 (e_bk e) u1 ->
  forall m, match get_book m s, get_book m (put_eng sid (reset_m e) s) with
  | Some b, Some b' => forall k' p', queue b' k' p' = filter P (queue b k' p') ++ (if decide (m = sid /\ k' = okind o /\ p' = okey o) then [i] else [])
  | None, None => True
  | _, _ => False
  end.
Proof.
  intros Hb H1 H2 Hp m. rewrite (get_book_put _ _ _ _ _ Hb). destruct (decide (sid = m)) as [<-|Hne].
  - rewrite Hb. intros k p. rewrite reset_queue, (prim_queue _ _ _ _ _ _ _ Hp). case_decide as Hd.
    + destruct Hd as [-> ->]. rewrite decide_True by done. by rewrite H1.
    + rewrite decide_False by naive_solver. by rewrite app_nil_r, H1.
  - destruct (get_book m s) as [bm|] eqn:Hm; [|done]. intros k p. rewrite decide_False by naive_solver. by rewrite app_nil_r, (H2 m bm).
Qed.
Lemma limit_place o : o_type o = LIMIT -> okind o = side_kind (o_side o) /\ okey o = o_price o.
Proof. intros H. unfold okind, okey. rewrite H. by destruct (o_side o). Qed.
Theorem C32_add_limit s o s' er evs : reach s -> op_ok s (AddOrder o) -> st_match s = false -> call s (AddOrder o) s' er evs ->
  o_type o = LIMIT -> validate o = OK -> o_tif o = GTC \/ o_tif o = AON -> get_book (o_sym o) s <> None -> get_order (o_id o) s = None ->
  er = OK /\ get_order (o_id o) s' = Some o /\ others_kept (o_id o) s s' /\
  joined_queue (o_id o) (o_sym o) (side_kind (o_side o)) (o_price o) s s' /\ execs evs = [].
Proof.
  intros Hr Hop Hm Hc Hty Hv Htif Hbk Hfr.
  destruct (off_call _ _ _ _ _ Hr Hop eq_refl Hc Hm) as (sid & b & hevs & c & evs2 & Hinv & Hinv' & Hb & Htg & Hh & Hcf & Hoff & ->).
  { cbn [refusal]. rewrite decide_True by done. by destruct (get_book (o_sym o) s). }
  rewrite get_order_inv in Hfr by done.
  assert (Hoth : others_kept (o_id o) s s'). { intros j Hj. rewrite !get_order_inv by done. eapply off_others; [done|done|done|]. cbn. congruence. }
  inversion Hh as [o0 o' Hsym Hval| | | | |a2 i' price q0 o0 u e' q1 o' Q' evs' Ha]; subst; try (by destruct mit); [|by destruct Ha as [[? _]|?]].
  assert (Eo : o' = o) by (unfold o', placed; by rewrite Hty).
  inversion Hoff as [e Hce|e o2 u2 e2 Hce Hf2 Hty2 Htif2 Hords2 Hlog2 Hpr2 Hp2|e o2 Hce Hv2|e o2 Hce Hex]; subst s' er evs2; try done; injection Hce as <- E2; rewrite Eo in E2; subst o2.
  - split; [done|]. rewrite get_order_inv by done. cbn [put_eng st_ords]. assert (e_ords (reset_m e2) = e_ords e2) as -> by done. rewrite Hords2.
    split; [by rewrite lookup_insert|]. split; [done|]. destruct (limit_place o Hty) as [<- <-]. split; [|by rewrite execs_app, execs_lim].
    pose proof (joined_put s (o_sym o) b b e2 (o_id o) o (e_ords e2) u2 (fun _ => True) Hb) as HJ.
    assert (Hid : forall l : list Z, filter (fun _ => True) l = l) by (intros l; by apply filter_id).
    intros m. specialize (HJ ltac:(intros; by rewrite Hid) ltac:(intros; by rewrite Hid) Hp2 m).
    destruct (get_book m s), (get_book m _); try done. intros k' p'. rewrite (HJ k' p'). by rewrite Hid.
  - exfalso. destruct Hv2 as [H|[H|[[_ H]|H]]].
    + pose proof (validate_split o) as E. rewrite Hv in E. rewrite H in E. cbn in E. destruct (_ =? 0); [done|]. by destruct (_ <? _).
    + congruence. + unfold immediate, is_ioc, is_fok in H. destruct Htif as [E|E]; rewrite E in H; done. + by apply H.
  - exfalso. by apply Hex.
Qed.
Print Assumptions C32_add_limit.
(** The title's second half: a modified limit order goes to the back of the queue at its new price. *)
Theorem C25_modify_requeues s i p q s' er evs o : reach s -> op_ok s (ModifyOrder i p q) -> st_match s = false -> call s (ModifyOrder i p q) s' er evs ->
  get_order i s = Some o -> o_type o = LIMIT -> q <> 0 ->
  er = OK /\ others_kept i s s' /\ moved_last i (o_sym o) (side_kind (o_side o)) p s s' /\
  get_order i s' = Some (set_leaves q (set_qty q (set_price p o))).
Proof.
  intros Hr Hop Hm Hc Ho Hty Hq. pose proof (reach_inv _ Hr) as Hinv0.
  destruct (off_call _ _ _ _ _ Hr Hop eq_refl Hc Hm) as (sid & b & hevs & c & evs2 & Hinv & Hinv' & Hb & Htg & Hh & Hcf & Hoff & ->).
  { by eapply live_accept. }
  rewrite get_order_inv in Ho by done.
  assert (Hoth : others_kept i s s'). { intros j Hj. rewrite !get_order_inv by done. eapply off_others; [done|done|cbn; congruence|done]. }
  inversion Hh as [| |mit i' p0 q0 o0 u e' o' evs' Q' Ho' Hid Hsym Hq' He' Hords Hlog Hpr Hp Ea| | |a2 i' price q0 o0 u e' q1 o' Q' evs' Ha]; subst; [|by destruct Ha as [[? _]|?]].
  destruct mit; [done|]. injection Ea as E0 E1 E2. subst p0 q0. rewrite E0 in *. cbn in Ho'. assert (o0 = o) as -> by congruence.
  assert (Hso : o_type o' = LIMIT /\ o_id o' = i /\ o_side o' = o_side o /\ o_price o' = p /\ o_tif o' = o_tif o /\ o_leaves o' = q) by done. destruct Hso as (T1 & T2 & T3 & T4 & T5 & T6).
  pose proof (mo_live _ (iv_map _ Hinv) _ _ Ho) as Hl.
  inversion Hoff as [e Hce|e o2 u2 e2 Hce Hf2 Hty2 Htif2 Hords2 Hlog2 Hpr2 Hp2|e o2 Hce Hv2|e o2 Hce Hex]; subst s' er evs2; try done; injection Hce as <- E2; rewrite <- E2 in *.
  - split; [done|]. split; [done|]. destruct (limit_place o' T1) as [K1 K2]. rewrite T3 in K1. rewrite T4 in K2. rewrite <- K1, <- K2. split.
    + rewrite T2 in Hp2. refine (joined_put s (o_sym o) b (e_bk e') e2 i o' _ _ (fun j => j <> i) Hb _ _ Hp2).
      * intros k p1. eapply (taken_queue s (o_sym o) b); try done. by rewrite E0.
      * intros n bn k p1 Hne Hbn. apply filter_notin. by eapply (foreign_queue s n bn k p1 i o).
    + rewrite get_order_inv by done. cbn [put_eng st_ords]. assert (e_ords (reset_m e2) = e_ords e2) as -> by done. rewrite Hords2, T2, lookup_insert, K2. unfold o', modified. by destruct o.
  - exfalso. destruct Hv2 as [H|[H|[[_ H]|H]]]; [lia|congruence| |].
    + unfold immediate, is_ioc, is_fok in H. rewrite T5 in H. by destruct (lo_rest _ _ Hl Hty) as [E|E]; rewrite E in H.
    + apply H. rewrite Hords, T2. apply lookup_delete.
  - exfalso. apply Hex. rewrite Hords, T2. apply lookup_delete.
Qed.
Print Assumptions C25_modify_requeues.
