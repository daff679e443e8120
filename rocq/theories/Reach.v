(** * Reach.v -- every API call from a reachable state returns, keeps the invariant, and is a
    head action with exact effect followed by micro actions. *)
From Coq Require Import ZifyBool.
From stdpp Require Import fin_maps relations.
From Verif Require Import Types Book Engine Manager LevelFacts BookInv EngInv EngPrim Steps StepsOk Refine1 Refine2 Refine3 Refine4 Api StateInv Micro.

(** ** Head actions with exact effect *)
Inductive hstep (sid : Z) (e : eng) : op -> list event -> cfg -> Prop :=
| hs_add o : let o' := placed o (e_bk e) in
    o_sym o = sid -> validate o = OK ->
    hstep sid e (AddOrder o) [EAddOrder o'] (emit (EAddOrder o') e, Some o')
| hs_reduce i q0 o u e' :
    let q := Z.min q0 (o_leaves o) in let o' := set_leaves (o_leaves o - q) o in
    let Q := queue (e_bk e) (okind o) (okey o) in
    e_ords e !! i = Some o -> o_id o = i -> o_sym o = sid -> 0 < q0 -> eng_ok sid e' ->
    e_ords e' = reduced_map (e_ords e) o' -> e_log e' = e_log e ++ red_ev o' :: lim_evs o sid u ->
    bprices (e_bk e') = bprices (e_bk e) ->
    prim (e_ords e') (okind o) (okey o) (if q =? o_leaves o then filter (fun j => j <> o_id o) Q else Q) (e_bk e) (e_bk e') u ->
    hstep sid e (ReduceOrder i q0) (red_ev o' :: lim_evs o sid u) (e', None)
| hs_take (mit : bool) i p q o u e' :
    let o' := modified mit p q o in let evs := lim_evs o sid u ++ (if 0 <? o_leaves o' then [EUpdateOrder o'] else []) in
    let Q := queue (e_bk e) (okind o) (okey o) in
    e_ords e !! i = Some o -> o_id o = i -> o_sym o = sid -> 0 < q -> eng_ok sid e' ->
    e_ords e' = delete i (e_ords e) -> e_log e' = e_log e ++ evs ->
    bprices (e_bk e') = bprices (e_bk e) ->
    prim (e_ords e') (okind o) (okey o) (filter (fun j => j <> o_id o) Q) (e_bk e) (e_bk e') u ->
    hstep sid e (if mit then MitigateOrder i p q else ModifyOrder i p q) evs (e', Some o')
| hs_replace i ni p q o u e' :
    let o' := replaced ni p q o in let Q := queue (e_bk e) (okind o) (okey o) in
    let evs := lim_evs o sid u ++ [EDeleteOrder o; EAddOrder o'] in
    e_ords e !! i = Some o -> o_id o = i -> o_sym o = sid -> 0 < q -> 0 < ni -> o_type o = LIMIT -> eng_ok sid e' ->
    e_ords e' = delete i (e_ords e) -> e_log e' = e_log e ++ evs ->
    bprices (e_bk e') = bprices (e_bk e) ->
    prim (e_ords e') (okind o) (okey o) (filter (fun j => j <> o_id o) Q) (e_bk e) (e_bk e') u ->
    hstep sid e (ReplaceOrder i ni p q) evs (e', Some o')
| hs_delete i o u e' :
    let Q := queue (e_bk e) (okind o) (okey o) in let evs := lim_evs o sid u ++ [EDeleteOrder o] in
    e_ords e !! i = Some o -> o_id o = i -> o_sym o = sid -> eng_ok sid e' ->
    e_ords e' = delete i (e_ords e) -> e_log e' = e_log e ++ evs ->
    bprices (e_bk e') = bprices (e_bk e) ->
    prim (e_ords e') (okind o) (okey o) (filter (fun j => j <> o_id o) Q) (e_bk e) (e_bk e') u ->
    hstep sid e (DeleteOrder i) evs (e', None)
| hs_execute a i price q0 o u e' :
    let q := Z.min q0 (o_leaves o) in let o' := executed q o in
    let Q := queue (e_bk e) (okind o) (okey o) in
    let evs := EExecute o price q :: lim_evs o sid u ++ [red_ev o'] in
    a = ExecuteOrder i q0 /\ price = o_price o \/ a = ExecuteOrderAt i price q0 ->
    e_ords e !! i = Some o -> o_id o = i -> o_sym o = sid -> 0 < q0 -> eng_ok sid e' ->
    e_ords e' = reduced_map (e_ords e) o' -> e_log e' = e_log e ++ evs ->
    bprices (e_bk e') = bprices (update_matching (o_side o) price (update_last (o_side o) price (e_bk e))) ->
    prim (e_ords e') (okind o) (okey o) (if q =? o_leaves o then filter (fun j => j <> o_id o) Q else Q) (e_bk e) (e_bk e') u ->
    hstep sid e a evs (e', None).

Lemma head_hstep s sid b a c : loose s -> get_book sid s = Some b -> target s a = Some sid ->
  head (eng_of b s) a c -> exists evs, hstep sid (eng_of b s) a evs c.
Proof.
  intros Hinv Hb Htg Hhd. pose proof (inv_eng s sid b Hinv Hb) as He.
  inversion Hhd as [o Hvo|i q o e1 Ho Hq Hr|i p q o e1 Ho Hq Hr|i p q o e1 Ho Hq Hr|i ni p q o e1 Ho Hq Hni Hty Hr|i o e1 Ho Hr|i q o e1 Ho Hq Hr|i p q o e1 Ho Hq Hr]; subst; cbn in Htg.
  { injection Htg as Hs. eexists. apply hs_add; auto. }
  all: cbn in Ho; rewrite Ho in Htg; injection Htg as Hs;
       pose proof (mo_live _ (ls_map _ Hinv) _ _ Ho) as Hl; pose proof (lo_id _ _ Hl) as Eid; subst i.
  - destruct (reduce_order_ok sid (eng_of b s) o q He Ho Hs Hq) as (u & e1' & Heq & He1 & Hords & Hlog & Hpr & Hp).
    rewrite Hr in Heq. injection Heq as <-. eexists. by eapply hs_reduce.
  - destruct (drop_eng_ok sid (eng_of b s) o e1 He Ho Hs Hr) as [He1 Hsh].
    destruct (eng_del_ok sid (eng_of b s) o He Ho Hs) as (u & e1' & Heq' & Hords & Hok & Hlog & Hpr & Hp).
    rewrite Hr in Heq'. injection Heq' as <-.
    eexists. eapply (hs_take sid _ false); try done; unfold modify_head; destruct (0 <? _) eqn:El; try done; cbn; try (by rewrite Hords); rewrite ?Hords; try done.
    + rewrite Hlog. cbn. by rewrite <- app_assoc. + rewrite Hlog. cbn. by rewrite app_nil_r.
  - destruct (drop_eng_ok sid (eng_of b s) o e1 He Ho Hs Hr) as [He1 Hsh].
    destruct (eng_del_ok sid (eng_of b s) o He Ho Hs) as (u & e1' & Heq' & Hords & Hok & Hlog & Hpr & Hp).
    rewrite Hr in Heq'. injection Heq' as <-.
    eexists. eapply (hs_take sid _ true); try done; unfold modify_head; destruct (0 <? _) eqn:El; try done; cbn; try (by rewrite Hords); rewrite ?Hords; try done.
    + rewrite Hlog. cbn. by rewrite <- app_assoc. + rewrite Hlog. cbn. by rewrite app_nil_r.
  - destruct (delete_order_ok sid (eng_of b s) o He Ho Hs) as (u & e2 & Heq2 & He2 & Hords & Hlog & Hpr & Hp).
    rewrite Hr in Heq2. injection Heq2 as <-. eexists. eapply hs_replace; try done. cbn. rewrite Hlog, <- !app_assoc. done.
  - destruct (delete_order_ok sid (eng_of b s) o He Ho Hs) as (u & e2 & Heq2 & He2 & Hords & Hlog & Hpr & Hp).
    rewrite Hr in Heq2. injection Heq2 as <-. eexists. by eapply hs_delete.
  - destruct (execute_head_ok sid (eng_of b s) o (o_price o) q He Ho Hs Hq) as (u & e2 & Heq2 & He2 & Hords & Hlog & Hpr & Hp).
    rewrite Hr in Heq2. injection Heq2 as <-. eexists. eapply hs_execute; try done. by left.
  - destruct (execute_head_ok sid (eng_of b s) o p q He Ho Hs Hq) as (u & e2 & Heq2 & He2 & Hords & Hlog & Hpr & Hp).
    rewrite Hr in Heq2. injection Heq2 as <-. eexists. eapply hs_execute; try done. by right.
Qed.
Lemma hstep_log sid e a evs c : hstep sid e a evs c -> e_log (fst c) = e_log e ++ evs.
Proof. intros H. inversion H; subst; done. Qed.

(** ** Matching all books *)
Inductive mrun : state -> state -> Prop :=
| mr_nil s : mrun s s
| mr_book s sid b e' s' : get_book sid s = Some b -> rtc (mstep False False) (eng_of b s, None) (e', None) ->
    eng_ok sid e' -> (aon_cross sid e' \/ matched sid e') -> mrun (put_eng sid e' s) s' -> mrun s s'.

Lemma match_books_ok idx : forall s, inv s -> exists s', match_books idx s = Ok s' /\ mrun s s' /\ inv s'.
Proof.
  induction idx as [|n idx IH]; intros s Hinv; cbn [match_books].
  { exists s. split; [done|]. split; [constructor|done]. }
  destruct (get_book (Z.of_nat n) s) as [b|] eqn:Hb; [|by apply IH].
  pose proof (inv_eng s _ b Hinv Hb) as He.
  destruct (match_book_ok (F:=False) (W:=False) (Z.of_nat n) (eng_of b s) He) as (e' & Heq & Hr & He' & Hend).
  rewrite (on_book_run (Z.of_nat n) b _ s e' tt) by (by rewrite Heq). cbn [rbind].
  assert (Hfr : frame (Z.of_nat n) (st_ords s) (e_ords e')).
  { by destruct (msteps_ok (Z.of_nat n) _ _ Hr (conj He I)). }
  destruct (IH (put_eng (Z.of_nat n) e' s)) as (s' & Hs' & Hm & Hi). { by eapply put_inv. }
  exists s'. split; [done|]. split; [|done]. by eapply mr_book.
Qed.
Lemma match_books_loose idx : forall s, loose s -> exists s', match_books idx s = Ok s' /\ mrun s s' /\ loose s'.
Proof.
  induction idx as [|n idx IH]; intros s Hinv; cbn [match_books].
  { exists s. split; [done|]. split; [constructor|done]. }
  destruct (get_book (Z.of_nat n) s) as [b|] eqn:Hb; [|by apply IH].
  pose proof (inv_eng s _ b Hinv Hb) as He.
  destruct (match_book_ok (F:=False) (W:=False) (Z.of_nat n) (eng_of b s) He) as (e' & Heq & Hr & He' & Hend).
  rewrite (on_book_run (Z.of_nat n) b _ s e' tt) by (by rewrite Heq). cbn [rbind].
  assert (Hfr : frame (Z.of_nat n) (st_ords s) (e_ords e')).
  { by destruct (msteps_ok (Z.of_nat n) _ _ Hr (conj He I)). }
  destruct (IH (put_eng (Z.of_nat n) e' s)) as (s' & Hs' & Hm & Hi). { by eapply put_loose. }
  exists s'. split; [done|]. split; [|done]. by eapply mr_book.
Qed.
Lemma mrun_match s s' : mrun s s' -> st_match s' = st_match s /\ st_syms s' = st_syms s.
Proof. induction 1 as [|s sid b e' s' _ _ _ _ _ IH]; [done|]. cbn in IH. done. Qed.
Lemma mrun_inv s s' : mrun s s' -> inv s -> inv s'.
Proof.
  induction 1 as [|s sid b e' s' Hb Hr He' _ _ IH]; intros Hinv; [done|]. apply IH. eapply put_inv; [done|done|done|].
  by destruct (msteps_ok sid _ _ Hr (conj (inv_eng _ _ _ Hinv Hb) I)).
Qed.

(** ** Outcomes of all calls *)
Inductive result (s : state) : op -> state -> err -> Prop :=
| rs_order a s' er : order_op a = true -> outcome s a s' er -> result s a s' er
| rs_replace_fail i o er : er <> OK -> er <> ORDER_DUPLICATE -> outcome s (DeleteOrder i) s er -> result s (ReplaceWith i o) s er
| rs_replace i o s1 s' er : outcome s (DeleteOrder i) s1 OK -> inv s1 -> op_ok s1 (AddOrder o) -> outcome s1 (AddOrder o) s' er ->
    result s (ReplaceWith i o) s' er
| rs_match s' : mrun s s' -> result s Match s' OK
| rs_enable s' : mrun (set_matching true s) s' -> result s EnableMatching s' OK
| rs_disable : result s DisableMatching (set_matching false s) OK
| rs_addsym_dup sy v : get_symbol (sy_id sy) s <> None -> (forall j, vfind j v = get_symbol j s) ->
    result s (AddSymbol sy) (mkState v (st_books s) (st_ords s) (st_match s) (st_log s)) SYMBOL_DUPLICATE
| rs_addsym sy v : get_symbol (sy_id sy) s = None -> 0 <= sy_id sy ->
    (forall j, vfind j v = if decide (sy_id sy = j) then Some sy else get_symbol j s) ->
    result s (AddSymbol sy) (mkState v (st_books s) (st_ords s) (st_match s) (st_log s ++ [EAddSymbol sy])) OK
| rs_delsym_none i : get_symbol i s = None -> result s (DeleteSymbol i) s SYMBOL_NOT_FOUND
| rs_delsym i sy v : get_symbol i s = Some sy -> (forall j, vfind j v = if decide (i = j) then None else get_symbol j s) ->
    result s (DeleteSymbol i) (mkState v (st_books s) (st_ords s) (st_match s) (st_log s ++ [EDeleteSymbol sy])) OK
| rs_addbook_nosym sy : get_symbol (sy_id sy) s = None -> result s (AddOrderBook sy) s SYMBOL_NOT_FOUND
| rs_addbook_dup sy v : get_symbol (sy_id sy) s <> None -> get_book (sy_id sy) s <> None -> (forall j, vfind j v = get_book j s) ->
    result s (AddOrderBook sy) (mkState (st_syms s) v (st_ords s) (st_match s) (st_log s)) ORDER_BOOK_DUPLICATE
| rs_addbook sy reg v : get_symbol (sy_id sy) s = Some reg -> get_book (sy_id sy) s = None ->
    (forall j, vfind j v = if decide (sy_id sy = j) then Some (new_book reg) else get_book j s) ->
    result s (AddOrderBook sy) (mkState (st_syms s) v (st_ords s) (st_match s) (st_log s ++ [EAddBook (sy_id sy)])) OK
| rs_delbook_none i : get_book i s = None -> result s (DeleteOrderBook i) s ORDER_BOOK_NOT_FOUND
| rs_delbook i b v : get_book i s = Some b -> (forall j, vfind j v = if decide (i = j) then None else get_book j s) ->
    result s (DeleteOrderBook i) (mkState (st_syms s) v (st_ords s) (st_match s) (st_log s ++ [EDeleteBook i])) OK.

Lemma vresize_add {A} i (v : vec A) : 0 <= i < TWO32 - 1 ->
  let v' := if vsize v <=? i then vresize (u32 (i + 1)) v else v in
  vget i v' <> None /\ (forall j, vfind j v' = vfind j v).
Proof.
  intros Hi v'. unfold v', u32. rewrite Z.mod_small by (unfold TWO32 in *; lia).
  destruct (Z.leb_spec (vsize v) i).
  - destruct (vresize_grow (i + 1) v ltac:(lia)) as (_ & Hf & Hg). split; [apply Hg; lia|done].
  - split; [|done]. unfold vget, vsize in *. rewrite (proj2 (Z.leb_le 0 i)), (proj2 (Z.ltb_lt i _)) by lia. cbn.
    assert (is_Some (v !! Z.to_nat i)) as [y ->]; [|done]. apply lookup_lt_is_Some. lia.
Qed.

Lemma book_ok_new m i reg : sy_id reg = i -> (forall j o, m !! j = Some o -> o_sym o <> i) -> book_ok m i (new_book reg).
Proof.
  intros Hid Hno. constructor; [done| |].
  - intros []; apply side_ok_empty.
  - intros j o Hj Hs. by destruct (Hno j o Hj).
Qed.

Lemma outcome_total s i s' : loose s -> outcome s (DeleteOrder i) s' OK -> total (st_ords s') <= total (delete i (st_ords s)).
Proof.
  intros Hinv Ho. inversion Ho as [? Hn|sid b c e' ? Hb Htg Hhd Hc Hfr Hend]; [done|].
  destruct (ending_micro _ _ _ (wide True) _ _ _ Hend Hc (allows_wide _ _ _ (or_introl I)) (fun _ => I) (fun _ => I)) as [evs Hu]. pose proof (usteps_total _ _ _ _ _ Hu Hc) as Ht. cbn in Ht.
  destruct (head_hstep s sid b _ c Hinv Hb Htg Hhd) as [hevs Hh]. inversion Hh; subst; try (by destruct mit). 2: { naive_solver. }
  cbn in *. match goal with E : _ = delete _ _ |- _ => rewrite E in Ht end. cbn in Ht. lia.
Qed.

Theorem step_ok s a : inv s -> op_ok s a -> exists s' er, step s a = Ok (s', er) /\ result s a s' er /\ inv s'.
Proof.
  intros Hinv Hop. destruct (order_op a) eqn:Hord.
  { destruct (order_op_ok s a Hinv Hop Hord) as (s' & er & Heq & Ho). exists s', er. split; [done|]. split; [by constructor|by eapply outcome_inv]. }
  destruct a as [sy|i|sy|i|o|i q|i p q|i p q|i ni p q|i o|i|i q|i p q| | |]; try done; cbn [step]; cbn in Hop.
  - (* AddSymbol *) unfold add_symbol. destruct (vresize_add (sy_id sy) (st_syms s) Hop) as [Hg Hf].
    set (v' := if vsize (st_syms s) <=? sy_id sy then _ else _) in *.
    destruct (vget (sy_id sy) v') as [[x|]|] eqn:Ex; [| |done].
    + assert (Hgs : get_symbol (sy_id sy) s <> None). { unfold get_symbol. rewrite <- Hf. unfold vfind. by rewrite Ex. }
      eexists _, _. split; [reflexivity|]. split; [by apply rs_addsym_dup|].
      destruct Hinv as [iv_map0 iv_book0 iv_home0 iv_sym0]. constructor; try done. intros j x' Hj. apply iv_sym0. unfold get_symbol in *. cbn in Hj. by rewrite Hf in Hj.
    + assert (Hgs : get_symbol (sy_id sy) s = None). { unfold get_symbol. rewrite <- Hf. unfold vfind. by rewrite Ex. }
      assert (Hv : forall j, vfind j (vset (sy_id sy) (Some sy) v') = if decide (sy_id sy = j) then Some sy else get_symbol j s).
      { intros j. rewrite vfind_vset by (try rewrite Ex; lia || done). by rewrite Hf. }
      eexists _, _. split; [reflexivity|]. split; [apply rs_addsym; [done|lia|done]|].
      destruct Hinv as [iv_map0 iv_book0 iv_home0 iv_sym0]. constructor; try done. intros j x' Hj. unfold get_symbol in Hj. cbn in Hj. rewrite Hv in Hj.
      destruct (decide (sy_id sy = j)) as [<-|]; [by injection Hj as <-|]. by apply iv_sym0.
  - (* DeleteSymbol *) unfold delete_symbol. destruct (vfind i (st_syms s)) as [sy|] eqn:Es.
    2: { eexists _, _. split; [reflexivity|]. split; [by apply rs_delsym_none|done]. }
    pose proof (vfind_get _ _ _ Es) as [Hg Hi].
    assert (Hv : forall j, vfind j (vset i None (st_syms s)) = if decide (i = j) then None else get_symbol j s).
    { intros j. by rewrite vfind_vset. }
    eexists _, _. split; [reflexivity|]. split; [by apply rs_delsym|].
    destruct Hinv as [iv_map0 iv_book0 iv_home0 iv_sym0]. constructor; try done. intros j x' Hj. unfold get_symbol in Hj. cbn in Hj. rewrite Hv in Hj.
    destruct (decide (i = j)) as [<-|]; [done|]. by apply iv_sym0.
  - (* AddOrderBook *) unfold add_order_book. destruct (vfind (sy_id sy) (st_syms s)) as [reg|] eqn:Es.
    2: { eexists _, _. split; [reflexivity|]. split; [by apply rs_addbook_nosym|done]. }
    destruct (vresize_add (sy_id sy) (st_books s) Hop) as [Hg Hf].
    set (v' := if vsize (st_books s) <=? sy_id sy then _ else _) in *.
    destruct (vget (sy_id sy) v') as [[x|]|] eqn:Ex; [| |done].
    + assert (Hgs : get_book (sy_id sy) s <> None). { unfold get_book. rewrite <- Hf. unfold vfind. by rewrite Ex. }
      eexists _, _. split; [reflexivity|]. split; [apply rs_addbook_dup; [by unfold get_symbol; rewrite Es|done|done]|].
      destruct Hinv as [iv_map0 iv_book0 iv_home0 iv_sym0]. constructor; try done.
      * intros j x' Hj. apply iv_book0. unfold get_book in *. cbn in Hj. by rewrite Hf in Hj.
      * intros j o Hj. unfold get_book. cbn. rewrite Hf. by eapply iv_home0.
    + assert (Hgs : get_book (sy_id sy) s = None). { unfold get_book. rewrite <- Hf. unfold vfind. by rewrite Ex. }
      assert (Hv : forall j, vfind j (vset (sy_id sy) (Some (new_book reg)) v') = if decide (sy_id sy = j) then Some (new_book reg) else get_book j s).
      { intros j. rewrite vfind_vset by (try rewrite Ex; lia || done). by rewrite Hf. }
      eexists _, _. split; [reflexivity|]. split; [by eapply rs_addbook|].
      destruct Hinv as [iv_map0 iv_book0 iv_home0 iv_sym0]. constructor; try done.
      * intros j x' Hj. unfold get_book in Hj. cbn in Hj. rewrite Hv in Hj. cbn.
        destruct (decide (sy_id sy = j)) as [<-|]; [|by apply iv_book0]. injection Hj as <-.
        apply book_ok_new; [by apply iv_sym0|]. intros j o Hj E. apply (iv_home0 j o Hj). by rewrite E.
      * intros j o Hj. unfold get_book. cbn. rewrite Hv. destruct (decide (_ = _)); [done|]. by eapply iv_home0.
  - (* DeleteOrderBook *) unfold delete_order_book. destruct (vfind i (st_books s)) as [b|] eqn:Es.
    2: { eexists _, _. split; [reflexivity|]. split; [by apply rs_delbook_none|done]. }
    pose proof (vfind_get _ _ _ Es) as [Hg Hi].
    assert (Hv : forall j, vfind j (vset i None (st_books s)) = if decide (i = j) then None else get_book j s).
    { intros j. by rewrite vfind_vset. }
    eexists _, _. split; [reflexivity|]. split; [by eapply rs_delbook|].
    destruct Hinv as [iv_map0 iv_book0 iv_home0 iv_sym0]. constructor; try done.
    + intros j x' Hj. unfold get_book in Hj. cbn in Hj. rewrite Hv in Hj. destruct (decide (i = j)) as [<-|]; [done|]. by apply iv_book0.
    + intros j o Hj. unfold get_book. cbn. rewrite Hv. cbn in Hj. destruct (decide (i = o_sym o)) as [E|]; [|by eapply iv_home0].
      by destruct (Hop j o Hj).
  - (* ReplaceWith *) unfold api_replace_with. destruct Hop as (Hi & Hrg & Htot).
    destruct (order_op_ok s (DeleteOrder i) Hinv Hi eq_refl) as (s1 & er1 & Heq1 & Ho1). cbn [step] in Heq1.
    rewrite Heq1. cbn [rbind]. pose proof (outcome_inv _ _ _ _ Hinv Ho1) as Hinv1.
    destruct (decide (er1 = OK)) as [->|Hne].
    + assert (Hop1 : op_ok s1 (AddOrder o)).
      { split; [done|]. pose proof (outcome_total s _ s1 Hinv Ho1). lia. }
      destruct (order_op_ok s1 (AddOrder o) Hinv1 Hop1 eq_refl) as (s' & er & Heq & Ho). exists s', er. split; [done|].
      split; [by eapply rs_replace|by eapply outcome_inv].
    + assert (Hs1 : s1 = s /\ er1 <> ORDER_DUPLICATE).
      { inversion Ho1 as [? Hn Hd|sid b c e' ? Hb Htg Hhd Hc Hfr Hend]; subst; [done|].
        inversion Hend; subst; [done|]. inversion Hhd; subst. done. }
      destruct Hs1 as [-> Hnd].
      exists s, er1. split; [by destruct er1|]. split; [by apply rs_replace_fail|done].
  - (* EnableMatching *) destruct (match_books_ok (seq 0 (length (st_books (set_matching true s)))) (set_matching true s)) as (s' & Heq & Hm & Hi).
    { destruct Hinv as [iv_map0 iv_book0 iv_home0 iv_sym0]. by constructor. }
    unfold match_all. rewrite Heq. cbn [rbind]. exists s', OK. split; [done|]. split; [by apply rs_enable|done].
  - exists (set_matching false s), OK. split; [done|]. split; [apply rs_disable|]. destruct Hinv as [iv_map0 iv_book0 iv_home0 iv_sym0]. by constructor.
  - destruct (match_books_ok (seq 0 (length (st_books s))) s Hinv) as (s' & Heq & Hm & Hi).
    unfold match_all. rewrite Heq. cbn [rbind]. exists s', OK. split; [done|]. split; [by apply rs_match|done].
Qed.

Lemma vfind_nil {A} i : @vfind A i [] = None.
Proof. unfold vfind, vget, vsize. cbn. destruct (_ && _); [|done]. by destruct (Z.to_nat i). Qed.
Lemma inv_init : inv init.
Proof.
  constructor.
  - constructor; [done|]. cbn. rewrite total_empty. unfold TWO64. lia.
  - intros i b Hb. unfold get_book in Hb. cbn in Hb. by rewrite vfind_nil in Hb.
  - intros i o Ho. cbn in Ho. by rewrite lookup_empty in Ho.
  - intros i sy Hb. unfold get_symbol in Hb. cbn in Hb. by rewrite vfind_nil in Hb.
Qed.
Lemma reach_inv s : reach s -> inv s.
Proof.
  induction 1 as [|s a s' er _ IH Hop Heq]; [apply inv_init|].
  destruct (step_ok s a IH Hop) as (s1 & er1 & Heq1 & _ & Hi). by rewrite Heq in Heq1; injection Heq1 as -> ->.
Qed.
Lemma step_result s a s' er : inv s -> op_ok s a -> step s a = Ok (s', er) -> result s a s' er.
Proof.
  intros Hi Hop Heq. destruct (step_ok s a Hi Hop) as (s1 & er1 & Heq1 & Hr & _). by rewrite Heq in Heq1; injection Heq1 as -> ->.
Qed.
