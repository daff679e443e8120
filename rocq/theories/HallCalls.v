(** * HallCalls.v -- the order calls against the reference exchange with stop orders. *)
From Coq Require Import ZifyBool.
From stdpp Require Import fin_maps gmap relations sorting.
From Verif Require Import Types Book Engine Manager Factory Validate LevelFacts BookInv EngInv EngPrim Steps StepsOk Refine1 Refine2 Refine3 Refine4 Api StateInv Trades PropsState PropsTrades PropsOrders PropsFill RefMatch PropsRef RefExchange RefStops RefHall Spec Spec2 Spec3 Spec5 Spec6 Spec7 Spec8 Spec13.

(** ** The manager against the exchange *)
Record fits (x : hall) (s : state) : Prop := {
  ft_inv : inv s;
  ft_mt : st_match s = true;
  ft_sym : forall i, h_syms x !! i = get_symbol i s;
  ft_pit : forall i, h_pits x !! i = match get_book i s with Some b => Some (pit_of (eng_of b s)) | None => None end;
  ft_good : forall i b, get_book i s = Some b -> good i (eng_of b s) }.
Lemma orders_other s sid b e i bi k : inv s -> get_book sid s = Some b -> eng_ok sid e -> frame sid (st_ords s) (e_ords e) -> i <> sid -> get_book i s = Some bi ->
  orders_of k (eng_of bi (put_eng sid e s)) = orders_of k (eng_of bi s).
Proof.
  intros Hi Hb He Hf Hne Ei. assert (Hi' : inv (put_eng sid e s)) by by eapply put_inv.
  assert (Hg : get_book i (put_eng sid e s) = Some bi) by (rewrite (get_book_put _ _ _ _ _ Hb), decide_False by done; done).
  pose proof (inv_eng _ _ _ Hi Ei) as He1. pose proof (inv_eng _ _ _ Hi' Hg) as He2.
  destruct (view_of i (eng_of bi s) k He1) as (L & HL & <-). destruct (view_of i (eng_of bi (put_eng sid e s)) k He2) as (L' & HL' & <-). f_equal.
  eapply (cview_unique i (eng_of bi (put_eng sid e s))); [done|done|].
  eapply (cview_ext (eng_of bi s)); [done| |exact HL]. intros p os o Hin Ho Hm.
  destruct (cview_order i _ _ L p os o He1 HL Hin Ho) as (_ & Hs & _). apply (Hf (o_id o) o); [congruence|done].
Qed.
Lemma pit_other s sid b e i bi : inv s -> get_book sid s = Some b -> eng_ok sid e -> frame sid (st_ords s) (e_ords e) -> i <> sid -> get_book i s = Some bi ->
  pit_of (eng_of bi (put_eng sid e s)) = pit_of (eng_of bi s).
Proof. intros. unfold pit_of. by rewrite !(orders_other s sid b e i bi). Qed.
Lemma fits_put x s sid b xs e : fits x s -> get_book sid s = Some b -> runs sid (eng_of b s) xs e -> fits (set_pit sid (pit_of e) x) (put_eng sid e s).
Proof.
  intros [Hi Hm Hsy Hp Hg] Hb [Hgood Hf Hlog]. pose proof (g_ok _ _ Hgood) as He. assert (Hi' : inv (put_eng sid e s)) by by eapply put_inv.
  constructor; [done|done|done| |].
  - intros i. cbn [set_pit h_pits]. rewrite (get_book_put _ _ _ _ _ Hb). destruct (decide (sid = i)) as [<-|Hne]; [by rewrite lookup_insert|].
    rewrite lookup_insert_ne by done. rewrite Hp. destruct (get_book i s) as [bi|] eqn:Ei; [|done]. by rewrite (pit_other s sid b e i bi).
  - intros i bi Hbi. assert (He' : eng_ok i (eng_of bi (put_eng sid e s))) by (apply inv_eng; [by apply inv_loose|done]).
    rewrite (get_book_put _ _ _ _ _ Hb) in Hbi. destruct (decide (sid = i)) as [<-|Hne].
    + injection Hbi as <-. eapply (good_same sid e); [done|done|done].
    + destruct (Hg i bi Hbi) as [A B C D]. assert (Ho : forall k, orders_of k (eng_of bi (put_eng sid e s)) = orders_of k (eng_of bi s)) by (intros k; by apply (orders_other s sid b e i bi)).
      constructor; [done|done|by rewrite !Ho|]. intros k r. rewrite Ho. apply D.
Qed.
(** ** Finding an order *)
Lemma elem_all x o : o ∈ concat (map (fun z => all_of (snd z)) (map_to_list (h_pits x))) <-> exists i y, h_pits x !! i = Some y /\ o ∈ all_of y.
Proof.
  rewrite elem_of_list_In, in_concat. split.
  - intros (l & Hl & Ho). apply in_map_iff in Hl as ([i y] & <- & Hin). exists i, y. split; [by apply elem_of_map_to_list, elem_of_list_In|]. by apply elem_of_list_In.
  - intros (i & y & Hy & Ho). exists (all_of y). split; [|by apply elem_of_list_In]. apply in_map_iff. exists (i, y). split; [done|]. by apply elem_of_list_In, elem_of_map_to_list.
Qed.
Lemma elem_all_of e o : o ∈ all_of (pit_of e) <-> o ∈ orders_of KBid e \/ o ∈ orders_of KAsk e \/ o ∈ orders_of KBuyStop e \/ o ∈ orders_of KSellStop e.
Proof. unfold all_of. cbn. by rewrite !elem_of_app. Qed.
Lemma seek_ok x s i : fits x s -> seek i x = st_ords s !! i.
Proof.
  intros [Hi Hm Hsy Hp Hg]. unfold seek. destruct (filter _ _) as [|o l] eqn:E; cbn.
  - destruct (st_ords s !! i) as [o|] eqn:Eo; [exfalso|done]. pose proof (mo_live _ (iv_map _ Hi) _ _ Eo) as Hl.
    destruct (get_book (o_sym o) s) as [b|] eqn:Hb; [|by destruct (iv_home _ Hi _ _ Eo)]. pose proof (Hg _ _ Hb) as Hgb.
    assert (Hin : o ∈ orders_of (okind o) (eng_of b s)) by (by eapply (elem_orders (o_sym o) _ i); [apply Hgb|..]).
    assert (H : o ∈ filter (fun o => o_id o = i) (concat (map (fun z => all_of (snd z)) (map_to_list (h_pits x))))).
    { apply elem_of_list_filter. split; [apply Hl|]. apply elem_all. exists (o_sym o), (pit_of (eng_of b s)). split; [by rewrite Hp, Hb|]. apply elem_all_of.
      destruct (g_trail _ _ Hgb) as [T1 T2]. destruct (okind o) eqn:Ek; auto; [rewrite T1 in Hin|rewrite T2 in Hin]; by apply elem_of_nil in Hin. }
    rewrite E in H. by apply elem_of_nil in H.
  - assert (H : o ∈ filter (fun o => o_id o = i) (concat (map (fun z => all_of (snd z)) (map_to_list (h_pits x))))) by (rewrite E; left).
    apply elem_of_list_filter in H as [<- H]. apply elem_all in H as (j & y & Hy & Ho). rewrite Hp in Hy. destruct (get_book j s) as [b|] eqn:Hb; [|done]. injection Hy as <-.
    pose proof (g_ok _ _ (Hg _ _ Hb)) as He. apply elem_all_of in Ho. destruct Ho as [Ho|[Ho|[Ho|Ho]]]; destruct (orders_elem j _ _ o He Ho) as (A & _); by rewrite <- A.
Qed.

(** ** The ends of a call *)
Section book.
Context (x : hall) (s : state) (Hft : fits x s) (sid : Z) (b : book) (Hb : get_book sid s = Some b).
Notation base := (eng_of b s).
Lemma done_ok e xs e' er : runs sid base xs e -> finish true e = Ok (e', er) ->
  exists xs', done_with sid xs (pit_of e) x = (er, xs', set_pit sid (pit_of e') x) /\ runs sid base xs' e'.
Proof.
  intros Hr Hf. destruct (close_ok sid e e' er (r_good _ _ _ _ Hr) Hf) as (-> & xs' & Hc & Hr'). exists (xs ++ xs'). unfold done_with. rewrite Hc. split; [done|]. by eapply runs_trans.
Qed.
Lemma stay_ok z e xs e' er : runs sid base xs e -> fly_ok sid (e_ords e) z -> 0 < o_leaves z -> o_tif z <> AON ->
  (o_type z = LIMIT /\ immediate z = false /\ (forall r, r ∈ rest_of (opposite (o_side z)) (pit_of e) -> ~ within_limit z (o_price r))) \/ stop_type2 z ->
  insert_rest true z e = Ok (e', er) ->
  exists xs', stay z xs (pit_of e) x = (er, xs', set_pit sid (pit_of e') x) /\ runs sid base xs' e'.
Proof.
  intros Hr Hfl Hlv Hna Hty Hin. unfold stay. rewrite (fl_sym _ _ _ Hfl). pose proof (fits_put x s sid b xs e Hft Hb Hr) as Hft1. rewrite (seek_ok _ _ (o_id z) Hft1). cbn [put_eng st_ords].
  unfold insert_rest in Hin. destruct (e_ords e !! o_id z) as [r|] eqn:E.
  - injection Hin as <- <-. rewrite decide_False by done. exists xs. split; [done|]. by apply runs_emit.
  - rewrite decide_True by done. destruct (joins_ok sid e z (r_good _ _ _ _ Hr) E Hfl Hlv Hna Hty) as [J1 J2]. rewrite <- J2. apply done_ok; [|done]. rewrite <- (app_nil_r xs). by eapply runs_trans.
Qed.
Definition enters (ever : bool) (o : order) (e : eng) : res (eng * err) :=
  do '(z, e1) <- meet o e;
  if (0 <? o_leaves z) && (ever || negb (immediate z)) then insert_rest true z e1 else finish true (emit (EDeleteOrder z) e1).
Lemma enters_ok ever o e e' er : runs sid base [] e -> fly_ok sid (e_ords e) o -> 0 < o_leaves o -> o_tif o <> AON ->
  (o_type o = LIMIT /\ (ever = true -> immediate o = false)) \/ (ever = true /\ stop_type2 o) \/ (ever = false /\ o_type o = MARKET /\ immediate o = true) ->
  enters ever o e = Ok (e', er) ->
  exists xs', come_in ever o (pit_of e) x = (er, xs', set_pit sid (pit_of e') x) /\ runs sid base xs' e'.
Proof.
  intros Hr Hfl Hlv Hna Hty Hen. unfold come_in. destruct (trade o (pit_of e)) as [[xs y] z] eqn:Etr.
  destruct (meet_ok sid e o xs y z (r_good _ _ _ _ Hr) Hfl Hlv Hna Etr) as (e1 & Hm & Hr1 & <- & Hflz & Hnone & Hk & Hpz & Hfar).
  destruct (trade_kind _ _ _ _ _ Etr) as (K1 & K2 & K3 & K4 & K5). unfold enters in Hen. rewrite Hm in Hen. cbn [rbind] in Hen.
  assert (Hrun : runs sid base xs e1) by (change xs with ([] ++ xs); by eapply runs_trans).
  assert (Hi : immediate z = immediate o) by (unfold immediate, is_ioc, is_fok; by rewrite K2).
  assert (Hgtc : o_tif z = GTC <-> immediate z = false). { rewrite K2, Hi. unfold immediate, is_ioc, is_fok. destruct (o_tif o); cbn; split; done. }
  assert (Hd : (0 <? o_leaves z) && (ever || negb (immediate z)) = bool_decide (0 < o_leaves z /\ (ever = true \/ o_tif z = GTC))).
  { symmetry. destruct (bool_decide_reflect (0 < o_leaves z /\ (ever = true \/ o_tif z = GTC))) as [[H1 H2]|H].
    - rewrite (proj2 (Z.ltb_lt _ _) H1). destruct H2 as [-> |H2]; [done|]. apply Hgtc in H2. rewrite H2. by destruct ever.
    - destruct (Z.ltb_spec 0 (o_leaves z)); [|done]. destruct ever; [exfalso; apply H; auto|]. destruct (immediate z) eqn:Ei; [done|]. exfalso. apply H. rewrite Hgtc. auto. }
  rewrite Hd in Hen. destruct (decide (0 < o_leaves z /\ (ever = true \/ o_tif z = GTC))) as [D|D].
  - rewrite bool_decide_eq_true_2 in Hen by done. destruct D as [D1 D2]. apply (stay_ok z e1 xs e' er); try done; [by rewrite K2|].
    assert (Him : o_type o = LIMIT -> immediate z = false).
    { intros Et. destruct D2 as [D2|D2]; [|by apply Hgtc]. rewrite Hi. destruct Hty as [[_ H]|[[_ [H|H]]|[_ [H _]]]]; try congruence. by apply H. }
    destruct (decide (o_type o = LIMIT)) as [Et|Et].
    + left. rewrite K1. split; [done|]. split; [by apply Him|]. rewrite K5. apply Hfar; [by rewrite Et| |done]. intros Hf. specialize (Him Et). rewrite Hi in Him. unfold immediate, is_fok, is_ioc in Him. by rewrite Hf in Him.
    + right. unfold stop_type2. rewrite K1. destruct Hty as [[H _]|[[_ H]|(He & Hmk & Himm)]]; [done|done|]. destruct D2 as [D2|D2]; [congruence|]. apply Hgtc in D2. congruence.
  - rewrite bool_decide_eq_false_2 in Hen by done. rewrite (fl_sym _ _ _ Hfl). apply (done_ok (emit (EDeleteOrder z) e1) xs e' er); [by apply runs_emit|done].
Qed.
End book.

(** ** The calls *)
Definition answers (a : op) (s : state) (x : hall) (r : res (state * err)) : Prop :=
  forall s' er, r = Ok (s', er) -> exists evs x', st_log s' = st_log s ++ evs /\ hall_step a x = (er, execs evs, x') /\ fits x' s'.
Lemma reduced_ok sid e e' o o' u m' q evs : good sid e -> e_ords e !! o_id o = Some o -> o_sym o = sid ->
  o_id o' = o_id o -> o_sym o' = o_sym o -> o_price o' = o_price o -> o_tif o' = o_tif o -> o_leaves o' = o_leaves o - q ->
  eng_ok sid e' -> e_ords e' = reduced_map (e_ords e) o' ->
  prim m' (okind o) (okey o) (if q =? o_leaves o then filter (fun j => j <> o_id o) (queue (e_bk e) (okind o) (okey o)) else queue (e_bk e) (okind o) (okey o)) (e_bk e) (e_bk e') u ->
  e_log e' = e_log e ++ evs ->
  runs sid e (execs evs) e' /\ forall k, orders_of k e' = (if decide (q = o_leaves o) then without (o_id o) else changed o') (orders_of k e).
Proof.
  intros Hg Ho Hs Eid Esym Epr Etif Elv He' Hords Hpr Hlog. unfold reduced_map in Hords. destruct (decide (q = o_leaves o)) as [E|E].
  - rewrite (proj2 (Z.eqb_eq _ _) E) in Hpr. rewrite (proj2 (Z.eqb_eq (o_leaves o') 0)), Eid in Hords by lia. by eapply leave_ok.
  - rewrite (proj2 (Z.eqb_neq _ _) E) in Hpr. rewrite (proj2 (Z.eqb_neq (o_leaves o') 0)), Eid in Hords by lia. by eapply (alter_ok sid e e' o o').
Qed.
Section calls.
Context (s : state) (x : hall) (Hft : fits x s).
Lemma refuse_answers a er : hall_step a x = refused er x -> answers a s x (Ok (s, er)).
Proof. intros He s' er' [= <- <-]. exists [], x. by rewrite app_nil_r. Qed.
Lemma on_book_answers a sid b f : get_book sid s = Some b ->
  (forall e' er, f (eng_of b s) = Ok (e', er) -> exists xs, hall_step a x = (er, xs, set_pit sid (pit_of e') x) /\ runs sid (eng_of b s) xs e') -> answers a s x (on_book sid b f s).
Proof.
  intros Hb H s' er Hon. unfold on_book in Hon. change (mkEng b (st_ords s) (st_log s)) with (eng_of b s) in Hon. destruct (f (eng_of b s)) as [[e' er']| |] eqn:E; cbn [rbind] in Hon; try done.
  injection Hon as <- <-. destruct (H e' er' eq_refl) as (xs & Hx & Hr). destruct (r_log _ _ _ _ Hr) as (evs & Hlog & <-). exists evs. eexists. split; [done|]. split; [done|].
  change (fits (set_pit sid (pit_of e') x) (put_eng sid e' s)). by eapply fits_put.
Qed.
Lemma base_runs sid b : get_book sid s = Some b -> runs sid (eng_of b s) [] (eng_of b s).
Proof. intros Hb. apply runs_refl. by apply (ft_good _ _ Hft). Qed.
Lemma home i o : st_ords s !! i = Some o -> o_id o = i /\ live_ok i o /\ (o_type o = LIMIT \/ stop_type2 o) /\ o_tif o <> AON /\ exists b, get_book (o_sym o) s = Some b.
Proof.
  intros Ho. pose proof (ft_inv _ _ Hft) as Hi. pose proof (mo_live _ (iv_map _ Hi) _ _ Ho) as Hl. split; [apply Hl|]. split; [done|].
  destruct (get_book (o_sym o) s) as [b|] eqn:Hb; [|by destruct (iv_home _ Hi _ _ Ho)]. pose proof (ft_good _ _ Hft _ _ Hb) as Hg.
  assert (Hin : o ∈ orders_of (okind o) (eng_of b s)) by (by eapply (elem_orders (o_sym o) _ i); [apply Hg|..]).
  split; [|split; [by eapply g_aon|eauto]]. destruct (g_trail _ _ Hg) as [T1 T2]. pose proof (lo_type _ _ Hl) as Hm.
  unfold stop_type2. destruct (o_type o) eqn:Et; auto; try done; exfalso; unfold okind in Hin; rewrite Et in Hin; destruct (o_side o); cbn in Hin; rewrite ?T1, ?T2 in Hin; by apply elem_of_nil in Hin.
Qed.
Lemma sought_some i o b f : i <> 0 -> st_ords s !! i = Some o -> get_book (o_sym o) s = Some b -> with_sought i x f = f o (pit_of (eng_of b s)).
Proof. intros Hi Ho Hb. unfold with_sought. rewrite decide_False by done. rewrite (seek_ok x s i Hft), Ho, (ft_pit _ _ Hft), Hb. done. Qed.
Lemma sought_none i f : i <> 0 -> st_ords s !! i = None -> with_sought i x f = refused ORDER_NOT_FOUND x.
Proof. intros Hi Ho. unfold with_sought. rewrite decide_False by done. by rewrite (seek_ok x s i Hft), Ho. Qed.
(** The head of the calls that name an order and a quantity. *)
Lemma amount_answers a i q f F : hall_step a x = with_amount i q x F ->
  (forall o b, i <> 0 -> q <> 0 -> i = o_id o -> st_ords s !! o_id o = Some o -> get_book (o_sym o) s = Some b -> hall_step a x = F o (pit_of (eng_of b s)) ->
     answers a s x (on_book (o_sym o) b (f o) s)) ->
  answers a s x (check_id i s (check_qty q s (with_order i f s))).
Proof.
  intros Hx H. unfold check_id, check_qty. destruct (Z.eqb_spec i 0) as [->|Hi0].
  { apply refuse_answers. rewrite Hx. unfold with_amount. rewrite decide_False by tauto. unfold with_sought. by rewrite decide_True. }
  destruct (Z.eqb_spec q 0) as [->|Hq0]. { apply refuse_answers. rewrite Hx. unfold with_amount. by rewrite decide_True. }
  unfold with_amount in Hx. rewrite decide_False in Hx by tauto. unfold with_order. destruct (st_ords s !! i) as [o|] eqn:Ho.
  - destruct (home i o Ho) as (Hid & _ & _ & _ & b & Hb). rewrite Hb. subst i. apply H; try done. rewrite Hx. by apply sought_some.
  - apply refuse_answers. rewrite Hx. by apply sought_none.
Qed.
Lemma call_reduce2 i q : op_ok s (ReduceOrder i q) -> answers (ReduceOrder i q) s x (api_reduce i q s).
Proof.
  intros [Ri Rq]. unfold api_reduce. eapply amount_answers; [reflexivity|]. intros o b Hi Hq -> Ho Hb Hx. apply on_book_answers; [done|]. intros e' er. rewrite (ft_mt _ _ Hft).
  pose proof (ft_good _ _ Hft _ _ Hb) as Hg.
  destruct (reduce_order_ok (o_sym o) (eng_of b s) o q (g_ok _ _ Hg) Ho eq_refl ltac:(unfold u64_range in *; lia)) as (u & e1 & Heq & He1 & Hords & Hlog & Hbp & Hpr). rewrite Heq. cbn [rbind]. intros Hfin.
  destruct (reduced_ok (o_sym o) (eng_of b s) e1 o (set_leaves (o_leaves o - Z.min q (o_leaves o)) o) u _ (Z.min q (o_leaves o)) _ Hg Ho eq_refl eq_refl eq_refl eq_refl eq_refl eq_refl He1 Hords Hpr Hlog) as [Hr Hor].
  assert (Hxs : execs (red_ev (set_leaves (o_leaves o - Z.min q (o_leaves o)) o) :: lim_evs o (o_sym o) u) = []).
  { unfold red_ev. destruct (_ =? 0); cbn; by rewrite lim_execs. }
  rewrite Hxs in Hr. destruct (done_ok x s (o_sym o) b e1 [] e' er Hr Hfin) as (xs' & Hd & Hr'). exists xs'. split; [|done]. rewrite Hx, <- Hd. f_equal.
  apply quotes_prices in Hbp. destruct (decide (o_leaves o <= q)).
  - symmetry. rewrite decide_True in Hor by lia. by apply every_pit.
  - symmetry. rewrite decide_False in Hor by lia. rewrite Z.min_l in Hor by lia. by apply every_pit.
Qed.
Lemma call_delete2 i : op_ok s (DeleteOrder i) -> answers (DeleteOrder i) s x (api_delete i s).
Proof.
  intros Ri. unfold api_delete, check_id. destruct (Z.eqb_spec i 0) as [->|Hi0]; [by apply refuse_answers|]. unfold with_order. destruct (st_ords s !! i) as [o|] eqn:Ho.
  2: { apply refuse_answers. cbn. by apply sought_none. }
  destruct (home i o Ho) as (Hid & _ & _ & _ & b & Hb). rewrite Hb. subst i. apply on_book_answers; [done|]. intros e' er. rewrite (ft_mt _ _ Hft).
  pose proof (ft_good _ _ Hft _ _ Hb) as Hg.
  destruct (delete_order_ok (o_sym o) (eng_of b s) o (g_ok _ _ Hg) Ho eq_refl) as (u & e1 & Heq & He1 & Hords & Hlog & Hbp & Hpr). rewrite Heq. cbn [rbind]. intros Hfin.
  destruct (leave_ok (o_sym o) (eng_of b s) e1 o u _ _ Hg Ho eq_refl He1 Hords Hpr Hlog) as [Hr Hor]. rewrite execs_app, lim_execs in Hr. cbn [execs app] in Hr.
  destruct (done_ok x s (o_sym o) b e1 [] e' er Hr Hfin) as (xs' & Hd & Hr'). exists xs'. split; [|done]. cbn [hall_step]. rewrite (sought_some (o_id o) o b _ Hi0 Ho Hb), <- Hd. f_equal.
  symmetry. apply every_pit; [done|]. by apply quotes_prices.
Qed.
Lemma call_execute2 a i p q r : (a = ExecuteOrder i q /\ r = api_execute i q s) \/ (a = ExecuteOrderAt i p q /\ r = api_execute_at i p q s) -> op_ok s a -> answers a s x r.
Proof.
  intros Hor Hop. 
  assert (exists F, r = check_id i s (check_qty q s (with_order i (fun o e => execute_order (st_match s) o (F o) q e) s)) /\ 0 <= q /\
    hall_step a x = with_amount i q x (fun o y => hall_execute (F o) q o y x)) as (F & -> & Hq & Hx).
  { destruct Hor as [[-> ->]|[-> ->]]; [exists o_price|exists (fun _ => p)]; cbn in Hop; unfold u64_range in Hop; split_and!; try done; lia. }
  clear Hor. eapply amount_answers; [exact Hx|]. clear Hx. intros o b Hi Hq0 -> Ho Hb Hx. apply on_book_answers; [done|]. intros e' er. rewrite (ft_mt _ _ Hft).
  pose proof (ft_good _ _ Hft _ _ Hb) as Hg. set (n := Z.min q (o_leaves o)).
  destruct (execute_head_ok (o_sym o) (eng_of b s) o (F o) q (g_ok _ _ Hg) Ho eq_refl ltac:(lia)) as (u & e1 & Heq & He1 & Hords & Hlog & Hbp & Hpr).
  rewrite execute_order_head, Heq. cbn [rbind]. intros Hfin.
  destruct (reduced_ok (o_sym o) (eng_of b s) e1 o (executed n o) u _ n _ Hg Ho eq_refl eq_refl eq_refl eq_refl eq_refl eq_refl He1 Hords Hpr Hlog) as [Hr Hor].
  assert (Hxs : execs (EExecute o (F o) n :: lim_evs o (o_sym o) u ++ [red_ev (executed n o)]) = [(o, F o, n)]).
  { change (EExecute o (F o) n :: lim_evs o (o_sym o) u ++ [red_ev (executed n o)]) with ([EExecute o (F o) n] ++ lim_evs o (o_sym o) u ++ [red_ev (executed n o)]). rewrite !execs_app, lim_execs. unfold red_ev. by destruct (_ =? 0). }
  fold n in Hr. rewrite Hxs in Hr. destruct (done_ok x s (o_sym o) b e1 _ e' er Hr Hfin) as (xs' & Hd & Hr'). exists xs'. split; [|done]. rewrite Hx, <- Hd. unfold hall_execute. fold n. f_equal.
  assert (Hqq : quotes e1 = match o_side o with BUY => (F o, b_match_ask b) | SELL => (b_match_bid b, F o) end).
  { unfold bprices in Hbp. unfold quotes. injection Hbp as _ _ -> -> _ _. by destruct (o_side o). }
  unfold quotes in Hqq. unfold pit_of. rewrite !Hor. destruct (decide (n = o_leaves o)); destruct (o_side o); injection Hqq as -> ->; reflexivity.
Qed.
Lemma meet_order o e : o_type o <> MARKET -> meet o e = match_order o e.
Proof. unfold meet. by destruct (o_type o). Qed.
Lemma call_modify2 (mit : bool) i p q : let a := if mit then MitigateOrder i p q else ModifyOrder i p q in op_ok s a -> answers a s x (api_modify mit i p q s).
Proof.
  intros a Hop. assert (Hr : u64_range i /\ u64_range p /\ u64_range q /\ total (delete i (st_ords s)) + q < TWO64) by (unfold a in Hop; by destruct mit). clear Hop.
  destruct Hr as (Ri & Rp & Rq & Rt).
  eapply (amount_answers a i q _ (fun o y => if (mit && bool_decide (q <= o_exec o)) then done_with (o_sym o) [] (leave o y) x
    else come_in true (set_price p (set_qty q (set_leaves (if mit then q - o_exec o else q) o))) (leave o y) x)).
  { unfold a. destruct mit; cbn [hall_step]; [|done]. unfold with_amount, with_sought. repeat case_match; try done; cbn in *; by rewrite ?bool_decide_eq_true_2, ?bool_decide_eq_false_2 in * by done. }
  intros o b Hi0 Hq0 -> Ho Hb Hx. apply on_book_answers; [done|]. intros e' er. rewrite (ft_mt _ _ Hft).
  pose proof (ft_good _ _ Hft _ _ Hb) as Hg. destruct (home _ _ Ho) as (_ & Hl & Hty & Htif & _).
  destruct (del_ok (o_sym o) (eng_of b s) o Hg Ho eq_refl) as (e1 & Hdel & Hr1 & Hp1 & Hd1). set (e2 := drop_id (o_id o) e1) in *. unfold modify_order. rewrite Hdel. cbn [rbind]. fold e2.
  set (o' := modified mit p q o).
  assert (Eo' : mit && bool_decide (q <= o_exec o) = false -> o' = set_price p (set_qty q (set_leaves (if mit then q - o_exec o else q) o)) /\ 0 < o_leaves o').
  { unfold o', modified. destruct mit; cbn; [|intros _; unfold u64_range in *; split; [done|lia]]. intros H. apply bool_decide_eq_false in H. rewrite (proj2 (Z.ltb_lt _ _)) by lia. split; [done|]. cbn. lia. }
  assert (Ez' : mit && bool_decide (q <= o_exec o) = true -> o_leaves o' = 0).
  { unfold o', modified. destruct mit; cbn; [|done]. intros H. apply bool_decide_eq_true in H. rewrite (proj2 (Z.ltb_ge _ _)) by lia. done. }
  assert (Hlv : 0 <= o_leaves o' <= q).
  { unfold o', modified. destruct mit; cbn; [|unfold u64_range in *; lia]. destruct (Z.ltb_spec (o_exec o) q); [|unfold u64_range in *; lia]. destruct (lo_exec _ _ Hl). lia. }
  assert (Hf : fly_ok (o_sym o) (e_ords e2) o').
  { rewrite Hd1. cbn [eng_of e_ords]. destruct Hl. unfold u64_range in Rq. constructor; unfold o', modified; destruct mit; cbn; try done; try lia; unfold o', modified in Hlv; cbn in Hlv; lia. }
  assert (Hid' : o_id o' = o_id o) by (unfold o', modified; by destruct mit).
  assert (Hty' : o_type o' = o_type o) by (unfold o', modified; by destruct mit).
  assert (Htif' : o_tif o' = o_tif o) by (unfold o', modified; by destruct mit).
  destruct (mit && bool_decide (q <= o_exec o)) eqn:Em.
  - rewrite (Ez' eq_refl). cbn [Z.ltb Z.compare]. intros Hfin. destruct (done_ok x s (o_sym o) b (emit (EDeleteOrder o') e2) [] e' er) as (xs & Hd & Hr'); [by apply runs_emit|done|].
    exists xs. split; [|done]. rewrite Hx, <- Hd. by rewrite <- Hp1.
  - destruct (Eo' eq_refl) as [Eo Hpos]. rewrite <- Eo in Hx. rewrite (proj2 (Z.ltb_lt _ _) Hpos). intros Hm.
    assert (Hnm : o_type o' <> MARKET) by (rewrite Hty'; apply Hl).
    destruct (enters_ok x s Hft (o_sym o) b Hb true o' (emit (EUpdateOrder o') e2) e' er) as (xs & Hc & Hr').
    + by apply runs_emit. + done. + done. + by rewrite Htif'.
    + rewrite Hty'. destruct Hty as [Ht|Ht]; [left; split; [done|]|right; left; split; [done|]; unfold stop_type2; by rewrite Hty'].
      intros _. destruct (lo_rest _ _ Hl Ht) as [E|E]; [|done]. unfold immediate, is_ioc, is_fok. by rewrite Htif', E.
    + unfold enters. rewrite (meet_order _ _ Hnm). unfold if_match in Hm.
      destruct (trade o' (pit_of (emit (EUpdateOrder o') e2))) as [[xs y] z] eqn:Etr.
      destruct (meet_ok (o_sym o) (emit (EUpdateOrder o') e2) o' xs y z) as (e3 & Hm3 & _ & _ & _ & Hnone & _); [by apply good_emit, Hr1|done|done|by rewrite Htif'|done|].
      rewrite (meet_order _ _ Hnm) in Hm3. rewrite Hm3 in *. cbn [rbind] in *. rewrite andb_true_r. destruct (trade_kind _ _ _ _ _ Etr) as (_ & _ & K3 & _).
      destruct (0 <? o_leaves z); [|done]. unfold insert_rest. rewrite (Hnone (o_id z)); [done|]. cbn [e_ords emit]. rewrite Hd1, K3, Hid'. apply lookup_delete.
    + exists xs. split; [|done]. rewrite Hx, <- Hc. by rewrite <- Hp1.
Qed.
Lemma call_replace2 i ni p q : op_ok s (ReplaceOrder i ni p q) -> answers (ReplaceOrder i ni p q) s x (api_replace i ni p q s).
Proof.
  intros (Ri & Rni & Rp & Rq & Rt). unfold api_replace, check_id, check_qty. 
  destruct (Z.eqb_spec i 0) as [->|Hi0]; [apply refuse_answers; cbn; rewrite decide_True by auto; done|]. 
  destruct (Z.eqb_spec ni 0) as [->|Hni0]; [apply refuse_answers; cbn; rewrite decide_True by auto; done|]. 
  assert (Hd : ~ (i = 0 \/ ni = 0)) by tauto.
  destruct (Z.eqb_spec q 0) as [->|Hq0]; [apply refuse_answers; cbn; rewrite decide_False by done; unfold with_amount; by rewrite decide_True|].
  assert (Hx : hall_step (ReplaceOrder i ni p q) x = with_sought i x (fun o y =>
        if decide (o_type o = LIMIT) then come_in true (replacement ni p q o) (leave o y) x else refused ORDER_TYPE_INVALID x)).
  { cbn [hall_step]. rewrite decide_False by done. unfold with_amount. by rewrite decide_False by tauto. }
  unfold with_order. destruct (st_ords s !! i) as [o|] eqn:Ho; [|apply refuse_answers; rewrite Hx; by apply sought_none].
  destruct (home i o Ho) as (Hid & Hl & Hty & Htif & b & Hb). rewrite Hb. subst i. rewrite (sought_some _ o b _ Hi0 Ho Hb) in Hx.
  destruct (decide (o_type o = LIMIT)) as [Ht|Ht].
  2: { assert (is_limit o = false) as -> by (unfold is_limit; by destruct (o_type o)). by apply refuse_answers. }
  assert (is_limit o = true) as -> by (unfold is_limit; by rewrite Ht). cbn [negb]. apply on_book_answers; [done|]. intros e' er. rewrite (ft_mt _ _ Hft).
  pose proof (ft_good _ _ Hft _ _ Hb) as Hg.
  destruct (delete_order_ok (o_sym o) (eng_of b s) o (g_ok _ _ Hg) Ho eq_refl) as (u & e1 & Heq & He1 & Hords & Hlog & Hbp & Hpr). unfold replace_order. rewrite Heq. cbn [rbind]. intros Hm.
  destruct (leave_ok (o_sym o) (eng_of b s) e1 o u _ _ Hg Ho eq_refl He1 Hords Hpr Hlog) as [Hr Hor]. rewrite execs_app, lim_execs in Hr. cbn [execs app] in Hr.
  assert (Hp1 : pit_of e1 = leave o (pit_of (eng_of b s))) by (apply every_pit; [done|]; by apply quotes_prices).
  set (o' := replaced ni p q o) in *.
  assert (Hf : fly_ok (o_sym o) (e_ords e1) o').
  { rewrite Hords. cbn [eng_of e_ords]. unfold u64_range in *. destruct Hl. constructor; unfold u64_range in *; try done; cbn; try lia. }
  assert (Him : immediate o = false). { destruct (lo_rest _ _ Hl Ht) as [E|E]; [|done]. unfold immediate, is_ioc, is_fok. by rewrite E. }
  destruct (enters_ok x s Hft (o_sym o) b Hb true o' (emit (EAddOrder o') e1) e' er) as (xs & Hc & Hr').
  - by apply runs_emit. - done. - unfold o', replaced. cbn. unfold u64_range in *. lia. - done.
  - left. split; [exact Ht|]. intros _. exact Him.
  - unfold enters. rewrite meet_order by (unfold o'; cbn; by rewrite Ht). unfold if_match in Hm. destruct (match_order o' (emit (EAddOrder o') e1)) as [[z e3]| |]; try done. cbn [rbind] in *. rewrite andb_true_r. by destruct (0 <? o_leaves z).
  - exists xs. split; [|done]. rewrite Hx, <- Hp1, <- Hc. done.
Qed.
Lemma triggered_spec sid e o : good sid e -> triggered o (e_bk e) = bool_decide (triggers o (pit_of e)).
Proof.
  intros Hg. apply eq_bool_prop_intro. rewrite !Is_true_true, bool_decide_eq_true. unfold triggered, triggers.
  destruct (o_side o); rewrite (quote_market sid) by apply Hg; cbn [market_of]; lia.
Qed.
Lemma call_add2 o : op_ok s (AddOrder o) -> covered_stops (AddOrder o) -> forall s' er, api_add o s = Ok (s', er) ->
  exists evs x', st_log s' = st_log s ++ evs /\ hall_add o x = (er, execs evs, x') /\ fits x' s'.
Proof.
  intros Hop (_ & Hcov). destruct (Hcov o eq_refl) as [Hty Haon]. change (answers (AddOrder o) s x (api_add o s)).
  assert (Hr : validate o <> OK -> api_add o s = Ok (s, validate o)) by (unfold api_add; by destruct (validate o)).
  assert (Hs : hall_step (AddOrder o) x = hall_add o x) by done. unfold hall_add in Hs.
  destruct (decide (validate o = OK)) as [Hv|Hv]; [|rewrite (Hr Hv); by apply refuse_answers]. unfold api_add. rewrite Hv. 
  destruct (fly_new s o (ft_inv _ _ Hft) Hop Hv) as (Hfl & Hlv & Hidp & Hmi). rewrite (ft_pit _ _ Hft) in Hs.
  destruct (get_book (o_sym o) s) as [b|] eqn:Hb; [|by apply refuse_answers].
  apply on_book_answers; [done|]. intros e' er. rewrite (ft_mt _ _ Hft). intros Hadd.
  pose proof (ft_good _ _ Hft _ _ Hb) as Hg. pose proof (base_runs _ _ Hb) as Hr0.
  set (e1 := emit (EAddOrder o) (eng_of b s)). assert (Hr1 : runs (o_sym o) (eng_of b s) [] e1) by by apply runs_emit.
  assert (Hg1 : good (o_sym o) e1) by by apply good_emit.
  assert (Hgo : forall o1 e2, runs (o_sym o) (eng_of b s) [] e2 -> pit_of e2 = pit_of (eng_of b s) -> fly_ok (o_sym o) (e_ords e2) o1 -> 0 < o_leaves o1 -> o_tif o1 <> AON ->
    o_type o1 = LIMIT \/ (o_type o1 = MARKET /\ immediate o1 = true) -> enters false o1 e2 = Ok (e', er) ->
    exists xs, come_in false o1 (pit_of (eng_of b s)) x = (er, xs, set_pit (o_sym o) (pit_of e') x) /\ runs (o_sym o) (eng_of b s) xs e').
  { intros o1 e2 A B C D E F G. rewrite <- B. apply (enters_ok x s Hft (o_sym o) b Hb false o1 e2 e' er); try done. destruct F as [F|F]; [by left|by right; right]. }
  assert (Hmk : forall o1 e2, o_type o1 = MARKET -> immediate o1 = true -> (do '(z, e) <- match_market o1 e2; finish true (emit (EDeleteOrder z) e)) = Ok (e', er) ->
      runs (o_sym o) (eng_of b s) [] e2 -> fly_ok (o_sym o) (e_ords e2) o1 -> 0 < o_leaves o1 -> o_tif o1 <> AON -> enters false o1 e2 = Ok (e', er)).
  { intros o1 e2 T I H R1 F1 L1 A1. unfold enters. destruct (trade o1 (pit_of e2)) as [[xs y] z] eqn:Etr.
    destruct (meet_ok (o_sym o) e2 o1 xs y z (r_good _ _ _ _ R1) F1 L1 A1 Etr) as (e3 & Hm3 & _). destruct (trade_kind _ _ _ _ _ Etr) as (_ & K2 & _). rewrite Hm3. unfold meet in Hm3. rewrite T in Hm3. rewrite Hm3 in H. cbn [rbind] in *.
    assert (immediate z = true) as ->; [|by rewrite andb_false_r]. rewrite <- I. unfold immediate, is_ioc, is_fok. by rewrite K2. }
  assert (Hlm : forall o1 e2, o_type o1 = LIMIT -> add_limit_tail true o1 e2 = Ok (e', er) -> enters false o1 e2 = Ok (e', er)).
  { intros o1 e2 T H. unfold enters, meet. rewrite T. exact H. }
  assert (Hst : stop_type2 o -> triggered o (e_bk e1) = false -> add_stop_rest true o e1 = Ok (e', er) -> hall_step (AddOrder o) x = stay o [] (pit_of e1) x ->
    exists xs, hall_step (AddOrder o) x = (er, xs, set_pit (o_sym o) (pit_of e') x) /\ runs (o_sym o) (eng_of b s) xs e').
  { intros T _ H Hh. unfold add_stop_rest in H. rewrite (proj2 (Z.ltb_lt _ _) Hlv) in H. rewrite Hh. apply (stay_ok x s Hft (o_sym o) b Hb o e1); auto. }
  pose proof (triggered_spec (o_sym o) e1 o Hg1) as Htr. change (pit_of e1) with (pit_of (eng_of b s)) in *.
  unfold add_order in Hadd. destruct Hty as [Hty|[Hty|[Hty|Hty]]]; rewrite Hty in *.
  - rewrite Hs. apply (Hgo o e1); auto.
  - rewrite Hs. eapply (Hgo o e1); auto; apply Hmk; auto.
  - unfold add_stop in Hadd. assert (is_trailing o = false) as Hnt by (unfold is_trailing, is_trailing_stop, is_trailing_stop_limit; by rewrite Hty). rewrite Hnt in Hadd. fold e1 in Hadd. cbn [andb] in Hadd.
    rewrite Htr in Hadd. destruct (decide (triggers o (pit_of (eng_of b s)))) as [D|D].
    + rewrite bool_decide_eq_true_2 in Hadd by done. assert (E1 : to_market o = released o) by (rewrite released_converted by (by left); unfold converted; by rewrite Hty). rewrite E1 in Hadd.
      assert (Et : o_type (released o) = MARKET) by (unfold released; by rewrite Hty).
      assert (Ei : immediate (released o) = true) by (unfold released; rewrite Hty; cbn; by destruct (decide (o_tif o = FOK))).
      assert (Ea : o_tif (released o) <> AON) by (unfold released; rewrite Hty; cbn; by destruct (decide (o_tif o = FOK))).
      assert (El : o_leaves (released o) = o_leaves o) by (unfold released; by rewrite Hty).
      assert (Ef : fly_ok (o_sym o) (st_ords s) (released o)) by (rewrite released_converted by (by left); by apply converted_fly).
      assert (Er : runs (o_sym o) (eng_of b s) [] (emit (EUpdateOrder (released o)) e1)) by by apply runs_emit.
      rewrite Hs. eapply (Hgo (released o) (emit (EUpdateOrder (released o)) e1)); rewrite ?El; auto; apply Hmk; rewrite ?El; auto.
    + rewrite bool_decide_eq_false_2 in Hadd by done. apply Hst; auto; [by left|]. rewrite Htr. by apply bool_decide_eq_false_2.
  - unfold add_stop_limit in Hadd. assert (is_trailing o = false) as Hnt by (unfold is_trailing, is_trailing_stop, is_trailing_stop_limit; by rewrite Hty). rewrite Hnt in Hadd. fold e1 in Hadd. cbn [andb] in Hadd.
    rewrite Htr in Hadd. destruct (decide (triggers o (pit_of (eng_of b s)))) as [D|D].
    + rewrite bool_decide_eq_true_2 in Hadd by done. assert (E1 : to_limit o = released o) by (unfold released; by rewrite Hty). rewrite E1 in Hadd.
      assert (Et : o_type (released o) = LIMIT) by (unfold released; by rewrite Hty).
      assert (Ea : o_tif (released o) <> AON) by (unfold released; by rewrite Hty).
      assert (El : o_leaves (released o) = o_leaves o) by (unfold released; by rewrite Hty).
      assert (Ef : fly_ok (o_sym o) (st_ords s) (released o)) by (rewrite released_converted by (by right); by apply converted_fly).
      assert (Er : runs (o_sym o) (eng_of b s) [] (emit (EUpdateOrder (released o)) e1)) by by apply runs_emit.
      rewrite Hs. eapply (Hgo (released o) (emit (EUpdateOrder (released o)) e1)); rewrite ?El; auto.
    + rewrite bool_decide_eq_false_2 in Hadd by done. apply Hst; auto; [by right|]. rewrite Htr. by apply bool_decide_eq_false_2.
Qed.
End calls.
