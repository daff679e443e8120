(** * RingCalls.v -- the order calls against the reference exchange for all order types of Spec14.v. *)
From Coq Require Import ZifyBool.
From stdpp Require Import fin_maps gmap relations sorting.
From Verif Require Import Types Book Engine Manager Factory Validate LevelFacts BookInv EngInv EngPrim Steps StepsOk Refine1 Refine2 Refine3 Refine4 Trail Trail2 Api StateInv Trades PropsState PropsTrades PropsOrders PropsFill PropsTrail RefMatch PropsRef RefExchange RefStops RefHall HallCalls RefRing RefFollow RefRounds Spec Spec2 Spec3 Spec5 Spec6 Spec7 Spec8 Spec13 Spec14.

(** ** The manager against the exchange *)
Record suits (x : bourse) (s : state) : Prop := {
  su_inv : inv s;
  su_on : u_on x = st_match s;
  su_sym : forall i, u_syms x !! i = get_symbol i s;
  su_ring : forall i, u_rings x !! i = match get_book i s with Some b => Some (ring_of (eng_of b s)) | None => None end;
  su_fine : forall i b, get_book i s = Some b -> fine i (eng_of b s) }.
Lemma ring_other s sid b e i bi : inv s -> get_book sid s = Some b -> eng_ok sid e -> frame sid (st_ords s) (e_ords e) -> i <> sid -> get_book i s = Some bi ->
  ring_of (eng_of bi (put_eng sid e s)) = ring_of (eng_of bi s).
Proof. intros. unfold ring_of, half_in. by rewrite !(orders_other s sid b e i bi). Qed.
Lemma suits_put x s sid b xs e : suits x s -> get_book sid s = Some b -> moves sid (eng_of b s) xs e -> suits (set_ring sid (ring_of e) x) (put_eng sid e s).
Proof.
  intros [Hi Hm Hsy Hp Hg] Hb [Hgood Hf Hlog]. pose proof (f_ok _ _ Hgood) as He. assert (Hi' : inv (put_eng sid e s)) by by eapply put_inv.
  constructor; [done|done|done| |].
  - intros i. cbn [set_ring u_rings]. rewrite (get_book_put _ _ _ _ _ Hb). destruct (decide (sid = i)) as [<-|Hne]; [by rewrite lookup_insert|].
    rewrite lookup_insert_ne by done. rewrite Hp. destruct (get_book i s) as [bi|] eqn:Ei; [|done]. by rewrite (ring_other s sid b e i bi).
  - intros i bi Hbi. assert (He' : eng_ok i (eng_of bi (put_eng sid e s))) by (apply inv_eng; [by apply inv_loose|done]).
    rewrite (get_book_put _ _ _ _ _ Hb) in Hbi. destruct (decide (sid = i)) as [<-|Hne].
    + injection Hbi as <-. eapply (fine_same sid e); [done|done|done].
    + destruct (Hg i bi Hbi) as [A D]. constructor; [done|]. intros k r. rewrite (orders_other s sid b e i bi) by done. apply D.
Qed.
(** ** Finding an order *)
Definition in_ring (g : ring) : list order := of_half (g_buy g) ++ of_half (g_sell g).
Lemma elem_rings x o : o ∈ concat (map (fun z => of_half (g_buy (snd z)) ++ of_half (g_sell (snd z))) (map_to_list (u_rings x))) <-> exists i g, u_rings x !! i = Some g /\ o ∈ in_ring g.
Proof.
  rewrite elem_of_list_In, in_concat. split.
  - intros (l & Hl & Ho). apply in_map_iff in Hl as ([i y] & <- & Hin). exists i, y. split; [by apply elem_of_map_to_list, elem_of_list_In|]. by apply elem_of_list_In.
  - intros (i & y & Hy & Ho). exists (in_ring y). split; [|by apply elem_of_list_In]. apply in_map_iff. exists (i, y). split; [done|]. by apply elem_of_list_In, elem_of_map_to_list.
Qed.
Lemma elem_in_ring e o : o ∈ in_ring (ring_of e) <-> exists k, o ∈ orders_of k e.
Proof.
  unfold in_ring, of_half. rewrite !elem_of_app. cbn. split.
  - intros [[H|[H|H]]|[H|[H|H]]]; eauto.
  - intros [[] H]; auto.
Qed.
Lemma spot_ok x s i : suits x s -> spot i x = st_ords s !! i.
Proof.
  intros [Hi Hm Hsy Hp Hg]. unfold spot. destruct (filter _ _) as [|o l] eqn:E; cbn.
  - destruct (st_ords s !! i) as [o|] eqn:Eo; [exfalso|done]. pose proof (mo_live _ (iv_map _ Hi) _ _ Eo) as Hl.
    destruct (get_book (o_sym o) s) as [b|] eqn:Hb; [|by destruct (iv_home _ Hi _ _ Eo)]. pose proof (Hg _ _ Hb) as Hgb.
    assert (Hin : o ∈ orders_of (okind o) (eng_of b s)) by (by eapply (elem_orders (o_sym o) _ i); [apply Hgb|..]).
    assert (H : o ∈ filter (fun o => o_id o = i) (concat (map (fun z => of_half (g_buy (snd z)) ++ of_half (g_sell (snd z))) (map_to_list (u_rings x))))).
    { apply elem_of_list_filter. split; [apply Hl|]. apply elem_rings. exists (o_sym o), (ring_of (eng_of b s)). split; [by rewrite Hp, Hb|]. apply elem_in_ring. eauto. }
    rewrite E in H. by apply elem_of_nil in H.
  - assert (H : o ∈ filter (fun o => o_id o = i) (concat (map (fun z => of_half (g_buy (snd z)) ++ of_half (g_sell (snd z))) (map_to_list (u_rings x))))) by (rewrite E; left).
    apply elem_of_list_filter in H as [<- H]. apply elem_rings in H as (j & y & Hy & Ho). rewrite Hp in Hy. destruct (get_book j s) as [b|] eqn:Hb; [|done]. injection Hy as <-.
    pose proof (f_ok _ _ (Hg _ _ Hb)) as He. apply elem_in_ring in Ho as [k Ho]. destruct (orders_elem j _ _ o He Ho) as (A & _); by rewrite <- A.
Qed.

(** ** The ends of a call *)
Section book.
Context (x : bourse) (s : state) (Hft : suits x s) (sid : Z) (b : book) (Hb : get_book sid s = Some b).
Notation base := (eng_of b s).
Notation mt := (st_match s).
Lemma conclude_ok e xs e' er : moves sid base xs e -> finish mt e = Ok (e', er) ->
  exists xs', conclude sid xs (ring_of e) x = (er, xs', set_ring sid (ring_of e') x) /\ moves sid base xs' e'.
Proof.
  intros Hr Hf. destruct (finish_ring sid mt e e' er (m_fine _ _ _ _ Hr) Hf) as (-> & xs' & g & Hc & Hg & Hr'). exists (xs ++ xs'). unfold conclude. rewrite (su_on _ _ Hft), Hc, Hg. split; [done|]. by eapply moves_trans.
Qed.
Lemma remain_ok z e xs e' er : moves sid base xs e -> fly_ok sid (e_ords e) z -> 0 < o_leaves z -> o_tif z <> AON ->
  o_type z <> MARKET -> (o_type z = LIMIT -> immediate z = false) ->
  insert_rest mt z e = Ok (e', er) ->
  exists xs', remain z xs (ring_of e) x = (er, xs', set_ring sid (ring_of e') x) /\ moves sid base xs' e'.
Proof.
  intros Hr Hfl Hlv Hna Hty Hi Hin. unfold remain. rewrite (fl_sym _ _ _ Hfl). pose proof (suits_put x s sid b xs e Hft Hb Hr) as Hft1. rewrite (spot_ok _ _ (o_id z) Hft1). cbn [put_eng st_ords].
  unfold insert_rest in Hin. destruct (e_ords e !! o_id z) as [r|] eqn:E.
  - injection Hin as <- <-. rewrite decide_False by done. exists xs. split; [done|]. by apply moves_emit.
  - rewrite decide_True by done. destruct (settle_ok sid e z (m_fine _ _ _ _ Hr) E) as [J1 J2]; [by eapply fly_live|apply Hfl|apply Hfl|done|].
    rewrite <- J2. apply conclude_ok; [|done]. rewrite <- (app_nil_r xs). by eapply moves_trans.
Qed.
Definition arrives (ever : bool) (o : order) (e : eng) : res (eng * err) :=
  do '(z, e1) <- if_match mt meet o e;
  if (0 <? o_leaves z) && (ever || negb (immediate z)) then insert_rest mt z e1 else finish mt (emit (EDeleteOrder z) e1).
Lemma arrives_ok ever o e e' er : moves sid base [] e -> fly_ok sid (e_ords e) o -> 0 < o_leaves o -> o_tif o <> AON ->
  (o_type o = LIMIT /\ (ever = true -> immediate o = false)) \/ (ever = true /\ wait_order o) \/ (ever = false /\ o_type o = MARKET /\ immediate o = true) ->
  arrives ever o e = Ok (e', er) ->
  exists xs', arrive ever o (ring_of e) x = (er, xs', set_ring sid (ring_of e') x) /\ moves sid base xs' e'.
Proof.
  intros Hr Hfl Hlv Hna Hty Hen. unfold arrive. rewrite (su_on _ _ Hft).
  destruct (if mt then strike o (ring_of e) else ([], ring_of e, o)) as [[xs g] z] eqn:Etr.
  assert (H : exists e1, if_match mt meet o e = Ok (z, e1) /\ moves sid e xs e1 /\ ring_of e1 = g /\ fly_ok sid (e_ords e1) z /\
     (o_type z = o_type o /\ o_tif z = o_tif o /\ o_id z = o_id o /\ o_sym z = o_sym o /\ o_side z = o_side o)).
  { unfold if_match. destruct mt.
    - destruct (strike_ok sid e o xs g z (m_fine _ _ _ _ Hr) Hfl Hlv Hna Etr) as (e1 & A & B & C & D & _). exists e1. pose proof (strike_kind _ _ _ _ _ Etr). split_and!; done || tauto.
    - injection Etr as <- <- <-. exists e. split; [done|]. split; [apply moves_refl, Hr|]. split_and!; done. }
  destruct H as (e1 & Hm & Hr1 & <- & Hflz & K1 & K2 & K3 & K4 & K5). unfold arrives in Hen. rewrite Hm in Hen. cbn [rbind] in Hen.
  assert (Hrun : moves sid base xs e1) by (change xs with ([] ++ xs); by eapply moves_trans).
  assert (Hi : immediate z = immediate o) by (unfold immediate, is_ioc, is_fok; by rewrite K2).
  assert (Hgtc : o_tif z = GTC <-> immediate z = false). { rewrite K2, Hi. unfold immediate, is_ioc, is_fok. destruct (o_tif o); cbn; split; done. }
  assert (Hd : (0 <? o_leaves z) && (ever || negb (immediate z)) = bool_decide (0 < o_leaves z /\ (ever = true \/ o_tif z = GTC))).
  { symmetry. destruct (bool_decide_reflect (0 < o_leaves z /\ (ever = true \/ o_tif z = GTC))) as [[H1 H2]|H].
    - rewrite (proj2 (Z.ltb_lt _ _) H1). destruct H2 as [-> |H2]; [done|]. apply Hgtc in H2. rewrite H2. by destruct ever.
    - destruct (Z.ltb_spec 0 (o_leaves z)); [|done]. destruct ever; [exfalso; apply H; auto|]. destruct (immediate z) eqn:Ei; [done|]. exfalso. apply H. rewrite Hgtc. auto. }
  rewrite Hd in Hen. destruct (decide (0 < o_leaves z /\ (ever = true \/ o_tif z = GTC))) as [D|D].
  - rewrite bool_decide_eq_true_2 in Hen by done. destruct D as [D1 D2]. apply (remain_ok z e1 xs e' er); try done; [by rewrite K2|..].
    + rewrite K1. destruct Hty as [[-> _]|[[_ [H _]]|(He & Hmk & Himm)]]; [done|done|]. destruct D2 as [D2|D2]; [congruence|]. apply Hgtc in D2. congruence.
    + intros Et. rewrite K1 in Et. destruct D2 as [D2|D2]; [|by apply Hgtc]. rewrite Hi. destruct Hty as [[_ H]|[[_ [_ H]]|[_ [H _]]]]; try congruence. by apply H.
  - rewrite bool_decide_eq_false_2 in Hen by done. rewrite (fl_sym _ _ _ Hfl). apply (conclude_ok (emit (EDeleteOrder z) e1) xs e' er); [by apply moves_emit|done].
Qed.
End book.

(** ** The calls *)
Definition replies (a : op) (s : state) (x : bourse) (r : res (state * err)) : Prop :=
  forall s' er, r = Ok (s', er) -> exists evs x', st_log s' = st_log s ++ evs /\ bourse_step a x = (er, execs evs, x') /\ suits x' s'.
Section calls.
Context (s : state) (x : bourse) (Hft : suits x s).
Notation mt := (st_match s).
Lemma deny_replies a er : bourse_step a x = denied er x -> replies a s x (Ok (s, er)).
Proof. intros He s' er' [= <- <-]. exists [], x. by rewrite app_nil_r. Qed.
Lemma on_book_replies a sid b f : get_book sid s = Some b ->
  (forall e' er, f (eng_of b s) = Ok (e', er) -> exists xs, bourse_step a x = (er, xs, set_ring sid (ring_of e') x) /\ moves sid (eng_of b s) xs e') -> replies a s x (on_book sid b f s).
Proof.
  intros Hb H s' er Hon. unfold on_book in Hon. change (mkEng b (st_ords s) (st_log s)) with (eng_of b s) in Hon. destruct (f (eng_of b s)) as [[e' er']| |] eqn:E; cbn [rbind] in Hon; try done.
  injection Hon as <- <-. destruct (H e' er' eq_refl) as (xs & Hx & Hr). destruct (m_log _ _ _ _ Hr) as (evs & Hlog & <-). exists evs. eexists. split; [done|]. split; [done|].
  change (suits (set_ring sid (ring_of e') x) (put_eng sid e' s)). by eapply suits_put.
Qed.
Lemma base_moves sid b : get_book sid s = Some b -> moves sid (eng_of b s) [] (eng_of b s).
Proof. intros Hb. apply moves_refl. by apply (su_fine _ _ Hft). Qed.
Lemma abode i o : st_ords s !! i = Some o -> o_id o = i /\ live_ok i o /\ o_tif o <> AON /\ exists b, get_book (o_sym o) s = Some b.
Proof.
  intros Ho. pose proof (su_inv _ _ Hft) as Hi. pose proof (mo_live _ (iv_map _ Hi) _ _ Ho) as Hl. split; [apply Hl|]. split; [done|].
  destruct (get_book (o_sym o) s) as [b|] eqn:Hb; [|by destruct (iv_home _ Hi _ _ Ho)]. pose proof (su_fine _ _ Hft _ _ Hb) as Hg.
  assert (Hin : o ∈ orders_of (okind o) (eng_of b s)) by (by eapply (elem_orders (o_sym o) _ i); [apply Hg|..]).
  split; [by eapply f_aon|eauto].
Qed.
Lemma spotted_some i o b f : i <> 0 -> st_ords s !! i = Some o -> get_book (o_sym o) s = Some b -> with_spotted i x f = f o (ring_of (eng_of b s)).
Proof. intros Hi Ho Hb. unfold with_spotted. rewrite decide_False by done. rewrite (spot_ok x s i Hft), Ho, (su_ring _ _ Hft), Hb. done. Qed.
Lemma spotted_none i f : i <> 0 -> st_ords s !! i = None -> with_spotted i x f = denied ORDER_NOT_FOUND x.
Proof. intros Hi Ho. unfold with_spotted. rewrite decide_False by done. by rewrite (spot_ok x s i Hft), Ho. Qed.
(** The head of the calls that name an order and a quantity. *)
Lemma quantity_replies a i q f F : bourse_step a x = with_quantity i q x F ->
  (forall o b, i <> 0 -> q <> 0 -> i = o_id o -> st_ords s !! o_id o = Some o -> get_book (o_sym o) s = Some b -> bourse_step a x = F o (ring_of (eng_of b s)) ->
     replies a s x (on_book (o_sym o) b (f o) s)) ->
  replies a s x (check_id i s (check_qty q s (with_order i f s))).
Proof.
  intros Hx H. unfold check_id, check_qty. destruct (Z.eqb_spec i 0) as [->|Hi0].
  { apply deny_replies. rewrite Hx. unfold with_quantity. rewrite decide_False by tauto. unfold with_spotted. by rewrite decide_True. }
  destruct (Z.eqb_spec q 0) as [->|Hq0]. { apply deny_replies. rewrite Hx. unfold with_quantity. by rewrite decide_True. }
  unfold with_quantity in Hx. rewrite decide_False in Hx by tauto. unfold with_order. destruct (st_ords s !! i) as [o|] eqn:Ho.
  - destruct (abode i o Ho) as (Hid & _ & _ & b & Hb). rewrite Hb. subst i. apply H; try done. rewrite Hx. by apply spotted_some.
  - apply deny_replies. rewrite Hx. by apply spotted_none.
Qed.
Lemma call_reduce3 i q : op_ok s (ReduceOrder i q) -> replies (ReduceOrder i q) s x (api_reduce i q s).
Proof.
  intros [Ri Rq]. unfold api_reduce. eapply quantity_replies; [reflexivity|]. intros o b Hi Hq -> Ho Hb Hx. apply on_book_replies; [done|]. intros e' er.
  pose proof (su_fine _ _ Hft _ _ Hb) as Hg.
  destruct (reduce_order_ok (o_sym o) (eng_of b s) o q (f_ok _ _ Hg) Ho eq_refl ltac:(unfold u64_range in *; lia)) as (u & e1 & Heq & He1 & Hords & Hlog & Hbp & Hpr). rewrite Heq. cbn [rbind]. intros Hfin.
  destruct (reduced_moves (o_sym o) (eng_of b s) e1 o (set_leaves (o_leaves o - Z.min q (o_leaves o)) o) u _ (Z.min q (o_leaves o)) _ Hg Ho eq_refl eq_refl eq_refl eq_refl eq_refl He1 Hords Hpr Hlog) as [Hr Hor].
  assert (Hxs : execs (red_ev (set_leaves (o_leaves o - Z.min q (o_leaves o)) o) :: lim_evs o (o_sym o) u) = []).
  { unfold red_ev. destruct (_ =? 0); cbn; by rewrite lim_execs. }
  rewrite Hxs in Hr. destruct (conclude_ok x s Hft (o_sym o) b e1 [] e' er Hr Hfin) as (xs' & Hd & Hr'). exists xs'. split; [|done]. rewrite Hx, <- Hd. f_equal.
  destruct (decide (o_leaves o <= q)).
  - symmetry. rewrite decide_True in Hor by lia. by apply every_ring.
  - symmetry. rewrite decide_False in Hor by lia. rewrite Z.min_l in Hor by lia. by apply every_ring.
Qed.
Lemma call_delete3 i : op_ok s (DeleteOrder i) -> replies (DeleteOrder i) s x (api_delete i s).
Proof.
  intros Ri. unfold api_delete, check_id. destruct (Z.eqb_spec i 0) as [->|Hi0]; [by apply deny_replies|]. unfold with_order. destruct (st_ords s !! i) as [o|] eqn:Ho.
  2: { apply deny_replies. cbn. by apply spotted_none. }
  destruct (abode i o Ho) as (Hid & _ & _ & b & Hb). rewrite Hb. subst i. apply on_book_replies; [done|]. intros e' er.
  pose proof (su_fine _ _ Hft _ _ Hb) as Hg.
  destruct (delete_order_ok (o_sym o) (eng_of b s) o (f_ok _ _ Hg) Ho eq_refl) as (u & e1 & Heq & He1 & Hords & Hlog & Hbp & Hpr). rewrite Heq. cbn [rbind]. intros Hfin.
  destruct (leaves_ok (o_sym o) (eng_of b s) e1 o u _ _ Hg Ho eq_refl He1 Hords Hpr Hlog) as [Hr Hor]. rewrite execs_app, lim_execs in Hr. cbn [execs app] in Hr.
  destruct (conclude_ok x s Hft (o_sym o) b e1 [] e' er Hr Hfin) as (xs' & Hd & Hr'). exists xs'. split; [|done]. cbn [bourse_step]. rewrite (spotted_some (o_id o) o b _ Hi0 Ho Hb), <- Hd. f_equal.
  symmetry. by apply every_ring.
Qed.
Lemma call_execute3 a i p q r : (a = ExecuteOrder i q /\ r = api_execute i q s) \/ (a = ExecuteOrderAt i p q /\ r = api_execute_at i p q s) -> op_ok s a -> replies a s x r.
Proof.
  intros Hor Hop. 
  assert (exists F, r = check_id i s (check_qty q s (with_order i (fun o e => execute_order (st_match s) o (F o) q e) s)) /\ 0 <= q /\
    bourse_step a x = with_quantity i q x (fun o y => bourse_execute (F o) q o y x)) as (F & -> & Hq & Hx).
  { destruct Hor as [[-> ->]|[-> ->]]; [exists o_price|exists (fun _ => p)]; cbn in Hop; unfold u64_range in Hop; split_and!; try done; lia. }
  clear Hor. eapply quantity_replies; [exact Hx|]. clear Hx. intros o b Hi Hq0 -> Ho Hb Hx. apply on_book_replies; [done|]. intros e' er.
  pose proof (su_fine _ _ Hft _ _ Hb) as Hg. set (n := Z.min q (o_leaves o)).
  destruct (execute_head_ok (o_sym o) (eng_of b s) o (F o) q (f_ok _ _ Hg) Ho eq_refl ltac:(lia)) as (u & e1 & Heq & He1 & Hords & Hlog & Hbp & Hpr).
  rewrite execute_order_head, Heq. cbn [rbind]. intros Hfin.
  destruct (reduced_moves (o_sym o) (eng_of b s) e1 o (executed n o) u _ n _ Hg Ho eq_refl eq_refl eq_refl eq_refl eq_refl He1 Hords Hpr Hlog) as [Hr Hor].
  assert (Hxs : execs (EExecute o (F o) n :: lim_evs o (o_sym o) u ++ [red_ev (executed n o)]) = [(o, F o, n)]).
  { change (EExecute o (F o) n :: lim_evs o (o_sym o) u ++ [red_ev (executed n o)]) with ([EExecute o (F o) n] ++ lim_evs o (o_sym o) u ++ [red_ev (executed n o)]). rewrite !execs_app, lim_execs. unfold red_ev. by destruct (_ =? 0). }
  fold n in Hr. rewrite Hxs in Hr. destruct (conclude_ok x s Hft (o_sym o) b e1 _ e' er Hr Hfin) as (xs' & Hd & Hr'). exists xs'. split; [|done]. rewrite Hx, <- Hd. unfold bourse_execute. fold n. f_equal.
  rewrite cut_crop. symmetry. set (G := ring_of (eng_of b s)).
  destruct (note_glist [(o, F o, n)] (on_half (o_side o) (with_now (F o)) (on_all (crop n o) G))) as [A1 A2]. destruct (now_glist (o_side o) (F o) (on_all (crop n o) G)) as [B1 B2].
  pose proof (proj2 (all_glist KBid (crop n o) G)) as C2. apply ring_eq.
  - intros k. rewrite A1, B1, (proj1 (all_glist _ _ _)). unfold G. rewrite !ring_list, Hor. unfold crop. rewrite after_fill_executed. by destruct (decide _).
  - intros sd. destruct (A2 sd) as (-> & _ & _). destruct (B2 sd) as (-> & _ & _). destruct (C2 sd) as (-> & _ & _). unfold G. rewrite !ring_now. destruct (prices_of sd _ _ Hbp) as (-> & _). by destruct sd, (o_side o).
  - intros sd. destruct (A2 sd) as (_ & _ & ->). destruct (B2 sd) as (_ & _ & ->). destruct (C2 sd) as (_ & -> & _). unfold G. rewrite !ring_last. destruct (prices_of sd _ _ Hbp) as (_ & -> & _).
    cbn [fold_left]. unfold next_last. cbn [fst snd]. by destruct sd, (o_side o).
  - intros sd. destruct (A2 sd) as (_ & -> & _). destruct (B2 sd) as (_ & -> & _). destruct (C2 sd) as (_ & _ & ->). unfold G. rewrite !ring_seen. destruct (prices_of sd _ _ Hbp) as (_ & _ & ->). by destruct sd, (o_side o).
Qed.
Lemma call_modify3 (mit : bool) i p q : let a := if mit then MitigateOrder i p q else ModifyOrder i p q in op_ok s a -> replies a s x (api_modify mit i p q s).
Proof.
  intros a Hop. assert (Hr : u64_range i /\ u64_range p /\ u64_range q /\ total (delete i (st_ords s)) + q < TWO64) by (unfold a in Hop; by destruct mit). clear Hop.
  destruct Hr as (Ri & Rp & Rq & Rt).
  eapply (quantity_replies a i q _ (fun o y => if (mit && bool_decide (q <= o_exec o)) then conclude (o_sym o) [] (gone o y) x
    else arrive true (set_price p (set_qty q (set_leaves (if mit then q - o_exec o else q) o))) (gone o y) x)).
  { unfold a. destruct mit; cbn [bourse_step]; [|done]. unfold with_quantity, with_spotted. repeat case_match; try done; cbn in *; by rewrite ?bool_decide_eq_true_2, ?bool_decide_eq_false_2 in * by done. }
  intros o b Hi0 Hq0 -> Ho Hb Hx. apply on_book_replies; [done|]. intros e' er.
  pose proof (su_fine _ _ Hft _ _ Hb) as Hg. destruct (abode _ _ Ho) as (_ & Hl & Htif & _).
  destruct (drop_ok (o_sym o) (eng_of b s) o Hg Ho eq_refl) as (e1 & Hdel & Hr1 & Hp1 & Hd1 & _). set (e2 := drop_id (o_id o) e1) in *. unfold modify_order. rewrite Hdel. cbn [rbind]. fold e2.
  set (o' := modified mit p q o).
  assert (Eo' : mit && bool_decide (q <= o_exec o) = false -> o' = set_price p (set_qty q (set_leaves (if mit then q - o_exec o else q) o)) /\ 0 < o_leaves o').
  { unfold o', modified. destruct mit; cbn; [|intros _; unfold u64_range in *; split; [done|lia]]. intros H. apply bool_decide_eq_false in H. rewrite (proj2 (Z.ltb_lt _ _)) by lia. split; [done|]. cbn. lia. }
  assert (Ez' : mit && bool_decide (q <= o_exec o) = true -> o_leaves o' = 0).
  { unfold o', modified. destruct mit; cbn; [|done]. intros H. apply bool_decide_eq_true in H. rewrite (proj2 (Z.ltb_ge _ _)) by lia. done. }
  assert (Hlv : 0 <= o_leaves o' <= q).
  { unfold o', modified. destruct mit; cbn; [|unfold u64_range in *; lia]. destruct (Z.ltb_spec (o_exec o) q); [|unfold u64_range in *; lia]. destruct (lo_exec _ _ Hl). lia. }
  assert (Hf : fly_ok (o_sym o) (e_ords e2) o').
  { rewrite Hd1. cbn [eng_of e_ords]. destruct Hl. unfold u64_range in Rq. constructor; unfold o', modified; destruct mit; cbn; try done; try lia; unfold o', modified in Hlv; cbn in Hlv; lia. }
  assert (Hid' : o_id o' = o_id o) by (unfold o', modified; by destruct mit).
  assert (Hty' : o_type o' = o_type o) by (unfold o', modified; by destruct mit).
  assert (Htif' : o_tif o' = o_tif o) by (unfold o', modified; by destruct mit).
  destruct (mit && bool_decide (q <= o_exec o)) eqn:Em.
  - rewrite (Ez' eq_refl). cbn [Z.ltb Z.compare]. intros Hfin. destruct (conclude_ok x s Hft (o_sym o) b (emit (EDeleteOrder o') e2) [] e' er) as (xs & Hd & Hr'); [by apply moves_emit|done|].
    exists xs. split; [|done]. rewrite Hx, <- Hd. by rewrite <- Hp1.
  - destruct (Eo' eq_refl) as [Eo Hpos]. rewrite <- Eo in Hx. rewrite (proj2 (Z.ltb_lt _ _) Hpos). intros Hm.
    assert (Hnm : o_type o' <> MARKET) by (rewrite Hty'; apply Hl).
    destruct (arrives_ok x s Hft (o_sym o) b Hb true o' (emit (EUpdateOrder o') e2) e' er) as (xs & Hc & Hr').
    + by apply moves_emit. + done. + done. + by rewrite Htif'.
    + rewrite Hty'. destruct (decide (o_type o = LIMIT)) as [Ht|Ht]; [left; split; [done|]|right; left; split; [done|]; unfold wait_order; rewrite Hty'; split; [apply Hl|done]].
      intros _. destruct (lo_rest _ _ Hl Ht) as [E|E]; [|done]. unfold immediate, is_ioc, is_fok. by rewrite Htif', E.
    + unfold arrives, if_match in *. destruct mt.
      * rewrite (meet_order _ _ Hnm).
        destruct (strike o' (ring_of (emit (EUpdateOrder o') e2))) as [[xs y] z] eqn:Etr.
        destruct (strike_ok (o_sym o) (emit (EUpdateOrder o') e2) o' xs y z) as (e3 & Hm3 & _ & _ & _ & Hnone); [by apply fine_emit, Hr1|done|done|by rewrite Htif'|done|].
        rewrite (meet_order _ _ Hnm) in Hm3. rewrite Hm3 in *. cbn [rbind] in *. rewrite andb_true_r. destruct (strike_kind _ _ _ _ _ Etr) as (_ & _ & K3 & _).
        destruct (0 <? o_leaves z); [|done]. unfold insert_rest. rewrite (Hnone (o_id z)); [done|]. cbn [e_ords emit]. rewrite Hd1, K3, Hid'. apply lookup_delete.
      * cbn [rbind] in *. rewrite andb_true_r. destruct (0 <? o_leaves o'); [|done]. unfold insert_rest. cbn [e_ords emit]. by rewrite Hd1, Hid', lookup_delete.
    + exists xs. split; [|done]. rewrite Hx, <- Hc. by rewrite <- Hp1.
Qed.
Lemma call_replace3 i ni p q : op_ok s (ReplaceOrder i ni p q) -> replies (ReplaceOrder i ni p q) s x (api_replace i ni p q s).
Proof.
  intros (Ri & Rni & Rp & Rq & Rt). unfold api_replace, check_id, check_qty. 
  destruct (Z.eqb_spec i 0) as [->|Hi0]; [apply deny_replies; cbn; rewrite decide_True by auto; done|]. 
  destruct (Z.eqb_spec ni 0) as [->|Hni0]; [apply deny_replies; cbn; rewrite decide_True by auto; done|]. 
  assert (Hd : ~ (i = 0 \/ ni = 0)) by tauto.
  destruct (Z.eqb_spec q 0) as [->|Hq0]; [apply deny_replies; cbn; rewrite decide_False by done; unfold with_quantity; by rewrite decide_True|].
  assert (Hx : bourse_step (ReplaceOrder i ni p q) x = with_spotted i x (fun o y =>
        if decide (o_type o = LIMIT) then arrive true (replacement ni p q o) (gone o y) x else denied ORDER_TYPE_INVALID x)).
  { cbn [bourse_step]. rewrite decide_False by done. unfold with_quantity. by rewrite decide_False by tauto. }
  unfold with_order. destruct (st_ords s !! i) as [o|] eqn:Ho; [|apply deny_replies; rewrite Hx; by apply spotted_none].
  destruct (abode i o Ho) as (Hid & Hl & Htif & b & Hb). rewrite Hb. subst i. rewrite (spotted_some _ o b _ Hi0 Ho Hb) in Hx.
  destruct (decide (o_type o = LIMIT)) as [Ht|Ht].
  2: { assert (is_limit o = false) as -> by (unfold is_limit; by destruct (o_type o)). by apply deny_replies. }
  assert (is_limit o = true) as -> by (unfold is_limit; by rewrite Ht). cbn [negb]. apply on_book_replies; [done|]. intros e' er.
  pose proof (su_fine _ _ Hft _ _ Hb) as Hg.
  destruct (delete_order_ok (o_sym o) (eng_of b s) o (f_ok _ _ Hg) Ho eq_refl) as (u & e1 & Heq & He1 & Hords & Hlog & Hbp & Hpr). unfold replace_order. rewrite Heq. cbn [rbind]. intros Hm.
  destruct (leaves_ok (o_sym o) (eng_of b s) e1 o u _ _ Hg Ho eq_refl He1 Hords Hpr Hlog) as [Hr Hor]. rewrite execs_app, lim_execs in Hr. cbn [execs app] in Hr.
  assert (Hp1 : ring_of e1 = gone o (ring_of (eng_of b s))) by by apply every_ring.
  set (o' := replaced ni p q o) in *.
  assert (Hf : fly_ok (o_sym o) (e_ords e1) o').
  { rewrite Hords. cbn [eng_of e_ords]. unfold u64_range in *. destruct Hl. constructor; unfold u64_range in *; try done; cbn; try lia. }
  assert (Him : immediate o = false). { destruct (lo_rest _ _ Hl Ht) as [E|E]; [|done]. unfold immediate, is_ioc, is_fok. by rewrite E. }
  destruct (arrives_ok x s Hft (o_sym o) b Hb true o' (emit (EAddOrder o') e1) e' er) as (xs & Hc & Hr').
  - by apply moves_emit. - done. - unfold o', replaced. cbn. unfold u64_range in *. lia. - done.
  - left. split; [exact Ht|]. intros _. exact Him.
  - unfold arrives. unfold if_match in *. assert (Hmm : (if mt then meet o' (emit (EAddOrder o') e1) else Ok (o', emit (EAddOrder o') e1)) = (if mt then match_order o' (emit (EAddOrder o') e1) else Ok (o', emit (EAddOrder o') e1))).
    { destruct mt; [|done]. apply meet_order. unfold o'; cbn; by rewrite Ht. }
    rewrite Hmm. destruct (if mt then _ else _) as [[z e3]| |]; try done. cbn [rbind] in *. rewrite andb_true_r. by destruct (0 <? o_leaves z).
  - exists xs. split; [|done]. rewrite Hx, <- Hp1, <- Hc. done.
Qed.
Lemma springs_spec sid e o : fine sid e -> triggered o (e_bk e) = bool_decide (springs o (ring_of e)).
Proof.
  intros Hg. apply eq_bool_prop_intro. rewrite !Is_true_true, bool_decide_eq_true. unfold triggered, springs.
  destruct (o_side o); rewrite (market_ok sid) by apply Hg; cbn [market_of]; lia.
Qed.
Lemma drawn_same p o : is_trailing o = false -> drawn_to p o = o.
Proof. unfold is_trailing, is_trailing_stop, is_trailing_stop_limit, drawn_to. by destruct (o_type o). Qed.
Lemma drawn_to_same p o : o_sym (drawn_to p o) = o_sym o /\ o_leaves (drawn_to p o) = o_leaves o /\ o_tif (drawn_to p o) = o_tif o /\ o_type (drawn_to p o) = o_type o.
Proof. unfold drawn_to. by destruct (o_type o) eqn:E. Qed.
Lemma drawn_fly sid m p o : fly_ok sid m o -> u64_range p -> fly_ok sid m (drawn_to p o).
Proof.
  intros Hf Hp. unfold drawn_to. destruct (o_type o) eqn:E; try done; destruct Hf; (constructor; cbn in *; try done; try apply u64_range_u64; try lia; try (by rewrite E); try (by rewrite E in *)).
Qed.
Lemma call_add3 o : op_ok s (AddOrder o) -> o_tif o <> AON -> forall s' er, api_add o s = Ok (s', er) ->
  exists evs x', st_log s' = st_log s ++ evs /\ bourse_add o x = (er, execs evs, x') /\ suits x' s'.
Proof.
  intros Hop Haon. change (replies (AddOrder o) s x (api_add o s)).
  assert (Hr : validate o <> OK -> api_add o s = Ok (s, validate o)) by (unfold api_add; by destruct (validate o)).
  assert (Hs : bourse_step (AddOrder o) x = bourse_add o x) by done. unfold bourse_add in Hs.
  destruct (decide (validate o = OK)) as [Hv|Hv]; [|rewrite (Hr Hv); by apply deny_replies]. unfold api_add. rewrite Hv. 
  destruct (fly_new s o (su_inv _ _ Hft) Hop Hv) as (Hfl & Hlv & Hidp & Hmi). rewrite (su_ring _ _ Hft) in Hs.
  destruct (get_book (o_sym o) s) as [b|] eqn:Hb; [|by apply deny_replies].
  apply on_book_replies; [done|]. intros e' er. intros Hadd.
  pose proof (su_fine _ _ Hft _ _ Hb) as Hg. pose proof (base_moves _ _ Hb) as Hr0.
  set (B := eng_of b s) in *. set (G := ring_of B) in *.
  assert (Hgo : forall o1 e2, moves (o_sym o) B [] e2 -> ring_of e2 = G -> fly_ok (o_sym o) (e_ords e2) o1 -> 0 < o_leaves o1 -> o_tif o1 <> AON ->
    o_type o1 = LIMIT \/ (o_type o1 = MARKET /\ immediate o1 = true) -> arrives s false o1 e2 = Ok (e', er) ->
    exists xs, arrive false o1 G x = (er, xs, set_ring (o_sym o) (ring_of e') x) /\ moves (o_sym o) B xs e').
  { intros o1 e2 A A' C D E F H. rewrite <- A'. apply (arrives_ok x s Hft (o_sym o) b Hb false o1 e2 e' er); try done. destruct F as [F|F]; [by left|by right; right]. }
  assert (Hmk : forall o1 e2, o_type o1 = MARKET -> immediate o1 = true -> (do '(z, e) <- if_match mt match_market o1 e2; finish mt (emit (EDeleteOrder z) e)) = Ok (e', er) ->
      moves (o_sym o) B [] e2 -> fly_ok (o_sym o) (e_ords e2) o1 -> 0 < o_leaves o1 -> o_tif o1 <> AON -> arrives s false o1 e2 = Ok (e', er)).
  { intros o1 e2 T I H R1 F1 L1 A1. unfold arrives. unfold if_match in *. destruct mt eqn:Emt.
    - destruct (strike o1 (ring_of e2)) as [[xs y] z] eqn:Etr.
      destruct (strike_ok (o_sym o) e2 o1 xs y z (m_fine _ _ _ _ R1) F1 L1 A1 Etr) as (e3 & Hm3 & _). destruct (strike_kind _ _ _ _ _ Etr) as (_ & K2 & _). rewrite Hm3. unfold meet in Hm3. rewrite T in Hm3. rewrite Hm3 in H. cbn [rbind] in *.
      assert (immediate z = true) as ->; [|by rewrite andb_false_r]. rewrite <- I. unfold immediate, is_ioc, is_fok. by rewrite K2.
    - cbn [rbind] in *. by rewrite I, andb_false_r. }
  assert (Hlm : forall o1 e2, o_type o1 = LIMIT -> add_limit_tail mt o1 e2 = Ok (e', er) -> arrives s false o1 e2 = Ok (e', er)).
  { intros o1 e2 T H. unfold arrives, if_match, meet. rewrite T. exact H. }
  assert (Hmv : moves (o_sym o) B [] (emit (EAddOrder o) B)) by by apply moves_emit.
  assert (Hw : wait_order o ->
    exists xs, (let o2 := drawn_to (drawn (followed (o_side o) G) o) o in if decide (u_on x = true /\ springs o2 G) then arrive false (sprung o2) G x else remain o2 [] G x) = (er, xs, set_ring (o_sym o) (ring_of e') x) /\ moves (o_sym o) B xs e').
  { intros Hwt. set (o2 := drawn_to (drawn (followed (o_side o) G) o) o). cbv zeta.
    assert (E2 : o2 = (if is_trailing o then retrail (calc_trailing o (e_bk B)) o else o) /\ fly_ok (o_sym o) (st_ords s) o2).
    { destruct (is_trailing o) eqn:Et.
      - assert (Hd : drawn (followed (o_side o) G) o = calc_trailing o (e_bk B)).
        { symmetry. apply (drawn_calc (o_sym o)); [apply Hg|done|apply Hfl|apply Hfl]. }
        unfold o2. rewrite Hd. split; [symmetry; apply drawn_retrail|]. apply drawn_fly; [done|]. apply calc_trailing_range. apply Hfl.
      - unfold o2. rewrite drawn_same by done. done. }
    destruct E2 as [E2 Hf2]. destruct (drawn_to_same (drawn (followed (o_side o) G) o) o) as (D1 & D2 & D3 & D4). fold o2 in D1, D2, D3, D4.
    assert (Hw2 : wait_order o2) by (unfold wait_order; by rewrite D4). set (e1 := emit (EAddOrder o2) B).
    assert (Hr1 : moves (o_sym o) B [] e1) by by apply moves_emit.
    pose proof (springs_spec (o_sym o) e1 o2 (m_fine _ _ _ _ Hr1)) as Htr. change (ring_of e1) with G in Htr.
    assert (Hadd2 : (if mt && triggered o2 (e_bk e1) then (match o_type o with STOP | TRAILING_STOP => do '(z, e) <- match_market (to_market o2) (emit (EUpdateOrder (to_market o2)) e1); finish mt (emit (EDeleteOrder z) e)
       | _ => add_limit_tail mt (to_limit o2) (emit (EUpdateOrder (to_limit o2)) e1) end) else add_stop_rest mt o2 e1) = Ok (e', er)).
    { rewrite <- Hadd. unfold add_order, add_stop, add_stop_limit. unfold e1. clear Htr Hr1 e1. rewrite E2. destruct Hwt as [W1 W2]. unfold retrail, is_trailing, is_trailing_stop, is_trailing_stop_limit. destruct (o_type o) eqn:Et; try done. }
    rewrite (su_on _ _ Hft). rewrite Htr in Hadd2. destruct (decide (mt = true /\ springs o2 G)) as [[M S]|D].
    - rewrite (bool_decide_eq_true_2 _ S) in Hadd2. rewrite M in Hadd2. cbn [andb] in Hadd2. rewrite <- M in Hadd2.
      destruct (sprung_same o2) as (Q1 & Q2 & Q3 & Q4).
      assert (Ef : fly_ok (o_sym o) (st_ords s) (sprung o2)) by (rewrite sprung_converted by done; by apply converted_fly).
      assert (Er : moves (o_sym o) B [] (emit (EUpdateOrder (sprung o2)) e1)) by by apply moves_emit.
      assert (El : 0 < o_leaves (sprung o2)) by (by rewrite Q2, D2).
      assert (Ec : match o_type o with STOP | TRAILING_STOP => to_market o2 = sprung o2 | _ => to_limit o2 = sprung o2 end).
      { rewrite (sprung_converted o2 Hw2). unfold converted. rewrite D4. destruct Hwt as [W1 W2]. by destruct (o_type o). }
      destruct (sprung_kind o2 Hw2) as [(T1 & T2 & T3)|[T1 T2]].
      + assert (Ei : immediate (sprung o2) = true). { unfold immediate, is_ioc, is_fok. by destruct (o_tif (sprung o2)). }
        apply (Hgo (sprung o2) (emit (EUpdateOrder (sprung o2)) e1)); auto. apply Hmk; auto.
        assert (Hx2 : match o_type o with STOP | TRAILING_STOP => True | _ => False end). { unfold sprung in T1. rewrite D4 in T1. by destruct (o_type o). }
        unfold if_match. rewrite M. rewrite M in Hadd2. destruct (o_type o); try done; by rewrite Ec in Hadd2.
      + apply (Hgo (sprung o2) (emit (EUpdateOrder (sprung o2)) e1)); auto; [by rewrite T2, D3|]. apply Hlm; auto.
        assert (Hx2 : match o_type o with STOP | TRAILING_STOP => False | _ => True end). { unfold sprung in T1. rewrite D4 in T1. by destruct (o_type o). }
        destruct Hwt as [W1 W2]. destruct (o_type o); try done; by rewrite Ec in Hadd2.
    - assert (Hcond : mt && bool_decide (springs o2 G) = false). { destruct mt; [|done]. cbn. apply bool_decide_eq_false_2. tauto. }
      rewrite Hcond in Hadd2. unfold add_stop_rest in Hadd2. rewrite (proj2 (Z.ltb_lt _ _)) in Hadd2 by (by rewrite D2).
      change G with (ring_of e1). apply (remain_ok x s Hft (o_sym o) b Hb o2 e1 [] e' er); auto; [by rewrite D2|by rewrite D3|apply Hw2|]. intros Et. by destruct Hw2. }
  rewrite Hs. unfold add_order in Hadd. destruct (o_type o) eqn:Hty.
  - apply (Hgo o (emit (EAddOrder o) B)); auto.
  - apply (Hgo o (emit (EAddOrder o) B)); auto.
  - apply Hw. split; by rewrite Hty.
  - apply Hw. split; by rewrite Hty.
  - apply Hw. split; by rewrite Hty.
  - apply Hw. split; by rewrite Hty.
Qed.
End calls.
