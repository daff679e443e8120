(** * PropsState.v -- properties of every reachable state: C02, C03, C04, C05, C13, C35, and the
    refuted C06, C07, C08. *)
From Coq Require Import ZifyBool.
From stdpp Require Import fin_maps relations.
From Verif Require Import Types Book Engine Manager Factory LevelFacts BookInv EngInv EngPrim Steps StateInv Reach Calls Witness Spec.

Lemma hist_call ops a : op_okb (hist ops) a = true ->
  call (hist ops) a (after (hist ops) a) (ret (hist ops) a) (news (hist ops) a).
Proof.
  intros Hop%op_okb_ok. destruct (call_exists _ _ (reach_inv _ (hist_reach ops)) Hop) as (s' & er & evs & Hst & Hlog).
  unfold after, ret, news, after. rewrite Hst. split; [done|]. rewrite Hlog, drop_app. done.
Qed.

Lemma get_order_inv s i : inv s -> get_order i s = st_ords s !! i.
Proof.
  intros Hi. unfold get_order. destruct (Z.eqb_spec i 0) as [->|]; [|done].
  destruct (st_ords s !! 0) as [o|] eqn:E; [|done]. pose proof (lo_idpos _ _ (mo_live _ (iv_map _ Hi) _ _ E)). lia.
Qed.
Lemma level_of_side m sid k sd l : side_ok m sid k sd -> l ∈ s_lvls sd -> level_ok m sid k l.
Proof. intros Hs Hl. eapply (sd_lvls _ _ _ _ Hs (l_price l)). eapply sorted_find; [apply Hs|done]. Qed.
Lemma belongs_okind k p o : o_type o <> MARKET -> belongs k p o <-> okind o = k /\ okey o = p.
Proof.
  unfold belongs, okind, okey. destruct k, (o_type o), (o_side o); cbn; split; intros; try done; naive_solver.
Qed.

(** ** C02 *)
Theorem C02_best_levels s i b k : reach s -> get_book i s = Some b ->
  NoDup (map l_price (s_lvls (get_side k b))) /\
  match s_best (get_side k b) with
  | None => s_lvls (get_side k b) = []
  | Some p => (exists l, l ∈ s_lvls (get_side k b) /\ l_price l = p) /\
              forall l, l ∈ s_lvls (get_side k b) -> as_good k p (l_price l)
  end.
Proof.
  intros Hr Hb. pose proof (iv_book _ (reach_inv _ Hr) _ _ Hb) as Hok. pose proof (bk_side _ _ _ Hok k) as Hs.
  pose proof (sd_sorted _ _ _ _ Hs) as Hso. split.
  - apply sorted_map in Hso. induction Hso as [|p l _ IH Hl]; constructor; [|done].
    intros Hin. rewrite Forall_forall in Hl. specialize (Hl p Hin). by rewrite better_irrefl in Hl.
  - rewrite (sd_best _ _ _ _ Hs). destruct (s_lvls (get_side k b)) as [|a r] eqn:E; [done|]. cbn. split.
    + exists a. split; [left|done].
    + intros l Hl. apply elem_of_cons in Hl as [->|Hl]; [unfold as_good; destruct k; lia|].
      apply sorted_cons_inv in Hso as [_ H]. specialize (H l Hl). unfold before, better, as_good in *. destruct k; cbn in *; lia.
Qed.
Print Assumptions C02_best_levels.
Definition ex_ops1 : list op := setup ++ [EnableMatching; BL 1 90 10; BL 2 95 20; BL 3 95 5; SL 4 105 7;
  AddOrder (StopOrder 5 0 SELL 80 3 GTC MAX64); LIM SELL 6 110 9 AON;
  AddOrder (LimitOrder 7 0 SELL 105 30 GTC 10)].
Example C02_example : let s := hist ex_ops1 in reach s /\ exists b, get_book 0 s = Some b /\
  s_best (b_bids b) = Some 95 /\ s_best (b_asks b) = Some 105 /\ length (s_lvls (b_bids b)) = 2%nat.
Proof. split; [apply hist_reach|]. exists (the_book (hist ex_ops1)). vm_compute. done. Qed.

(** ** C03 *)
Theorem C03_level_aggregates s i b k l : reach s -> get_book i s = Some b -> l ∈ s_lvls (get_side k b) ->
  exists os, Forall2 (fun j o => get_order j s = Some o) (l_ids l) os /\ os <> [] /\
    li_type (l_info l) = level_type k /\
    li_total (l_info l) = sumZ (map o_leaves os) /\
    li_hidden (l_info l) = sumZ (map hidden os) /\
    li_visible (l_info l) = sumZ (map visible os) /\
    li_count (l_info l) = Z.of_nat (length os) /\
    0 < li_total (l_info l).
Proof.
  intros Hr Hb Hl. pose proof (reach_inv _ Hr) as Hinv. pose proof (iv_book _ Hinv _ _ Hb) as Hok.
  pose proof (level_of_side _ _ _ _ _ (bk_side _ _ _ Hok k) Hl) as [Hne Hnd Hin Hty Htot Hhid Hvis Hcnt].
  assert (Hpos : 0 < osum o_leaves (st_ords s) (l_ids l)).
  { apply osum_pos; [apply (iv_map _ Hinv)|intros j Hj; destruct (Hin j Hj) as (o & ? & _); eauto|done]. }
  assert (H : exists os, Forall2 (fun j o => get_order j s = Some o) (l_ids l) os).
  { clear -Hin Hinv. induction (l_ids l) as [|j ids IH]; [by exists []|]. destruct IH as [os Hos].
    { intros i' Hi'. apply Hin. by right. }
    destruct (Hin j) as (o & Ho & _); [left|]. exists (o :: os). constructor; [by rewrite get_order_inv|done]. }
  destruct H as [os Hos]. exists os. split; [done|]. split. { intros ->. inversion Hos. congruence. }
  assert (Hsum : forall f, osum f (st_ords s) (l_ids l) = sumZ (map f os)).
  { intros f. clear -Hos Hinv. induction Hos as [|j o ids os Hj _ IH]; [done|]. rewrite osum_cons. cbn.
    rewrite get_order_inv in Hj by done. rewrite Hj, IH. done. }
  split. { rewrite Hty. by destruct k. }
  rewrite Htot, Hhid, Hvis, Hcnt, !Hsum in *. rewrite (Forall2_length _ _ _ Hos). split; [done|]. split.
  { f_equal. apply map_ext. intros o. unfold hidden_q, hidden. destruct (Z.ltb_spec (o_maxvis o) (o_leaves o)); lia. }
  split; [done|]. split; [done|]. done.
Qed.
Print Assumptions C03_level_aggregates.
Example C03_example : exists b l, get_book 0 (hist ex_ops1) = Some b /\ find_level 105 (s_lvls (b_asks b)) = Some l /\
  l_ids l = [4; 7] /\ l_info l = mkLinfo ASK 105 37 20 17 2.
Proof. eexists _, _. vm_compute. done. Qed.

(** ** C04 *)
Theorem C04_index_is_books s : reach s ->
  (forall i o, get_order i s = Some o -> o_id o = i /\
     exists b k p, get_book (o_sym o) s = Some b /\ i ∈ queue b k p /\ belongs k p o) /\
  (forall j b k p i, get_book j s = Some b -> i ∈ queue b k p ->
     exists o, get_order i s = Some o /\ o_sym o = j /\ belongs k p o) /\
  (forall j b k p, get_book j s = Some b -> NoDup (queue b k p)).
Proof.
  intros Hr. pose proof (reach_inv _ Hr) as Hinv. split; [|split].
  - intros i o Hi. rewrite get_order_inv in Hi by done. pose proof (mo_live _ (iv_map _ Hinv) _ _ Hi) as Hl.
    split; [apply Hl|]. destruct (get_book (o_sym o) s) as [b|] eqn:Hb; [|by destruct (iv_home _ Hinv _ _ Hi)].
    exists b, (okind o), (okey o). split; [done|]. split; [by eapply (bk_full _ _ _ (iv_book _ Hinv _ _ Hb))|].
    apply belongs_okind; [apply Hl|done].
  - intros j b k p i Hb Hi. apply (queue_in _ _ _ _ _ _ (iv_book _ Hinv _ _ Hb)) in Hi as (o & Ho & Hs & Hk & Hp).
    exists o. rewrite get_order_inv by done. split; [done|]. split; [done|].
    apply belongs_okind; [|done]. apply (mo_live _ (iv_map _ Hinv) _ _ Ho).
  - intros j b k p Hb. eapply queue_nodup. by apply (iv_book _ Hinv).
Qed.
Print Assumptions C04_index_is_books.
(** The collection and price of a queued order are unique. *)
Corollary C04_one_place s i j b k p j' b' k' p' : reach s -> get_book j s = Some b -> get_book j' s = Some b' ->
  i ∈ queue b k p -> i ∈ queue b' k' p' -> j = j' /\ k = k' /\ p = p'.
Proof.
  intros Hr Hb Hb' Hi Hi'. destruct (C04_index_is_books s Hr) as (_ & H & _).
  destruct (H _ _ _ _ _ Hb Hi) as (o & Ho & Hs & Hk). destruct (H _ _ _ _ _ Hb' Hi') as (o' & Ho' & Hs' & Hk').
  assert (o' = o) as -> by congruence. subst. split; [done|]. clear -Hk Hk'. unfold belongs in *.
  destruct k, k'; repeat match goal with H : _ /\ _ |- _ => destruct H | H : _ \/ _ |- _ => destruct H end; split; congruence.
Qed.
Print Assumptions C04_one_place.
Example C04_example : let s := hist ex_ops1 in exists b, get_book 0 s = Some b /\
  queue b KBid 95 = [2; 3] /\ queue b KSellStop 80 = [5] /\ queue b KAsk 105 = [4; 7] /\ queue b KAsk 110 = [6] /\ get_order 8 s = None /\
  option_map o_leaves (get_order 3 s) = Some 5.
Proof. eexists. vm_compute. done. Qed.

(** ** C05: under the guards no call has undefined behaviour or fails to terminate. *)
Theorem C05_defined_and_terminates s a : reach s -> op_ok s a -> exists s' er, step s a = Ok (s', er).
Proof. intros Hr Hop. destruct (step_ok s a (reach_inv _ Hr) Hop) as (s' & er & H & _). by exists s', er. Qed.
Print Assumptions C05_defined_and_terminates.
(** Whole histories. *)
Fixpoint guarded (s : state) (ops : list op) : Prop :=
  match ops with
  | [] => True
  | a :: ops => op_ok s a /\ forall s' er, step s a = Ok (s', er) -> guarded s' ops
  end.
Theorem C05_histories ops : guarded init ops -> exists s, run init ops = Ok s.
Proof.
  assert (H : forall s, reach s -> guarded s ops -> exists s', run s ops = Ok s'); [|by apply H; constructor].
  induction ops as [|a ops IH]; intros s Hr Hg; cbn; [by eexists|]. destruct Hg as [Hop Hg].
  destruct (C05_defined_and_terminates s a Hr Hop) as (s' & er & Hst). rewrite Hst. cbn [rbind].
  apply IH; [by eapply reach_step|by eapply Hg].
Qed.
Print Assumptions C05_histories.
Example C05_example : history init ex_ops1 <> None.
Proof. vm_compute. done. Qed.

(** ** C13 *)
Theorem C13_immediate_never_rest s i o : reach s -> get_order i s = Some o ->
  o_type o <> MARKET /\ (o_type o = LIMIT -> o_tif o <> IOC /\ o_tif o <> FOK).
Proof.
  intros Hr Hi. pose proof (reach_inv _ Hr) as Hinv. rewrite get_order_inv in Hi by done.
  pose proof (mo_live _ (iv_map _ Hinv) _ _ Hi) as Hl. split; [apply Hl|]. intros Ht.
  destruct (lo_rest _ _ Hl Ht) as [-> | ->]; done.
Qed.
Print Assumptions C13_immediate_never_rest.
Example C13_example : let ops := setup ++ [EnableMatching; SL 1 100 5; LIM BUY 2 100 8 IOC; AddOrder (MarketOrder 3 0 BUY 4 MAX64); BL 4 90 1] in
  let s := hist ops in reach s /\ get_order 2 s = None /\ get_order 3 s = None /\ get_order 4 s <> None.
Proof. split; [apply hist_reach|]. vm_compute. done. Qed.

(** ** C35 *)
Theorem C35_hidden_visible s : reach s ->
  (forall i o, get_order i s = Some o ->
     hidden_q o + visible_q o = o_leaves o /\ visible_q o <= o_maxvis o /\ 0 <= hidden_q o /\ 0 <= visible_q o) /\
  (forall i b k l, get_book i s = Some b -> l ∈ s_lvls (get_side k b) ->
     li_hidden (l_info l) + li_visible (l_info l) = li_total (l_info l)).
Proof.
  intros Hr. pose proof (reach_inv _ Hr) as Hinv. split.
  - intros i o Hi. rewrite get_order_inv in Hi by done. pose proof (mo_live _ (iv_map _ Hinv) _ _ Hi) as [].
    pose proof (hidden_visible o). pose proof (hidden_bounds o ltac:(lia) ltac:(lia)). pose proof (visible_bounds o ltac:(lia) ltac:(lia)).
    assert (visible_q o <= o_maxvis o) by (unfold visible_q; lia). repeat split; lia.
  - intros i b k l Hb Hl. destruct (C03_level_aggregates s i b k l Hr Hb Hl) as (os & _ & _ & _ & -> & -> & -> & _).
    clear. unfold sumZ. induction os as [|o os IH]; [done|]. cbn [map foldr].
    assert (hidden o + visible o = o_leaves o) by (unfold hidden, visible; lia). lia.
Qed.
Print Assumptions C35_hidden_visible.
Example C35_example : option_map (fun o => (hidden_q o, visible_q o, o_leaves o)) (get_order 7 (hist ex_ops1)) = Some (20, 10, 30).
Proof. vm_compute. done. Qed.

(** ** C06 refuted: three valid orders whose sum exceeds 2^64-1 make a later DeleteOrder undefined. *)
Theorem C06_overflow_refuted : exists o1 o2 o3,
  let ops := setup ++ [AddOrder o1; AddOrder o2; AddOrder o3; DeleteOrder 3; DeleteOrder 1] in
  validate o1 = OK /\ validate o2 = OK /\ validate o3 = OK /\ order_range o1 /\ order_range o2 /\ order_range o3 /\
  run init ops = Undef.
Proof.
  exists (LimitOrder 1 0 BUY 100 MAX64 GTC MAX64), (LimitOrder 2 0 BUY 100 1 GTC MAX64), (LimitOrder 3 0 BUY 100 5 GTC MAX64).
  cbn zeta. do 3 (split; [vm_compute; reflexivity|]). do 3 (split; [by apply order_rangeb_ok|]). vm_compute. reflexivity.
Qed.
Print Assumptions C06_overflow_refuted.
(** ... and after the second order the level reports volume 0 for two live orders. *)
Theorem C06_aggregate_refuted : exists s b l, run init (setup ++ [BL 1 100 MAX64; BL 2 100 1]) = Ok s /\
  get_book 0 s = Some b /\ find_level 100 (s_lvls (b_bids b)) = Some l /\ l_ids l = [1; 2] /\ li_total (l_info l) = 0.
Proof. eexists _, _, _. split; [vm_compute; reflexivity|]. vm_compute. done. Qed.
Print Assumptions C06_aggregate_refuted.

(** ** C07 refuted: DeleteOrderBook with a live order, book added again, then DeleteOrder. *)
Theorem C07_delete_book_refuted : exists s,
  run init (setup ++ [BL 1 100 10; DeleteOrderBook 0; AddOrderBook (mkSymbol 0 7)]) = Ok s /\
  get_order 1 s <> None /\ step s (DeleteOrder 1) = Undef.
Proof. eexists. split; [vm_compute; reflexivity|]. vm_compute. done. Qed.
Print Assumptions C07_delete_book_refuted.

(** ** C08 refuted: the largest id is undefined behaviour. *)
Theorem C08_all_ids_refuted : step init (AddSymbol (mkSymbol (TWO32 - 1) 0)) = Undef.
Proof. vm_compute. reflexivity. Qed.
Print Assumptions C08_all_ids_refuted.
