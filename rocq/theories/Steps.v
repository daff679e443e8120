(** * Steps.v -- the elementary actions into which every engine run decomposes.

    A configuration is the engine state together with the order that is in flight (being matched
    and not in any book), if there is one.  The relations below say when an action is allowed in
    terms of queues, best levels and prices; Refine*.v proves that the model's functions only
    ever perform these actions. *)
From Coq Require Import ZifyBool.
From stdpp Require Import fin_maps relations.
From Verif Require Import Types Book Engine LevelFacts BookInv EngInv EngPrim.

Definition cfg : Type := eng * option order.

(** [r] is the oldest order of the best level [p] of collection [k]. *)
Definition front (e : eng) (k : kind) (p : Z) (r : order) : Prop :=
  best k e = Some p /\ (exists rest, queue (e_bk e) k p = o_id r :: rest) /\ e_ords e !! o_id r = Some r.

(** One execution of a matching chain at [price]; [tight]: within the limit [price] and, for
    All-Or-None orders, within the remaining volume. *)
Inductive cxstep (tight : bool) (k : kind) (price : Z) : Z * eng -> Z * eng -> Prop :=
| cx_aon v e p r e1 :
    0 < v -> front e k p r -> is_aon r = true ->
    (tight = true -> arb k p price = true /\ o_leaves r <= v) ->
    exec_delete r price (o_leaves r) e = Ok e1 ->
    cxstep tight k price (v, e) (u64 (v - o_leaves r), e1)
| cx_one v e p r e1 :
    0 < v -> front e k p r -> is_aon r = false ->
    (tight = true -> arb k p price = true) ->
    exec_reduce r price (Z.min (o_leaves r) v) e = Ok e1 ->
    cxstep tight k price (v, e) (u64 (v - Z.min (o_leaves r) v), e1).

(** The in-flight order trades. *)
Inductive tstep : eng * order -> eng * order -> Prop :=
| ts_trade e o p r e1 :
    let q := Z.min (o_leaves r) (o_leaves o) in
    front e (opp (o_side o)) p r -> arb (opp (o_side o)) p (o_price o) = true ->
    is_fok o = false -> is_aon o = false -> 0 < o_leaves o ->
    (is_aon r = true -> o_leaves r <= o_leaves o) ->
    exec_reduce r p q e = Ok e1 ->
    tstep (e, o) (exec_note o p q e1, executed q o)
| ts_chain e o e1 :
    is_fok o = true \/ is_aon o = true -> 0 < o_leaves o ->
    rtc (cxstep true (opp (o_side o)) (o_price o)) (o_leaves o, e) (0, e1) ->
    tstep (e, o) (exec_note o (o_price o) (o_leaves o) e1, executed (o_leaves o) o).

(** Conversion of a triggered stop order. *)
Definition converted (o : order) : order :=
  match o_type o with
  | STOP | TRAILING_STOP => to_market o
  | STOP_LIMIT | TRAILING_STOP_LIMIT => to_limit o
  | _ => o
  end.
Definition stop_type (o : order) : bool := negb (is_limit o) && negb (is_market o).
(** No resting limit order of the other side beats the stop price. *)
Definition stop_reached (o : order) (b : book) : Prop :=
  match o_side o with
  | BUY => forall p, queue b KAsk p <> [] -> o_stop o <= p
  | SELL => forall p, queue b KBid p <> [] -> p <= o_stop o
  end.

(** Orders that leave the system when they stop trading. *)
Definition may_vanish (e : eng) (o : order) : Prop :=
  o_leaves o = 0 \/ o_type o = MARKET \/ (o_type o = LIMIT /\ immediate o = true) \/ e_ords e !! o_id o <> None.

Definition pair_exec (x r : order) (e e' : eng) : Prop :=
  exists e1, exec_delete x (o_price x) (o_leaves x) e = Ok e1 /\
             exec_reduce r (o_price x) (o_leaves x) e1 = Ok e'.

(** The last notification announces the order [o] (it was added, modified or converted). *)
Definition announced (e : eng) (o : order) : Prop :=
  exists l, e_log e = l ++ [EAddOrder o] \/ e_log e = l ++ [EUpdateOrder o].
(** The price of a market order is its slippage away from the best price, which is the current one
    as long as nothing happened since the order with this id was announced. *)
Definition priced (e : eng) (o : order) : Prop :=
  exists b, o_price o = market_price o b /\ forall x, announced e x -> o_id x = o_id o -> best (opp (o_side o)) e = Some b.
(** Where matching an order that is neither FOK nor AON ends. *)
Definition blocked (e : eng) (o : order) : Prop :=
  exists p r, front e (opp (o_side o)) p r /\ arb (opp (o_side o)) p (o_price o) = true /\
    is_aon r = true /\ o_leaves o < o_leaves r.
Definition no_counter (e : eng) (o : order) : Prop :=
  forall p, best (opp (o_side o)) e = Some p -> arb (opp (o_side o)) p (o_price o) = false.
Definition settled (e : eng) (o : order) : Prop :=
  o_leaves o = 0 \/ no_counter e o \/ blocked e o.

(** [F]: matching is off; [W]: an order may trade while it is of a stop type. *)
Inductive mstep (F W : Prop) : cfg -> cfg -> Prop :=
| ms_trade e o e' o' : tstep (e, o) (e', o') -> (stop_type o = false \/ W) -> (o_type o = MARKET -> priced e o) ->
    mstep F W (e, Some o) (e', Some o')
| ms_mprice e o p :
    o_type o = MARKET -> best (opp (o_side o)) e = Some p -> announced e o ->
    mstep F W (e, Some o) (e, Some (set_price (market_price o p) o))
| ms_trigger e o :
    stop_type o = true -> stop_reached o (e_bk e) -> 0 < o_leaves o ->
    mstep F W (e, Some o) (emit (EUpdateOrder (converted o)) e, Some (converted o))
| ms_rest e o :
    e_ords e !! o_id o = None -> 0 < o_leaves o -> o_type o <> MARKET ->
    (o_type o = LIMIT -> immediate o = false) -> (o_type o = LIMIT -> is_aon o = false -> F \/ settled e o) ->
    mstep F W (e, Some o) (eng_add o (put o e), None)
| ms_done e o :
    may_vanish e o -> mstep F W (e, Some o) (emit (EDeleteOrder o) e, None)
| ms_pair e b a bp ap x r e' :
    best KBid e = Some bp -> best KAsk e = Some ap -> ap <= bp ->
    o_id b ∈ queue (e_bk e) KBid bp -> e_ords e !! o_id b = Some b ->
    o_id a ∈ queue (e_bk e) KAsk ap -> e_ords e !! o_id a = Some a ->
    is_aon b = false -> is_aon a = false ->
    (x = b /\ r = a \/ x = a /\ r = b) -> o_leaves x <= o_leaves r ->
    pair_exec x r e e' ->
    mstep F W (e, None) (e', None)
| ms_pchain e b a bp ap x k1 k2 v v1 e1 v2 e' :
    best KBid e = Some bp -> best KAsk e = Some ap -> ap <= bp ->
    o_id b ∈ queue (e_bk e) KBid bp -> e_ords e !! o_id b = Some b ->
    o_id a ∈ queue (e_bk e) KAsk ap -> e_ords e !! o_id a = Some a ->
    is_aon x = true -> 0 < v < TWO64 -> (x = b /\ k1 = KBid /\ k2 = KAsk \/ x = a /\ k1 = KAsk /\ k2 = KBid) ->
    rtc (cxstep false k1 (o_price x)) (v, e) (v1, e1) ->
    rtc (cxstep false k2 (o_price x)) (v, e1) (v2, e') ->
    mstep F W (e, None) (e', None)
| ms_take e o e1 :
    e_ords e !! o_id o = Some o -> o_sym o = sid_of (e_bk e) -> stop_type o = true -> stop_reached o (e_bk e) ->
    eng_sub_delete o e = Ok e1 ->
    mstep F W (e, None) (emit (EUpdateOrder (converted o)) (drop_id (o_id o) e1), Some (converted o))
| ms_trail e o e1 :
    let o' := retrail (calc_trailing o (e_bk e)) o in
    e_ords e !! o_id o = Some o -> o_sym o = sid_of (e_bk e) ->
    is_trailing o = true -> calc_trailing o (e_bk e) <> o_stop o ->
    eng_sub_delete o e = Ok e1 ->
    mstep F W (e, None) (eng_add o' (put o' (emit (EUpdateOrder o') e1)), None)
| ms_trailprice e s :
    mstep F W (e, None) (set_bk (match s with
                             | BUY => set_trail_ask (trailing_market_ask (e_bk e)) (e_bk e)
                             | SELL => set_trail_bid (trailing_market_bid (e_bk e)) (e_bk e)
                             end) e, None).

(** ** Well-formed configurations *)
Record fly_ok (sid : Z) (m : gmap Z order) (o : order) : Prop := {
  fl_sym : o_sym o = sid;
  fl_id : 0 < o_id o;
  fl_leaves : 0 <= o_leaves o;
  fl_total : total m + o_leaves o < TWO64;
  fl_maxvis : 0 <= o_maxvis o;
  fl_exec : u64_range (o_exec o);
  fl_price : u64_range (o_price o);
  fl_stop : u64_range (o_stop o);
  fl_slip : u64_range (o_slip o);
  fl_trail : trailing_ok o;
}.
Definition cfg_ok (sid : Z) (c : cfg) : Prop :=
  eng_ok sid (fst c) /\ match snd c with Some o => fly_ok sid (e_ords (fst c)) o | None => True end.

(** Orders of other symbols are untouched; what is there was there or is new in this symbol. *)
Definition frame (sid : Z) (m m' : gmap Z order) : Prop :=
  forall i o, o_sym o <> sid -> (m !! i = Some o <-> m' !! i = Some o).
Lemma frame_refl sid m : frame sid m m.
Proof. done. Qed.
Lemma frame_trans sid m1 m2 m3 : frame sid m1 m2 -> frame sid m2 m3 -> frame sid m1 m3.
Proof. intros H1 H2 i o Ho. by rewrite (H1 i o Ho), (H2 i o Ho). Qed.
Lemma frame_delete sid m i o : m !! i = Some o -> o_sym o = sid -> frame sid m (delete i m).
Proof.
  intros Hi Ho j x Hx. destruct (decide (i = j)) as [->|Hne].
  - rewrite lookup_delete. split; [intros Hj|done]. congruence.
  - by rewrite lookup_delete_ne.
Qed.
Lemma frame_update sid m i o o' : m !! i = Some o -> o_sym o = sid -> o_sym o' = sid ->
  frame sid m (<[i:=o']> m).
Proof.
  intros Hi Ho Ho' j x Hx. destruct (decide (i = j)) as [->|Hne].
  - rewrite lookup_insert. split; intros; congruence.
  - by rewrite lookup_insert_ne.
Qed.
Lemma frame_insert sid m i o' : m !! i = None -> o_sym o' = sid -> frame sid m (<[i:=o']> m).
Proof.
  intros Hi Ho' j x Hx. destruct (decide (i = j)) as [->|Hne].
  - rewrite lookup_insert. split; intros; congruence.
  - by rewrite lookup_insert_ne.
Qed.
Lemma frame_reduced sid m o o' : m !! o_id o = Some o -> o_sym o = sid -> o_sym o' = sid -> o_id o' = o_id o ->
  frame sid m (reduced_map m o').
Proof.
  intros Hi Ho Ho' E. unfold reduced_map. rewrite E. destruct (_ =? 0).
  - by eapply frame_delete. - by eapply frame_update.
Qed.

(** ** Counting *)
Definition nstops (m : gmap Z order) : nat := size (filter (fun x => o_type (snd x) <> LIMIT) m).
Lemma nstops_le m : (nstops m <= size m)%nat.
Proof.
  unfold nstops. rewrite <- !size_dom. apply subseteq_size.
  apply dom_filter_subseteq.
Qed.
Lemma nstops_insert m i o : m !! i = None ->
  nstops (<[i:=o]> m) = (nstops m + (if is_limit o then 0 else 1))%nat.
Proof.
  intros Hi. unfold nstops, is_limit. case_bool_decide as Hl.
  - rewrite map_filter_insert_False by (cbn; tauto). rewrite delete_notin by done. lia.
  - rewrite map_filter_insert_True by done. rewrite map_size_insert_None; [lia|].
    apply map_filter_lookup_None. by left.
Qed.
Lemma nstops_delete m i o : m !! i = Some o ->
  nstops m = (nstops (delete i m) + (if is_limit o then 0 else 1))%nat.
Proof.
  intros Hi. rewrite <- (nstops_insert (delete i m) i o) by apply lookup_delete.
  by rewrite insert_delete.
Qed.
Lemma nstops_update m i o o' : m !! i = Some o -> o_type o' = o_type o -> nstops (<[i:=o']> m) = nstops m.
Proof.
  intros Hi Ht. rewrite <- insert_delete_insert, nstops_insert by apply lookup_delete.
  rewrite (nstops_delete m i o Hi). f_equal. unfold is_limit. by rewrite Ht.
Qed.
Lemma size_delete (m : gmap Z order) (i : Z) (o : order) : m !! i = Some o -> size m = S (size (delete i m)).
Proof. intros Hi. rewrite map_size_delete, Hi. assert (size m <> 0%nat); [|lia]. intros H. apply map_size_empty_iff in H. subst. by rewrite lookup_empty in Hi. Qed.
Lemma size_reduced m o o' : m !! o_id o = Some o -> o_id o' = o_id o ->
  (size (reduced_map m o') <= size m)%nat.
Proof.
  intros Hi E. unfold reduced_map. rewrite E. destruct (_ =? 0).
  - rewrite (size_delete m _ _ Hi). lia.
  - rewrite map_size_insert_Some by eauto. lia.
Qed.
Lemma nstops_reduced m o o' : m !! o_id o = Some o -> o_id o' = o_id o -> o_type o' = o_type o ->
  (nstops (reduced_map m o') <= nstops m)%nat.
Proof.
  intros Hi E Ht. unfold reduced_map. rewrite E. destruct (_ =? 0).
  - rewrite (nstops_delete m _ _ Hi). lia.
  - by erewrite nstops_update.
Qed.
Lemma total_reduced m o o' : m !! o_id o = Some o -> o_id o' = o_id o ->
  total (reduced_map m o') = total m - o_leaves o + o_leaves o'.
Proof.
  intros Hi E. unfold reduced_map. rewrite E. destruct (Z.eqb_spec (o_leaves o') 0) as [Ez|Ez].
  - rewrite (total_delete m _ _ Hi). lia.
  - by erewrite total_update.
Qed.

(** ** Fronts *)
Lemma queue_facts sid e k p i : eng_ok sid e -> i ∈ queue (e_bk e) k p ->
  exists r, e_ords e !! i = Some r /\ o_id r = i /\ o_sym r = sid /\ okind r = k /\ okey r = p /\ live_ok i r.
Proof.
  intros [Hm Hb] Hi. apply (queue_in _ _ _ _ _ _ Hb) in Hi as (r & Hr & ? & ? & ?).
  pose proof (mo_live _ Hm _ _ Hr) as Hl. exists r. repeat (split; [done || by eapply lo_id|]). done.
Qed.
Lemma front_facts sid e k p r : eng_ok sid e -> front e k p r ->
  o_sym r = sid /\ okind r = k /\ okey r = p /\ live_ok (o_id r) r /\ e_ords e !! o_id r = Some r.
Proof.
  intros He (_ & (rest & Hq) & Hr).
  destruct (queue_facts sid e k p (o_id r) He) as (r' & Hr' & ? & ? & ? & ? & ?).
  { rewrite Hq. left. }
  assert (r' = r) by congruence. subst. done.
Qed.
Lemma okind_bid_ask r s : o_type r <> MARKET -> okind r = opp s ->
  o_type r = LIMIT /\ okey r = o_price r /\ o_side r <> s.
Proof. unfold okind, okey, opp. intros Ht. destruct (o_type r), (o_side r), s; cbn; try done; congruence. Qed.
Lemma best_char m sid b k p : book_ok m sid b ->
  s_best (get_side k b) = Some p <->
  (queue b k p <> [] /\ forall q, queue b k q <> [] -> q = p \/ better k p q = true).
Proof.
  intros Hb. split; [by eapply best_some|].
  intros [Hp Hall]. destruct (best_exists _ _ _ _ _ Hb Hp) as (q & Hq & Hc).
  rewrite Hq. f_equal. destruct (best_some _ _ _ _ _ Hb Hq) as [Hqn _].
  destruct (Hall q Hqn) as [?|Hbet]; [done|]. destruct Hc as [?|Hc]; [done|].
  apply better_asym in Hc. congruence.
Qed.
