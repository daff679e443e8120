(** * StateInv.v -- the invariant of the whole market manager, its preservation, and totality of
    every API call under the stated guards. *)
From Coq Require Import ZifyBool.
From stdpp Require Import fin_maps relations.
From Verif Require Import Types Book Engine Manager LevelFacts BookInv EngInv EngPrim Steps StepsOk Refine1 Refine2 Refine3 Refine4 Api Validate.

(** ** Vectors *)
Section vec.
Context {A : Type}.
Implicit Types (v : vec A) (i j n : Z) (x : option A).
Lemma vget_Some i v x : vget i v = Some x <-> 0 <= i /\ v !! Z.to_nat i = Some x.
Proof.
  unfold vget, vsize. destruct (Z.leb_spec 0 i); cbn; [|naive_solver lia].
  destruct (Z.ltb_spec i (Z.of_nat (length v))); cbn; [naive_solver|].
  split; [done|]. intros [_ Hl]. apply lookup_lt_Some in Hl. lia.
Qed.
Lemma vget_vset i x v j : i <> j -> 0 <= i -> vget j (vset i x v) = vget j v.
Proof.
  intros Hne Hi. unfold vget, vset, vsize, vec in *. rewrite insert_length.
  destruct (_ && _) eqn:E; [|done]. rewrite list_lookup_insert_ne by lia. done.
Qed.
Lemma vget_vset_eq i x v : vget i v <> None -> vget i (vset i x v) = Some x.
Proof.
  unfold vget, vset, vsize, vec in *. rewrite insert_length. destruct (_ && _) eqn:E; [|done]. intros _.
  rewrite list_lookup_insert by lia. done.
Qed.
Lemma vfind_vset i x v j : 0 <= i -> vget i v <> None ->
  vfind j (vset i x v) = if decide (i = j) then x else vfind j v.
Proof.
  intros Hi Hg. unfold vfind. destruct (decide (i = j)) as [<-|Hne].
  - by rewrite vget_vset_eq. - by rewrite vget_vset.
Qed.
Lemma vfind_get i v a : vfind i v = Some a -> vget i v <> None /\ 0 <= i.
Proof.
  unfold vfind, vget. destruct (Z.leb_spec 0 i); cbn; [|done]. destruct (_ <? _); [|done].
  intros H'. split; [|done]. by destruct (v !! Z.to_nat i).
Qed.
(** growing a vector with null pointers does not change what is found *)
Lemma vresize_grow n v : vsize v <= n -> 
  vsize (vresize n v) = n /\ (forall j, vfind j (vresize n v) = vfind j v) /\
  (forall j, 0 <= j < n -> vget j (vresize n v) <> None).
Proof.
  intros Hn. unfold vsize in Hn.
  assert (E : vresize n v = v ++ replicate (Z.to_nat n - length v) None).
  { unfold vresize, vsize, vec in *. destruct (Z.ltb_spec (Z.of_nat (length v)) n); [done|].
    rewrite firstn_all2 by lia. replace (Z.to_nat n - length v)%nat with 0%nat by lia. by rewrite app_nil_r. }
  rewrite E. clear E.
  assert (Hl : vsize (v ++ replicate (Z.to_nat n - length v) None) = n).
  { unfold vsize. rewrite app_length, replicate_length. lia. }
  split; [done|]. split.
  - intros j. unfold vfind, vget. rewrite Hl. unfold vsize, vec in *.
    destruct (Z.leb_spec 0 j); cbn; [|done].
    destruct (Z.ltb_spec j (Z.of_nat (length v))).
    + rewrite (proj2 (Z.ltb_lt j n)) by lia. rewrite lookup_app_l by lia. done.
    + destruct (Z.ltb_spec j n); [|done]. rewrite lookup_app_r by lia.
      rewrite lookup_replicate_2 by lia. done.
  - intros j Hj. unfold vget. rewrite Hl. rewrite (proj2 (Z.leb_le 0 j)), (proj2 (Z.ltb_lt j n)) by lia. cbn. unfold vec in *.
    assert (is_Some ((v ++ replicate (Z.to_nat n - length v) None) !! Z.to_nat j)) as [y ->]; [|done].
    apply lookup_lt_is_Some. rewrite app_length, replicate_length. lia.
Qed.
End vec.

(** ** The invariant *)
Record inv (s : state) : Prop := {
  iv_map : map_ok (st_ords s);
  iv_book : forall i b, get_book i s = Some b -> book_ok (st_ords s) i b;
  iv_home : forall i o, st_ords s !! i = Some o -> get_book (o_sym o) s <> None;
  iv_sym : forall i sy, get_symbol i s = Some sy -> sy_id sy = i;
}.

(** The same without a home for every order: what is left when order books are deleted under live orders. *)
Record loose (s : state) : Prop := {
  ls_map : map_ok (st_ords s);
  ls_book : forall i b, get_book i s = Some b -> book_ok (st_ords s) i b;
  ls_sym : forall i sy, get_symbol i s = Some sy -> sy_id sy = i;
}.
Lemma inv_loose s : inv s -> loose s.
Proof. by intros []. Qed.
Coercion inv_loose : inv >-> loose.

(** ** Engine states of the manager *)
Definition eng_of (b : book) (s : state) : eng := mkEng b (st_ords s) (st_log s).
Definition put_eng (sid : Z) (e : eng) (s : state) : state :=
  mkState (st_syms s) (vset sid (Some (e_bk e)) (st_books s)) (e_ords e) (st_match s) (e_log e).

Lemma inv_eng s sid b : loose s -> get_book sid s = Some b -> eng_ok sid (eng_of b s).
Proof. intros [] Hb. split; [done|]. by apply ls_book0. Qed.
Lemma book_ok_frame m m' sid j b : frame sid m m' -> sid <> j -> book_ok m j b -> book_ok m' j b.
Proof.
  intros Hf Hne Hb. constructor.
  - by eapply bk_id.
  - intros k. pose proof (bk_side _ _ _ Hb k) as Hs. eapply side_ok_ext; [|exact Hs].
    intros p i Hi. destruct (side_ok_in _ _ _ _ _ _ Hs Hi) as (o & Ho & Hos & _).
    rewrite Ho. symmetry. apply (Hf i o); [congruence|done].
  - intros i o Hi Ho. apply (Hf i o) in Hi; [|congruence]. by eapply bk_full.
Qed.
Lemma get_book_put sid e s j b0 : get_book sid s = Some b0 ->
  get_book j (put_eng sid e s) = if decide (sid = j) then Some (e_bk e) else get_book j s.
Proof.
  intros Hb. unfold get_book. cbn. apply vfind_get in Hb as [Hg Hi]. by apply vfind_vset.
Qed.
Lemma put_inv s sid b e : inv s -> get_book sid s = Some b -> eng_ok sid e ->
  frame sid (st_ords s) (e_ords e) -> inv (put_eng sid e s).
Proof.
  intros [Hm Hbk Hh Hsy] Hb [Hem Heb] Hf. constructor.
  - done.
  - intros j b' Hj. rewrite (get_book_put _ _ _ _ _ Hb) in Hj. destruct (decide (sid = j)) as [<-|Hne].
    + injection Hj as <-. done.
    + cbn. eapply book_ok_frame; [done|done|]. by apply Hbk.
  - intros i o Hi. rewrite (get_book_put _ _ _ _ _ Hb). destruct (decide (sid = o_sym o)) as [E|Hne]; [done|].
    cbn in Hi. apply (Hf i o) in Hi; [|congruence]. by eapply Hh.
  - exact Hsy.
Qed.

(** ** Frames of whole calls *)
Lemma ending_frame {W} mt sid c e' er : ending W mt sid c e' er -> cfg_ok sid c -> frame sid (e_ords (fst c)) (e_ords e').
Proof.
  intros Hend Hc. inversion Hend as [e1 e2 H1 H2 _ _ He2 ->|e1 o o1 Ho Hfl _ _ _ _ He1 ->]; subst.
  - cbn. assert (rtc (mstep (mt = false) W) c (e2, None)) as Hr.
    { destruct H1 as [->|(c1 & Hfl & _ & _ & Hl)]; [done|]. eapply rtc_transitive; [by apply fsteps_msteps|]. by eapply rtc_l. }
    by destruct (msteps_ok sid _ _ Hr Hc).
  - cbn. by destruct (msteps_ok sid _ _ (fsteps_msteps _ _ Hfl) Hc).
Qed.

(** The head action of each order operation. *)
Inductive head (e : eng) : op -> cfg -> Prop :=
| hd_add o : validate o = OK -> head e (AddOrder o) (emit (EAddOrder (placed o (e_bk e))) e, Some (placed o (e_bk e)))
| hd_reduce i q o e1 : e_ords e !! i = Some o -> 0 < q -> reduce_order o q e = Ok e1 -> head e (ReduceOrder i q) (e1, None)
| hd_modify i p q o e1 : e_ords e !! i = Some o -> 0 < q -> eng_sub_delete o e = Ok e1 ->
    head e (ModifyOrder i p q) (modify_head (modified false p q o) (drop_id i e1), Some (modified false p q o))
| hd_mitigate i p q o e1 : e_ords e !! i = Some o -> 0 < q -> eng_sub_delete o e = Ok e1 ->
    head e (MitigateOrder i p q) (modify_head (modified true p q o) (drop_id i e1), Some (modified true p q o))
| hd_replace i ni p q o e1 : e_ords e !! i = Some o -> 0 < q -> 0 < ni -> o_type o = LIMIT -> delete_order o e = Ok e1 ->
    head e (ReplaceOrder i ni p q) (emit (EAddOrder (replaced ni p q o)) e1, Some (replaced ni p q o))
| hd_delete i o e1 : e_ords e !! i = Some o -> delete_order o e = Ok e1 -> head e (DeleteOrder i) (e1, None)
| hd_execute i q o e1 : e_ords e !! i = Some o -> 0 < q -> execute_head o (o_price o) q e = Ok e1 ->
    head e (ExecuteOrder i q) (e1, None)
| hd_execute_at i p q o e1 : e_ords e !! i = Some o -> 0 < q -> execute_head o p q e = Ok e1 ->
    head e (ExecuteOrderAt i p q) (e1, None).

(** The symbol an order operation works on. *)
Definition target (s : state) (a : op) : option Z :=
  match a with
  | AddOrder o => Some (o_sym o)
  | ReduceOrder i _ | ModifyOrder i _ _ | MitigateOrder i _ _ | ReplaceOrder i _ _ _ | ReplaceWith i _
  | DeleteOrder i | ExecuteOrder i _ | ExecuteOrderAt i _ _ => o_sym <$> (st_ords s !! i)
  | _ => None
  end.
Definition order_op (a : op) : bool :=
  match a with
  | AddOrder _ | ReduceOrder _ _ | ModifyOrder _ _ _ | MitigateOrder _ _ _ | ReplaceOrder _ _ _ _
  | DeleteOrder _ | ExecuteOrder _ _ | ExecuteOrderAt _ _ _ => true
  | _ => false
  end.

Lemma validate_ok o : validate o = OK -> order_range o ->
  0 < o_id o /\ 0 < o_leaves o /\ o_leaves o <= o_qty o /\ trailing_ok o /\
  (o_type o = MARKET -> immediate o = true).
Proof.
  intros Hv Hr. pose proof (validate_spec o Hr) as (_ & _ & _ & Hs). apply Hs in Hv as (Hi & Hq & Hp). clear Hs.
  destruct Hr as (Hid & _ & _ & _ & _ & _ & _ & _ & _ & Hd & _).
  unfold quantity_rule, u64_range, i64_range in *. split; [lia|]. split; [lia|]. split; [lia|].
  unfold parameter_rule, trailing_rule, trailing_ok, immediate, is_ioc, is_fok in *.
  destruct (o_type o); (split; [|try done]); try (intros [?|?]; done); try (intros _; lia).
  intros _. destruct Hp as [[-> | ->] _]; done.
Qed.

Lemma head_cfg s sid b a c : loose s -> get_book sid s = Some b -> op_ok s a -> target s a = Some sid ->
  (forall o, a = AddOrder o -> validate o = OK) ->
  head (eng_of b s) a c -> cfg_ok sid c /\ frame sid (st_ords s) (e_ords (fst c)).
Proof.
  intros Hinv Hb Hop Htg Hval Hhd. pose proof (inv_eng s sid b Hinv Hb) as He.
  inversion Hhd as [o Hvo|i q o e1 Ho Hq Hr|i p q o e1 Ho Hq Hr|i p q o e1 Ho Hq Hr|i ni p q o e1 Ho Hq Hni Hty Hr|i o e1 Ho Hr|i q o e1 Ho Hq Hr|i p q o e1 Ho Hq Hr]; subst; cbn in Htg.
  { injection Htg as Hs. destruct Hop as [Hrg Htot]. 
    destruct (validate_ok o (Hval o eq_refl) Hrg) as (Hid & Hlv & _ & Htr & _).
    split; [|done]. split; [by apply emit_ok|]. cbn. apply placed_fly.
    destruct Hrg as (? & ? & ? & ? & ? & ? & ? & ? & ? & _). constructor; try done; unfold u64_range in *; lia. }
  all: cbn in Ho; rewrite Ho in Htg; injection Htg as Hs;
       pose proof (mo_live _ (ls_map _ Hinv) _ _ Ho) as Hl; pose proof (lo_id _ _ Hl) as Eid; subst i.
  - destruct (reduce_order_ok sid (eng_of b s) o q He Ho Hs Hq) as (u & e1' & Heq & He1 & Hords & _).
    rewrite Hr in Heq. injection Heq as <-. split; [by split|]. cbn. rewrite Hords. by eapply frame_reduced.
  - destruct Hop as (_ & Hp & _ & Htot). 
    destruct (modify_order_ok (W := True) false false sid (eng_of b s) o p q He Ho Hs Hp Hq Htot ltac:(by right)) as (e1' & e' & er & Heq & _ & He1 & Hend & _).
    rewrite Hr in Heq. injection Heq as <-.
    destruct (eng_del_ok sid (eng_of b s) o He Ho Hs) as (u & e2 & Heq2 & Hords & _).
    rewrite Hr in Heq2. injection Heq2 as <-.
    assert (Ho' : e_ords (modify_head (modified false p q o) (drop_id (o_id o) e1)) = delete (o_id o) (st_ords s)).
    { unfold modify_head. destruct (_ <? _); cbn; by rewrite Hords. }
    split.
    + split. { unfold modify_head. destruct (_ <? _); [by apply emit_ok|done]. }
      cbn [fst snd]. rewrite Ho'. destruct Hl. constructor; cbn; try done; lia.
    + cbn [fst snd]. rewrite Ho'. by eapply frame_delete.
  - destruct Hop as (_ & Hp & _ & Htot). 
    destruct (modify_order_ok (W := True) false true sid (eng_of b s) o p q He Ho Hs Hp Hq Htot ltac:(by right)) as (e1' & e' & er & Heq & _ & He1 & Hend & _).
    rewrite Hr in Heq. injection Heq as <-.
    destruct (eng_del_ok sid (eng_of b s) o He Ho Hs) as (u & e2 & Heq2 & Hords & _).
    rewrite Hr in Heq2. injection Heq2 as <-.
    assert (Ho' : e_ords (modify_head (modified true p q o) (drop_id (o_id o) e1)) = delete (o_id o) (st_ords s)).
    { unfold modify_head. destruct (_ <? _); cbn; by rewrite Hords. }
    split.
    + split. { unfold modify_head. destruct (_ <? _); [by apply emit_ok|done]. }
      cbn [fst snd]. rewrite Ho'. destruct Hl. unfold u64_range in lo_exec.
      constructor; cbn; try done; destruct (Z.ltb_spec (o_exec o) q); lia.
    + cbn [fst snd]. rewrite Ho'. by eapply frame_delete.
  - destruct Hop as (_ & _ & Hp & _ & Htot).
    destruct (replace_order_ok (W := True) false sid (eng_of b s) o ni p q He Ho Hs Hty Hni Hp Hq Htot) as (e1' & e' & er & Heq & _ & He1 & Hf & _).
    rewrite Hr in Heq. injection Heq as <-.
    destruct (delete_order_ok sid (eng_of b s) o He Ho Hs) as (u & e2 & Heq2 & _ & Hords & _).
    rewrite Hr in Heq2. injection Heq2 as <-.
    split; [split; [by apply emit_ok|done]|]. cbn. rewrite Hords. by eapply frame_delete.
  - destruct (delete_order_ok sid (eng_of b s) o He Ho Hs) as (u & e2 & Heq2 & He2 & Hords & _).
    rewrite Hr in Heq2. injection Heq2 as <-. split; [by split|]. cbn. rewrite Hords. by eapply frame_delete.
  - destruct (execute_head_ok sid (eng_of b s) o (o_price o) q He Ho Hs Hq) as (u & e2 & Heq2 & He2 & Hords & _).
    rewrite Hr in Heq2. injection Heq2 as <-. split; [by split|]. cbn. rewrite Hords. by eapply frame_reduced.
  - destruct (execute_head_ok sid (eng_of b s) o p q He Ho Hs Hq) as (u & e2 & Heq2 & He2 & Hords & _).
    rewrite Hr in Heq2. injection Heq2 as <-. split; [by split|]. cbn. rewrite Hords. by eapply frame_reduced.
Qed.

(** ModifyOrder / MitigateOrder of an order of a stop type. *)
Definition mod_stop (s : state) (a : op) : Prop :=
  exists i p q o, (a = ModifyOrder i p q \/ a = MitigateOrder i p q) /\ st_ords s !! i = Some o /\ stop_type o = true.
(** One order operation: rejected without effect, or head action + elementary actions. *)
Inductive outcome (s : state) (a : op) : state -> err -> Prop :=
| out_reject er : er <> OK -> er <> ORDER_DUPLICATE -> outcome s a s er
| out_run sid b c e' er :
    get_book sid s = Some b -> target s a = Some sid -> head (eng_of b s) a c -> cfg_ok sid c ->
    frame sid (st_ords s) (e_ords (fst c)) -> ending (mod_stop s a) (st_match s) sid c e' er ->
    outcome s a (put_eng sid e' s) er.

Lemma on_book_run {B} i b (f : eng -> res (eng * B)) s e r : f (eng_of b s) = Ok (e, r) -> on_book i b f s = Ok (put_eng i e s, r).
Proof. intros H. unfold on_book. unfold eng_of in H. rewrite H. done. Qed.
Lemma with_order_outcome s a i f : loose s -> target s a = o_sym <$> (st_ords s !! i) -> op_ok s a ->
  (forall o, a <> AddOrder o) ->
  (forall o b, st_ords s !! i = Some o -> o_id o = i -> get_book (o_sym o) s = Some b -> eng_ok (o_sym o) (eng_of b s) ->
     exists c e' er, head (eng_of b s) a c /\ f o (eng_of b s) = Ok (e', er) /\ ending (mod_stop s a) (st_match s) (o_sym o) c e' er) ->
  exists s' er, with_order i f s = Ok (s', er) /\ outcome s a s' er.
Proof.
  intros Hinv Htg Hop Hna Hf. unfold with_order. destruct (st_ords s !! i) as [o|] eqn:Ho.
  2: { eexists _, _. split; [reflexivity|]. by apply out_reject. }
  destruct (get_book (o_sym o) s) as [b|] eqn:Hb; [|eexists _, _; split; [reflexivity|]; by apply out_reject].
  pose proof (mo_live _ (ls_map _ Hinv) _ _ Ho) as Hl.
  destruct (Hf o b eq_refl (lo_id _ _ Hl) Hb (inv_eng _ _ _ Hinv Hb)) as (c & e' & er & Hhd & Heq & Hend).
  exists (put_eng (o_sym o) e' s), er. split; [by apply on_book_run|].
  destruct (head_cfg s (o_sym o) b a c Hinv Hb Hop Htg) as [Hc Hfr]; try done.
  { intros o' E. by destruct (Hna o'). }
  by eapply out_run.
Qed.
Lemma check_id_outcome s a i k : (0 < i -> exists s' er, k = Ok (s', er) /\ outcome s a s' er) -> 0 <= i ->
  exists s' er, check_id i s k = Ok (s', er) /\ outcome s a s' er.
Proof.
  intros Hk Hi. unfold check_id. destruct (Z.eqb_spec i 0); [|apply Hk; lia].
  eexists _, _. split; [reflexivity|]. by apply out_reject.
Qed.
Lemma check_qty_outcome s a q k : (0 < q -> exists s' er, k = Ok (s', er) /\ outcome s a s' er) -> 0 <= q ->
  exists s' er, check_qty q s k = Ok (s', er) /\ outcome s a s' er.
Proof.
  intros Hk Hi. unfold check_qty. destruct (Z.eqb_spec q 0); [|apply Hk; lia].
  eexists _, _. split; [reflexivity|]. by apply out_reject.
Qed.

Theorem order_op_ok s a : loose s -> op_ok s a -> order_op a = true ->
  exists s' er, step s a = Ok (s', er) /\ outcome s a s' er.
Proof.
  intros Hinv Hop Hord. destruct a as [sy|i|sy|i|o|i q|i p q|i p q|i ni p q|i o|i|i q|i p q| | |]; try done; cbn [step]; cbn in Hop.
  - (* add *) unfold api_add. pose proof (validate_codes o) as Hcodes. destruct (validate o) eqn:Ev; try (eexists _, _; split; [reflexivity|]; apply out_reject; [done|by naive_solver]).
    destruct (get_book (o_sym o) s) as [b|] eqn:Hb.
    2: { eexists _, _. split; [reflexivity|]. by apply out_reject. }
    pose proof (inv_eng s _ b Hinv Hb) as He. 
    assert (Hval : forall o', AddOrder o = AddOrder o' -> validate o' = OK) by (by intros ? [= <-]).
    destruct (head_cfg s (o_sym o) b (AddOrder o) _ Hinv Hb Hop eq_refl Hval (hd_add _ o Ev)) as [Hc Hfr].
    destruct Hop as [Hrg Htot]. destruct (validate_ok o Ev Hrg) as (Hid & Hlv & _ & Htr & _).
    assert (Hf : fly_ok (o_sym o) (e_ords (eng_of b s)) o).
    { destruct Hrg as (? & ? & ? & ? & ? & ? & ? & ? & ? & _). constructor; try done; unfold u64_range in *; lia. }
    destruct (add_order_ok (W := mod_stop s (AddOrder o)) (st_match s) (o_sym o) (eng_of b s) o He Hf Hlv) as (e' & er & Heq & Hend).
    exists (put_eng (o_sym o) e' s), er. split; [by apply on_book_run|].
    eapply out_run; [done|done|by apply hd_add|exact Hc|exact Hfr|exact Hend].
  - destruct Hop as [Hi Hq]. unfold api_reduce. apply check_id_outcome; [|apply Hi]. intros Hi0. apply check_qty_outcome; [|apply Hq]. intros Hq0.
    apply with_order_outcome; try done. intros o b Ho Hid Hb He. 
    destruct (api_reduce_ok (W := mod_stop s (ReduceOrder i q)) (st_match s) (o_sym o) (eng_of b s) o q He) as (e1 & e' & er & H1 & H2 & H3); try done. { by rewrite Hid. }
    exists (e1, None), e', er. split; [by eapply hd_reduce|done].
  - pose proof Hop as (Hi & Hp & Hq & Htot). unfold api_modify. apply check_id_outcome; [|apply Hi]. intros Hi0. apply check_qty_outcome; [|apply Hq]. intros Hq0.
    apply with_order_outcome; try done. intros o b Ho Hid Hb He. subst i.
    destruct (modify_order_ok (W := mod_stop s (ModifyOrder (o_id o) p q)) (st_match s) false (o_sym o) (eng_of b s) o p q He) as (e1 & e' & er & H1 & H2 & H3 & H4 & H5); try done.
    { destruct (stop_type o) eqn:Est; [right; exists (o_id o), p, q, o; auto|by left]. }
    eexists _, e', er. split; [by eapply hd_modify|done].
  - pose proof Hop as (Hi & Hp & Hq & Htot). unfold api_modify. apply check_id_outcome; [|apply Hi]. intros Hi0. apply check_qty_outcome; [|apply Hq]. intros Hq0.
    apply with_order_outcome; try done. intros o b Ho Hid Hb He. subst i.
    destruct (modify_order_ok (W := mod_stop s (MitigateOrder (o_id o) p q)) (st_match s) true (o_sym o) (eng_of b s) o p q He) as (e1 & e' & er & H1 & H2 & H3 & H4 & H5); try done.
    { destruct (stop_type o) eqn:Est; [right; exists (o_id o), p, q, o; auto|by left]. }
    eexists _, e', er. split; [by eapply hd_mitigate|done].
  - pose proof Hop as (Hi & Hni & Hp & Hq & Htot). unfold api_replace. apply check_id_outcome; [|apply Hi]. intros Hi0. apply check_id_outcome; [|apply Hni]. intros Hni0. apply check_qty_outcome; [|apply Hq]. intros Hq0.
    destruct (st_ords s !! i) as [o0|] eqn:Ho0. 2: { eexists _, _. split; [reflexivity|]. by apply out_reject. }
    destruct (is_limit o0) eqn:El; cbn [negb]. 2: { eexists _, _. split; [reflexivity|]. by apply out_reject. }
    assert (Hty : o_type o0 = LIMIT) by (unfold is_limit in El; by apply bool_decide_eq_true in El).
    apply with_order_outcome; try done. intros o b Ho Hid Hb He. rewrite Ho0 in Ho. injection Ho as ->. subst i.
    destruct (replace_order_ok (W := mod_stop s (ReplaceOrder (o_id o) ni p q)) (st_match s) (o_sym o) (eng_of b s) o ni p q He) as (e1 & e' & er & H1 & H2 & H3 & H4 & H5); try done.
    eexists _, e', er. split; [by eapply hd_replace|done].
  - unfold api_delete. apply check_id_outcome; [|apply Hop]. intros Hi0.
    apply with_order_outcome; try done. intros o b Ho Hid Hb He. 
    destruct (api_delete_ok (W := mod_stop s (DeleteOrder i)) (st_match s) (o_sym o) (eng_of b s) o He) as (e1 & e' & er & H1 & H2 & H3); try done. { by rewrite Hid. }
    exists (e1, None), e', er. split; [by eapply hd_delete|done].
  - destruct Hop as [Hi Hq]. unfold api_execute. apply check_id_outcome; [|apply Hi]. intros Hi0. apply check_qty_outcome; [|apply Hq]. intros Hq0.
    apply with_order_outcome; try done. intros o b Ho Hid Hb He. 
    destruct (api_execute_ok (W := mod_stop s (ExecuteOrder i q)) (st_match s) (o_sym o) (eng_of b s) o (o_price o) q He) as (e1 & e' & er & H1 & H2 & H3); try done. { by rewrite Hid. }
    exists (e1, None), e', er. split; [by eapply hd_execute|done].
  - destruct Hop as (Hi & Hp & Hq). unfold api_execute_at. apply check_id_outcome; [|apply Hi]. intros Hi0. apply check_qty_outcome; [|apply Hq]. intros Hq0.
    apply with_order_outcome; try done. intros o b Ho Hid Hb He. 
    destruct (api_execute_ok (W := mod_stop s (ExecuteOrderAt i p q)) (st_match s) (o_sym o) (eng_of b s) o p q He) as (e1 & e' & er & H1 & H2 & H3); try done. { by rewrite Hid. }
    exists (e1, None), e', er. split; [by eapply hd_execute_at|done].
Qed.

Lemma put_loose s sid b e : loose s -> get_book sid s = Some b -> eng_ok sid e ->
  frame sid (st_ords s) (e_ords e) -> loose (put_eng sid e s).
Proof.
  intros [Hm Hbk Hsy] Hb [Hem Heb] Hf. constructor; [done| |exact Hsy].
  intros j b' Hj. rewrite (get_book_put _ _ _ _ _ Hb) in Hj. destruct (decide (sid = j)) as [<-|Hne].
  - injection Hj as <-. done.
  - cbn. eapply book_ok_frame; [done|done|]. by apply Hbk.
Qed.
Lemma outcome_loose s a s' er : loose s -> outcome s a s' er -> loose s'.
Proof.
  intros Hinv Ho. inversion Ho as [|sid b c e' ? Hb Htg Hhd Hc Hfr Hend]; subst; [done|].
  eapply put_loose; [done|done|by eapply ending_ok|]. eapply frame_trans; [done|]. by eapply ending_frame.
Qed.
Lemma outcome_inv s a s' er : inv s -> outcome s a s' er -> inv s'.
Proof.
  intros Hinv Ho. inversion Ho as [|sid b c e' ? Hb Htg Hhd Hc Hfr Hend]; subst; [done|].
  eapply put_inv; [done|done|by eapply ending_ok|]. eapply frame_trans; [done|]. by eapply ending_frame.
Qed.

(** ** ReplaceWith: DeleteOrder, then AddOrder *)
Lemma total_shrink (m m' : gmap Z order) : (forall i o, m' !! i = Some o -> exists o0, m !! i = Some o0 /\ o_leaves o <= o_leaves o0) ->
  (forall i o, m !! i = Some o -> 0 <= o_leaves o) -> total m' <= total m.
Proof.
  revert m. induction m' as [|i o m' Hi IH] using map_ind; intros m Hsub Hpos.
  { rewrite total_empty. by apply total_nonneg. }
  destruct (Hsub i o) as (o0 & Ho0 & Hle). { by rewrite lookup_insert. }
  rewrite total_insert by done. rewrite (total_delete m i o0 Ho0).
  assert (total m' <= total (delete i m)); [|lia].
  apply IH.
  - intros j x Hj. assert (i <> j) by congruence. destruct (Hsub j x) as (x0 & Hx0 & Hx). { by rewrite lookup_insert_ne. }
    exists x0. by rewrite lookup_delete_ne.
  - intros j x Hj. apply lookup_delete_Some in Hj as [_ Hj]. eauto.
Qed.
