(** * Validate.v -- Order::Validate accepts exactly the stated rules. *)
From Coq Require Import ZifyBool.
From Verif Require Import Types Spec Factory.

Lemma if_ok (c : bool) (x : err) k : x <> OK -> (if c then x else k) = OK <-> c = false /\ k = OK.
Proof. destruct c; split; try tauto; intros; try tauto. by destruct H0. Qed.

(** the part of Validate after the id and quantity checks *)
Definition validate_params (o : order) : err :=
  if is_market o && negb (is_ioc o) && negb (is_fok o) then ORDER_PARAMETER_INVALID
  else if is_market o && is_iceberg o then ORDER_PARAMETER_INVALID
  else if is_limit o && is_slippage o then ORDER_PARAMETER_INVALID
  else if (is_stop o || is_trailing_stop o) && is_aon o then ORDER_PARAMETER_INVALID
  else if (is_stop o || is_trailing_stop o) && is_iceberg o then ORDER_PARAMETER_INVALID
  else if (is_stop_limit o || is_trailing_stop_limit o) && is_slippage o then ORDER_PARAMETER_INVALID
  else if is_trailing_stop o || is_trailing_stop_limit o then
    if o_tdist o =? 0 then ORDER_PARAMETER_INVALID
    else if 0 <? o_tdist o then
      if (o_tstep o <? 0) || (o_tdist o <=? o_tstep o) then ORDER_PARAMETER_INVALID else OK
    else
      if (-1 <? o_tdist o) || (o_tdist o <? -1000) then ORDER_PARAMETER_INVALID
      else if (0 <? o_tstep o) || (o_tstep o <=? o_tdist o) then ORDER_PARAMETER_INVALID else OK
  else OK.
Lemma validate_split o : validate o =
  if o_id o =? 0 then ORDER_ID_INVALID
  else if o_qty o <? o_leaves o then ORDER_QUANTITY_INVALID
  else if o_leaves o =? 0 then ORDER_QUANTITY_INVALID else validate_params o.
Proof. reflexivity. Qed.

Definition trail_check (o : order) : err :=
    if o_tdist o =? 0 then ORDER_PARAMETER_INVALID
    else if 0 <? o_tdist o then
      if (o_tstep o <? 0) || (o_tdist o <=? o_tstep o) then ORDER_PARAMETER_INVALID else OK
    else
      if (-1 <? o_tdist o) || (o_tdist o <? -1000) then ORDER_PARAMETER_INVALID
      else if (0 <? o_tstep o) || (o_tstep o <=? o_tdist o) then ORDER_PARAMETER_INVALID else OK.
Lemma trail_check_spec o : trail_check o = OK <-> trailing_rule (-1000) o.
Proof.
  unfold trail_check, trailing_rule. destruct (Z.eqb_spec (o_tdist o) 0) as [|H0]; [split; [done|lia]|].
  destruct (Z.ltb_spec 0 (o_tdist o)).
  - rewrite if_ok by done. split; [intros [? _]; left; lia|intros Hr; split; [lia|done]].
  - rewrite !if_ok by done. split; [intros (? & ? & _); right; lia|intros Hr; split; [|split]; [lia|lia|done]].
Qed.

Lemma params_codes o : validate_params o = OK \/ validate_params o = ORDER_PARAMETER_INVALID.
Proof. unfold validate_params. repeat (match goal with |- context [if ?c then _ else _] => destruct c end); auto. Qed.

Lemma params_spec o : u64_range (o_maxvis o) -> u64_range (o_slip o) ->
  validate_params o = OK <-> parameter_rule (-1000) o.
Proof.
  intros Hm Hs. unfold u64_range in *.
  assert (Hi : is_iceberg o = false <-> o_maxvis o = MAX64). { unfold is_iceberg. lia. }
  assert (Hl : is_slippage o = false <-> o_slip o = MAX64). { unfold is_slippage. lia. }
  unfold validate_params, parameter_rule.
  change (if o_tdist o =? 0 then _ else _) with (trail_check o).
  pose proof (trail_check_spec o) as Ht.
  unfold is_market, is_limit, is_stop, is_trailing_stop, is_stop_limit, is_trailing_stop_limit, is_aon, is_ioc, is_fok.
  destruct (o_type o); cbn; destruct (is_iceberg o), (is_slippage o); cbn; destruct (o_tif o); cbn; naive_solver.
Qed.

Theorem validate_spec o : order_range o ->
  (validate o = ORDER_ID_INVALID <-> o_id o = 0) /\
  (validate o = ORDER_QUANTITY_INVALID <-> o_id o <> 0 /\ ~ quantity_rule o) /\
  (validate o = ORDER_PARAMETER_INVALID <-> o_id o <> 0 /\ quantity_rule o /\ ~ parameter_rule (-1000) o) /\
  (validate o = OK <-> o_id o <> 0 /\ quantity_rule o /\ parameter_rule (-1000) o).
Proof.
  intros (_ & _ & _ & _ & Hq & _ & Hl & Hm & Hs & _ & _). rewrite validate_split. unfold quantity_rule, u64_range in *.
  pose proof (params_spec o Hm Hs) as Hp. destruct (params_codes o) as [Hc|Hc]; rewrite Hc in *;
  (destruct (Z.eqb_spec (o_id o) 0); [|destruct (Z.ltb_spec (o_qty o) (o_leaves o)); [|destruct (Z.eqb_spec (o_leaves o) 0)]]);
  repeat split; try done; try lia; try naive_solver lia.
Qed.
Lemma validate_codes o : validate o = OK \/ validate o = ORDER_ID_INVALID \/ validate o = ORDER_QUANTITY_INVALID \/ validate o = ORDER_PARAMETER_INVALID.
Proof. rewrite validate_split. destruct (params_codes o) as [->| ->]; repeat (match goal with |- context [if ?c then _ else _] => destruct c end); auto. Qed.

(** ** Factories *)
Definition legal_trail (d st : Z) : Prop := (0 < d /\ 0 <= st < d) \/ (-1000 <= d <= -1 /\ d < st <= 0).
Definition fresh_qty (o : order) (q : Z) : Prop := o_exec o = 0 /\ o_qty o = q /\ o_leaves o = q.

Theorem factories_valid id sym sd p stp q slip mv d st tf :
  u64_range id -> id <> 0 -> u64_range q -> q <> 0 -> 0 <= sym < TWO32 -> u64_range p -> u64_range stp ->
  u64_range slip -> u64_range mv -> i64_range d -> i64_range st ->
  (validate (MarketOrder id sym sd q slip) = OK /\ fresh_qty (MarketOrder id sym sd q slip) q) /\
  (validate (LimitOrder id sym sd p q tf mv) = OK /\ fresh_qty (LimitOrder id sym sd p q tf mv) q) /\
  (validate (StopOrder id sym sd stp q tf slip) = (if is_aon (StopOrder id sym sd stp q tf slip) then ORDER_PARAMETER_INVALID else OK) /\
     fresh_qty (StopOrder id sym sd stp q tf slip) q) /\
  (validate (StopLimitOrder id sym sd stp p q tf mv) = OK /\ fresh_qty (StopLimitOrder id sym sd stp p q tf mv) q) /\
  (legal_trail d st ->
    (tf <> AON -> validate (TrailingStopOrder id sym sd stp q d st tf slip) = OK) /\
    validate (TrailingStopLimitOrder id sym sd stp p q d st tf mv) = OK /\
    fresh_qty (TrailingStopOrder id sym sd stp q d st tf slip) q /\
    fresh_qty (TrailingStopLimitOrder id sym sd stp p q d st tf mv) q).
Proof.
  intros Hid Hid0 Hq Hq0 Hsym Hp Hstp Hslip Hmv Hd Hst.
  assert (H0 : u64_range 0) by (unfold u64_range, MAX64; lia). assert (HM : u64_range MAX64) by (unfold u64_range, MAX64; lia).
  assert (Hz : i64_range 0) by (unfold i64_range, TWO63; lia). unfold fresh_qty, legal_trail. unfold u64_range in Hq.
  assert (Hqr : 0 < q <= q) by lia.
  assert (Hrg : forall t s1 p1 s2 tf1 m1 sl1 d1 st1, u64_range p1 -> u64_range s2 -> u64_range m1 -> u64_range sl1 -> i64_range d1 -> i64_range st1 ->
    order_range (mkOrder id sym t s1 p1 s2 q 0 q tf1 m1 sl1 d1 st1)).
  { intros. unfold order_range; cbn. unfold u64_range in *. repeat split; try lia; unfold i64_range in *; lia. }
  split; [split; [|by cbn]|]. { apply validate_spec; [by apply Hrg|]. split; [done|]. split; [done|]. cbn. auto. }
  split; [split; [|by cbn]|]. { apply validate_spec; [by apply Hrg|]. done. }
  split; [split; [|by cbn]|]. {
    unfold is_aon; cbn. case_bool_decide as Ht; apply validate_spec; try (by apply Hrg); (split; [done|]; split; [done|]); cbn; naive_solver. }
  split; [split; [|by cbn]|]. { apply validate_spec; [by apply Hrg|]. done. }
  intros Ht. split; [|split; [|by cbn]].
  - intros Htf. apply validate_spec; [by apply Hrg|]. done.
  - apply validate_spec; [by apply Hrg|]. done.
Qed.
