(** * Witness.v -- running concrete histories, with the guards of [op_ok] checked by computation.
    Used for the examples that show theorems are not vacuous and for counterexamples. *)
From stdpp Require Import fin_maps.
From Verif Require Import Types Book Engine Manager Factory Spec.

Definition u64b (x : Z) : bool := (0 <=? x) && (x <=? MAX64).
Definition i64b (x : Z) : bool := (- TWO63 <=? x) && (x <? TWO63).
Definition order_rangeb (o : order) : bool :=
  u64b (o_id o) && ((0 <=? o_sym o) && (o_sym o <? TWO32)) && u64b (o_price o) && u64b (o_stop o) &&
  u64b (o_qty o) && u64b (o_exec o) && u64b (o_leaves o) && u64b (o_maxvis o) && u64b (o_slip o) &&
  i64b (o_tdist o) && i64b (o_tstep o).
Definition op_okb (s : state) (a : op) : bool :=
  match a with
  | AddSymbol sy | AddOrderBook sy => (0 <=? sy_id sy) && (sy_id sy <? TWO32 - 1)
  | DeleteSymbol _ => true
  | DeleteOrderBook i => forallb (fun x => negb (o_sym (snd x) =? i)) (map_to_list (st_ords s))
  | AddOrder o => order_rangeb o && (total (st_ords s) + o_leaves o <? TWO64)
  | ReduceOrder i q | ExecuteOrder i q => u64b i && u64b q
  | ModifyOrder i p q | MitigateOrder i p q => u64b i && u64b p && u64b q && (total (delete i (st_ords s)) + q <? TWO64)
  | ReplaceOrder i ni p q => u64b i && u64b ni && u64b p && u64b q && (total (delete i (st_ords s)) + q <? TWO64)
  | ReplaceWith i o => u64b i && order_rangeb o && (total (delete i (st_ords s)) + o_leaves o <? TWO64)
  | DeleteOrder i => u64b i
  | ExecuteOrderAt i p q => u64b i && u64b p && u64b q
  | EnableMatching | DisableMatching | Match => true
  end.
Lemma u64b_ok x : u64b x = true -> u64_range x.
Proof. unfold u64b, u64_range. lia. Qed.
Lemma i64b_ok x : i64b x = true -> i64_range x.
Proof. unfold i64b, i64_range. lia. Qed.
Ltac split_b := repeat match goal with H : _ && _ = true |- _ => apply andb_prop in H as [? ?] end.
Lemma order_rangeb_ok o : order_rangeb o = true -> order_range o.
Proof.
  unfold order_rangeb, order_range. intros H. split_b.
  repeat match goal with
  | H : u64b _ = true |- _ => apply u64b_ok in H
  | H : i64b _ = true |- _ => apply i64b_ok in H
  | H : (_ <=? _) = true |- _ => apply Z.leb_le in H
  | H : (_ <? _) = true |- _ => apply Z.ltb_lt in H end.
  repeat split; assumption || apply H || (match goal with H : u64_range ?x |- context [?x] => apply H end) || (match goal with H : i64_range ?x |- context [?x] => apply H end).
Qed.
Lemma op_okb_ok s a : op_okb s a = true -> op_ok s a.
Proof.
  destruct a; cbn [op_okb op_ok]; intros H; split_b; repeat match goal with
  | H : u64b _ = true |- _ => apply u64b_ok in H
  | H : order_rangeb _ = true |- _ => apply order_rangeb_ok in H
  | H : (_ <=? _) = true |- _ => apply Z.leb_le in H
  | H : (_ <? _) = true |- _ => apply Z.ltb_lt in H end; try done.
  intros j o Hj E. apply elem_of_map_to_list in Hj. apply elem_of_list_In in Hj.
  pose proof (proj1 (forallb_forall _ _) H _ Hj) as H1. cbn in H1. rewrite E, Z.eqb_refl in H1. done.
Qed.

(** Runs a history as long as all guards hold and every call returns. *)
Fixpoint history (s : state) (ops : list op) : option state :=
  match ops with
  | [] => Some s
  | a :: ops => if op_okb s a then match step s a with Ok (s', _) => history s' ops | _ => None end else None
  end.
Definition hist (ops : list op) : state := default init (history init ops).
Lemma history_reach ops : forall s s', reach s -> history s ops = Some s' -> reach s'.
Proof.
  induction ops as [|a ops IH]; intros s s' Hr H; cbn [history] in H; [by injection H as <-|].
  destruct (op_okb s a) eqn:E; [|done]. apply op_okb_ok in E.
  destruct (step s a) as [[s1 er]| |] eqn:Es; [|done|done]. eapply IH; [|done]. by eapply reach_step.
Qed.
Lemma hist_reach ops : reach (hist ops).
Proof. unfold hist. destruct (history init ops) as [s|] eqn:E; [|constructor]. cbn. eapply history_reach; [constructor|done]. Qed.
(** ... whose calls all satisfy [P]. *)
Lemma history_reach_with (P : op -> Prop) ops : Forall P ops -> forall s s', reach_with P s -> history s ops = Some s' -> reach_with P s'.
Proof.
  induction 1 as [|a ops Ha _ IH]; intros s s' Hr H; cbn [history] in H; [by injection H as <-|].
  destruct (op_okb s a) eqn:E; [|done]. apply op_okb_ok in E.
  destruct (step s a) as [[s1 er]| |] eqn:Es; [|done|done]. eapply IH; [|done]. by eapply rw_step.
Qed.
Lemma hist_reach_with (P : op -> Prop) ops : Forall P ops -> reach_with P (hist ops).
Proof.
  intros HP. unfold hist. destruct (history init ops) as [s|] eqn:E; [|constructor]. cbn. eapply history_reach_with; [done|constructor|done].
Qed.

(** A call from a state, with its notifications. *)
Definition after (s : state) (a : op) : state := match step s a with Ok (s', _) => s' | _ => s end.
Definition ret (s : state) (a : op) : err := match step s a with Ok (_, er) => er | _ => OK end.
Definition news (s : state) (a : op) : list event := drop (length (st_log s)) (st_log (after s a)).
Definition callb (s : state) (a : op) : bool :=
  op_okb s a && match step s a with Ok (s', _) => bool_decide (length (take (length (st_log s)) (st_log s')) = length (st_log s)) | _ => false end.

(** A symbol and its book. *)
Definition setup : list op := [AddSymbol (mkSymbol 0 7); AddOrderBook (mkSymbol 0 7)].
Definition BL (i p q : Z) : op := AddOrder (LimitOrder i 0 BUY p q GTC MAX64).
Definition SL (i p q : Z) : op := AddOrder (LimitOrder i 0 SELL p q GTC MAX64).
Definition LIM (sd : oside) (i p q : Z) (t : otif) : op := AddOrder (LimitOrder i 0 sd p q t MAX64).
Definition the_book (s : state) : book := default (new_book (mkSymbol 0 0)) (get_book 0 s).
