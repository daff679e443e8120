(** * CallFacts.v -- symbols, frames and notification symbols of API calls. *)
From Coq Require Import ZifyBool.
From stdpp Require Import fin_maps relations.
From Verif Require Import Types Book Engine Manager Factory Validate LevelFacts BookInv EngInv EngPrim Steps StepsOk Refine3 Refine4 Api StateInv Micro Reach Calls Witness PropsState PropsSettle Spec Spec2.

(** Two-state relations and event properties, step by step. *)
Lemma usteps_rel sid A (R : eng -> eng -> Prop) (E : event -> Prop) :
  (forall e, R e e) -> (forall a b c, R a b -> R b c -> R a c) ->
  (forall c evs c', cfg_ok sid c -> ustep sid A c evs c' -> R (fst c) (fst c') /\ Forall E evs) ->
  forall c evs c', usteps sid A c evs c' -> cfg_ok sid c -> R (fst c) (fst c') /\ Forall E evs.
Proof.
  intros Hrefl Htr Hst. apply (usteps_ind_ok sid A (fun c evs c' => R (fst c) (fst c') /\ Forall E evs)); [done|].
  intros c evs c1 evs' c' Hc Hu _ [IH1 IH2]. destruct (Hst _ _ _ Hc Hu) as [H1 H2].
  split; [by eapply Htr|]. by apply Forall_app.
Qed.

Lemma lev_evs_sym sid u : Forall (fun ev => event_symbol ev = sid) (lev_evs sid u).
Proof. unfold lev_evs, lev_ev. destruct (u_type u); repeat constructor. Qed.
Lemma lim_evs_sym o sid u : Forall (fun ev => event_symbol ev = sid) (lim_evs o sid u).
Proof. unfold lim_evs. destruct (is_limit o); [apply lev_evs_sym|constructor]. Qed.
Lemma red_ev_sym o : event_symbol (red_ev o) = o_sym o.
Proof. unfold red_ev. by destruct (_ =? 0). Qed.
Lemma converted_sym o : o_sym (converted o) = o_sym o.
Proof. unfold converted, to_market, to_limit. destruct (o_type o); cbn; try done; by destruct (is_fok _). Qed.
Lemma retrail_sym n o : o_sym (retrail n o) = o_sym o.
Proof. unfold retrail. by destruct (o_type o). Qed.

Lemma ustep_sym sid A c evs c' : cfg_ok sid c -> ustep sid A c evs c' ->
  b_sym (e_bk (fst c')) = b_sym (e_bk (fst c)) /\ Forall (fun ev => event_symbol ev = sid) evs.
Proof.
  intros [He Hf] Hu. inversion Hu as [e f r p q u e' Q' Hr Hs Ht Hq0 Hx He' Hords Hlog Hpr Hp
    |e f r p u e' Q' Hr Hs Ht Hx He' Hords Hlog Hpr Hp|e o p q Hq0 Hw Hfa|e o p Hty Hb|e o Hty Hre
    |e o u e' Hfr Hlv Hty Htif He' Hords Hlog Hpr Hp|e o Hmv|e o u e' Ho Hs Hty Hre He' Hords Hlog Hpr Hp
    |e o u1 b1 u2 e' o' Ho Hs Htr Hne He' Hords Hlog Hpr Hp1 Hp2|e s|e]; subst; cbn [fst snd] in *.
  - split; [apply Hp|]. constructor; [done|]. constructor; [by rewrite red_ev_sym|apply lev_evs_sym].
  - split; [apply Hp|]. constructor; [done|]. apply Forall_app. split; [apply lev_evs_sym|]. by constructor.
  - split; [by destruct o; cbn; destruct o_side|]. constructor; [|done]. apply Hf.
  - done.
  - split; [done|]. constructor; [|done]. cbn. rewrite converted_sym. apply Hf.
  - split; [apply Hp|apply lim_evs_sym].
  - split; [done|]. constructor; [|done]. apply Hf.
  - split; [apply Hp|]. constructor; [|done]. cbn. by rewrite converted_sym.
  - split; [by rewrite (pr_sym _ _ _ _ _ _ _ Hp2), (pr_sym _ _ _ _ _ _ _ Hp1)|]. constructor; [|done]. cbn. unfold o'. by rewrite retrail_sym.
  - split; [|done]. by destruct s.
  - done.
Qed.
Lemma usteps_sym sid A c evs c' : usteps sid A c evs c' -> cfg_ok sid c ->
  b_sym (e_bk (fst c')) = b_sym (e_bk (fst c)) /\ Forall (fun ev => event_symbol ev = sid) evs.
Proof.
  apply (usteps_rel sid A (fun e e' => b_sym (e_bk e') = b_sym (e_bk e))); [done|congruence|]. intros. by eapply ustep_sym.
Qed.
Lemma hstep_sym sid e a evs c : eng_ok sid e -> hstep sid e a evs c ->
  b_sym (e_bk (fst c)) = b_sym (e_bk e) /\ Forall (fun ev => event_symbol ev = sid) evs.
Proof.
  intros He Hh. inversion Hh as [o o' Hsym Hval|i q0 o u e' q o' Q' Ho Hid Hsym Hq He' Hords Hlog Hpr Hp
    |mit i p q o u e' o' evs' Q' Ho Hid Hsym Hq He' Hords Hlog Hpr Hp
    |i ni p q o u e' o' Q' evs' Ho Hid Hsym Hq Hni Hty He' Hords Hlog Hpr Hp
    |i o u e' Q' evs' Ho Hid Hsym He' Hords Hlog Hpr Hp
    |a' i price q0 o u e' q o' Q' evs' Ha Ho Hid Hsym Hq He' Hords Hlog Hpr Hp]; subst; cbn [fst].
  - split; [done|]. constructor; [|done]. cbn. unfold o', placed. destruct (o_type o); try done; by rewrite retrail_sym.
  - split; [apply Hp|]. constructor; [by rewrite red_ev_sym|apply lim_evs_sym].
  - split; [apply Hp|]. apply Forall_app. split; [apply lim_evs_sym|]. destruct (0 <? _); [|done]. constructor; [|done]. cbn. unfold o', modified. destruct mit; done.
  - split; [apply Hp|]. apply Forall_app. split; [apply lim_evs_sym|]. by repeat constructor.
  - split; [apply Hp|]. apply Forall_app. split; [apply lim_evs_sym|]. by repeat constructor.
  - split; [apply Hp|]. constructor; [done|]. apply Forall_app. split; [apply lim_evs_sym|]. constructor; [|done]. by rewrite red_ev_sym.
Qed.

(** ** Frames of segments *)
(** The books a segment may change. *)
Definition seg_sid (s : state) (x : option op) (i : Z) : Prop := match x with Some a => target s a = Some i | None => True end.
Lemma seg_frame A s x evs s' : inv s -> seg A s x evs s' ->
  exists i, seg_sid s x i /\ st_syms s' = st_syms s /\ st_match s' = st_match s /\
    (forall j, j <> i -> get_book j s' = get_book j s) /\
    (exists b b', get_book i s = Some b /\ get_book i s' = Some b' /\ b_sym b' = b_sym b) /\
    frame i (st_ords s) (st_ords s') /\ Forall (fun ev => event_symbol ev = i) evs.
Proof.
  intros Hinv Hseg. inversion Hseg as [a sid b hevs c uevs e' Hord Hb Htg Hh Hc Hfr Hfr' Hu|sid b uevs e' Hb Hfr' Hu]; subst; exists sid.
  - destruct (hstep_sym sid _ _ _ _ (inv_eng _ _ _ Hinv Hb) Hh) as [S1 E1]. destruct (usteps_sym _ _ _ _ _ Hu Hc) as [S2 E2].
    split; [done|]. split; [done|]. split; [done|]. split.
    { intros j Hj. rewrite (get_book_put _ _ _ _ _ Hb). by rewrite decide_False. }
    split. { exists b, (e_bk e'). rewrite (get_book_put _ _ _ _ _ Hb), decide_True by done. split; [done|]. split; [done|]. cbn in *. congruence. }
    split; [done|]. by apply Forall_app.
  - destruct (usteps_sym _ _ _ _ _ Hu (conj (inv_eng _ _ _ Hinv Hb) I)) as [S2 E2].
    split; [done|]. split; [done|]. split; [done|]. split.
    { intros j Hj. rewrite (get_book_put _ _ _ _ _ Hb). by rewrite decide_False. }
    split. { exists b, (e_bk e'). rewrite (get_book_put _ _ _ _ _ Hb), decide_True by done. split; [done|]. split; [done|]. cbn in *. congruence. }
    done.
Qed.
Lemma segs_keep A s l evs s' : segs A s l evs s' ->
  st_syms s' = st_syms s /\ st_match s' = st_match s /\
  forall i, match get_book i s, get_book i s' with Some b, Some b' => b_sym b' = b_sym b | None, None => True | _, _ => False end.
Proof.
  induction 1 as [s|s a evs s1 l evs' s' Hinv Hop Hseg Hinv1 _ (IH1 & IH2 & IH3)].
  { split; [done|]. split; [done|]. intros i. by destruct (get_book i s). }
  destruct (seg_frame _ _ _ _ _ Hinv Hseg) as (i & _ & S1 & S2 & S3 & (b & b' & B1 & B2 & B3) & _).
  split; [congruence|]. split; [congruence|]. intros j. specialize (IH3 j).
  destruct (decide (j = i)) as [->|Hj].
  - rewrite B1. rewrite B2 in IH3. destruct (get_book i s'); [|done]. congruence.
  - by rewrite (S3 j Hj) in IH3.
Qed.

(** A call that is not a registry call, as segments. *)
Lemma call_segs s a s' er evs : reach s -> op_ok s a -> call s a s' er evs -> registry_op a = false ->
  exists l, segs (wide True) (start_of s a) l evs s' /\ Forall (part_of a) l.
Proof.
  intros Hr Hop Hc Hreg. destruct (call_result _ _ _ _ _ Hr Hop Hc) as (Hinv & Hres & Hinv'). destruct Hc as [Hst Hlog].
  destruct (result_segs True s a s' er Hinv Hop Hres Hreg ltac:(by left)) as (l & evs' & Hs & Hl & Hlog').
  exists l. rewrite Hlog in Hlog'. apply app_inv_head in Hlog'. by subst.
Qed.
(** A successful (or duplicate) order call is one segment. *)
Lemma order_call_seg s a s' er evs : reach s -> op_ok s a -> order_call a = true -> call s a s' er evs ->
  (s' = s /\ evs = [] /\ er <> OK /\ er <> ORDER_DUPLICATE) \/ (seg (wide True) s (Some a) evs s').
Proof.
  intros Hr Hop Hoc Hc. destruct (call_outcome _ _ _ _ _ Hr Hop Hoc Hc) as (Hinv & Ho & Hinv'). destruct Hc as [_ Hlog].
  destruct (outcome_seg True s a s' er Hinv Hop Hoc Ho ltac:(by left)) as [(-> & H1 & H2)|(evs' & Hseg & Hi)].
  - left. split; [done|]. split; [|done]. rewrite <- (app_nil_r (st_log s)) in Hlog at 1. by apply app_inv_head in Hlog.
  - right. assert (evs' = evs) as <-; [|done].
    pose proof (segs_log (wide True) s [Some a] (evs' ++ []) s') as H. rewrite app_nil_r in H. rewrite Hlog in H.
    assert (st_log s ++ evs = st_log s ++ evs') as E; [|by apply app_inv_head in E]. apply H.
    rewrite <- (app_nil_r evs'). eapply sg_cons; try done; [by intros x [= <-]|constructor].
Qed.
Lemma log_same s evs : st_log s = st_log s ++ evs -> evs = [].
Proof. intros H. rewrite <- (app_nil_r (st_log s)) in H at 1. by apply app_inv_head in H. Qed.
Lemma log_one s s' ev evs : st_log s' = st_log s ++ evs -> st_log s' = st_log s ++ [ev] -> evs = [ev].
Proof. intros H H'. rewrite H in H'. by apply app_inv_head in H'. Qed.
