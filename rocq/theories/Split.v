(** * Split.v -- the moment a notification is made: the micro action it belongs to and the run up to it. *)
From Coq Require Import ZifyBool.
From stdpp Require Import fin_maps relations.
From Verif Require Import Types Book Engine Manager Factory Validate LevelFacts BookInv EngInv EngPrim Steps StepsOk Refine3 Refine4 Api StateInv Micro Reach Calls Witness PropsState PropsSettle CallFacts PropsMirror PropsMirror2 Spec Spec2 Spec3.

Lemma app_cons_split {A} (l1 l2 pre : list A) x post : l1 ++ l2 = pre ++ x :: post ->
  (exists b, l1 = pre ++ x :: b /\ post = b ++ l2) \/ (exists a, pre = l1 ++ a /\ l2 = a ++ x :: post).
Proof.
  revert pre. induction l1 as [|y l1 IH]; intros pre H; cbn in H; [right; by exists pre|].
  destruct pre as [|z pre]; cbn in H; injection H as -> H.
  - left. exists l1. done.
  - destruct (IH pre H) as [(b & -> & ->)|(a & -> & ->)]; [left; by exists b|right; by exists a].
Qed.
Lemma usteps_split sid A c evs c' : usteps sid A c evs c' -> cfg_ok sid c -> forall pre ev post, evs = pre ++ ev :: post ->
  exists c1 c2 pre1 a b post2, usteps sid A c pre1 c1 /\ cfg_ok sid c1 /\ ustep sid A c1 (a ++ ev :: b) c2 /\ cfg_ok sid c2 /\
    usteps sid A c2 post2 c' /\ pre = pre1 ++ a /\ post = b ++ post2.
Proof.
  induction 1 as [c|c evs c1 evs' c' Hu Hus IH]; intros Hc pre ev post E; [by destruct pre|].
  destruct (ustep_ok _ _ _ _ _ Hu Hc) as [Hc1 _].
  destruct (app_cons_split _ _ _ _ _ E) as [(b & -> & ->)|(a & -> & E')].
  - exists c, c1, [], pre, b, evs'. split; [constructor|]. done.
  - destruct (IH Hc1 _ _ _ E') as (d1 & d2 & pre1 & a' & b & post2 & H1 & H2 & H3 & H4 & H5 & -> & ->).
    exists d1, d2, (evs ++ pre1), a', b, post2. split; [by eapply uss_cons|]. split; [done|]. split; [done|]. split; [done|]. split; [done|]. by rewrite app_assoc.
Qed.
Lemma segs_split A s l evs s' : segs A s l evs s' -> forall pre ev post, evs = pre ++ ev :: post ->
  exists s1 x s2 l1 l2 pre1 a b post2, segs A s l1 pre1 s1 /\ inv s1 /\ (forall y, x = Some y -> op_ok s1 y) /\ seg A s1 x (a ++ ev :: b) s2 /\ inv s2 /\
    segs A s2 l2 post2 s' /\ l = l1 ++ x :: l2 /\ pre = pre1 ++ a /\ post = b ++ post2.
Proof.
  induction 1 as [s|s x evs s1 l evs' s' Hinv Hop Hseg Hinv1 Hs IH]; intros pre ev post E; [by destruct pre|].
  destruct (app_cons_split _ _ _ _ _ E) as [(b & -> & ->)|(a & -> & E')].
  - exists s, x, s1, [], l, [], pre, b, evs'. split; [constructor|]. done.
  - destruct (IH _ _ _ E') as (s2 & y & s3 & l1 & l2 & pre1 & a' & b & post2 & H1 & H2 & H3 & H4 & H5 & H6 & -> & -> & ->).
    exists s2, y, s3, (x :: l1), l2, (evs ++ pre1), a', b, post2. split; [by eapply sg_cons|]. do 5 (split; [done|]). split; [done|]. by rewrite app_assoc.
Qed.
(** A notification of a segment is made by its head action or by a micro action. *)
Inductive made (A : mode) (s : state) (x : option op) (pre : list event) (ev : event) (post : list event) : Prop :=
| md_head a sid b hevs c post1 : x = Some a -> order_op a = true -> get_book sid s = Some b -> target s a = Some sid -> hstep sid (eng_of b s) a hevs c -> cfg_ok sid c ->
    hevs = pre ++ ev :: post1 -> made A s x pre ev post
| md_micro sid b h c0 c1 c2 pre1 a' b' : get_book sid s = Some b ->
    ((x = None /\ c0 = (eng_of b s, None) /\ h = []) \/ (exists a, x = Some a /\ order_op a = true /\ target s a = Some sid /\ hstep sid (eng_of b s) a h c0)) ->
    cfg_ok sid c0 -> usteps sid A c0 pre1 c1 -> cfg_ok sid c1 -> ustep sid A c1 (a' ++ ev :: b') c2 -> pre = h ++ pre1 ++ a' ->
    made A s x pre ev post.
Lemma seg_made A s x pre ev post s' : inv s -> seg A s x (pre ++ ev :: post) s' -> made A s x pre ev post.
Proof.
  intros Hinv Hseg. inversion Hseg as [a sid b hevs c uevs e' Hord Hb Htg Hh Hc Hfr Hfr' Hu Ex Ee|sid b uevs e' Hb Hfr' Hu]; subst.
  - destruct (app_cons_split _ _ _ _ _ Ee) as [(post1 & Eh & Ep)|(pre1 & Ep & Eu)].
    + by eapply md_head.
    + destruct (usteps_split _ _ _ _ _ Hu Hc _ _ _ Eu) as (c1 & c2 & pre2 & a' & b' & post2 & H1 & H2 & H3 & H4 & H5 & E1 & E2).
      eapply (md_micro A s _ pre ev post sid b hevs c c1 c2 pre2 a' b'); [done|right; by exists a|done|exact H1|done|exact H3|by rewrite Ep, E1].
  - pose proof (conj (inv_eng _ _ _ Hinv Hb) I : cfg_ok sid (eng_of b s, None)) as Hc.
    destruct (usteps_split _ _ _ _ _ Hu Hc _ _ _ eq_refl) as (c1 & c2 & pre2 & a' & b' & post2 & H1 & H2 & H3 & H4 & H5 & E1 & E2).
    eapply (md_micro A s _ pre ev post sid b [] _ c1 c2 pre2 a' b'); [done|by left|done|exact H1|done|exact H3|done].
Qed.
(** Reading executions. *)
Lemma execs_app a b : execs (a ++ b) = execs a ++ execs b.
Proof. unfold execs. apply omap_app. Qed.
Lemma execs_in evs o p q : (o, p, q) ∈ execs evs <-> EExecute o p q ∈ evs.
Proof.
  unfold execs. rewrite elem_of_list_omap. split.
  - intros (ev & Hin & E). destruct ev; try done. by injection E as -> -> ->.
  - intros H. eexists. split; [done|done].
Qed.
Lemma call_made s a s' er pre ev post A : reach s -> op_ok s a -> registry_op a = false -> call s a s' er (pre ++ ev :: post) -> permits A s a ->
  exists s1 x l1 pre1 pre2 post1, segs A (start_of s a) l1 pre1 s1 /\ inv s1 /\ (forall y, x = Some y -> op_ok s1 y) /\ part_of a x /\ Forall (part_of a) l1 /\
    made A s1 x pre2 ev post1 /\ pre = pre1 ++ pre2.
Proof.
  intros Hr Hop Hreg Hc HA. destruct (call_result _ _ _ _ _ Hr Hop Hc) as (Hinv & Hres & Hinv'). destruct Hc as [_ Hlog].
  destruct (result_segs_m A s a s' er Hinv Hop Hres Hreg HA) as (l & evs & Hs & Hl & Hlog'). rewrite Hlog in Hlog'. apply app_inv_head in Hlog'.
  destruct (segs_split _ _ _ _ _ Hs _ _ _ (eq_sym Hlog')) as (s1 & x & s2 & l1 & l2 & pre1 & a' & b & post2 & H1 & H2 & H3 & H4 & H5 & H6 & -> & -> & ->).
  apply Forall_app in Hl as [Hl1 Hl2]. apply Forall_cons in Hl2 as [Hx _].
  exists s1, x, l1, pre1, a', b. do 5 (split; [done|]). split; [by eapply seg_made|done].
Qed.

(** ** A client of the orders that has not been contradicted *)
Lemma listen_all_app c a b d : listen_all c (a ++ b) = Some d -> exists c1, listen_all c a = Some c1 /\ listen_all c1 b = Some d.
Proof.
  revert c. induction a as [|ev a IH]; intros c H; cbn in *; [by exists c|]. destruct (listen c ev) as [c1|]; [|done]. cbn in *. by apply IH.
Qed.
Lemma hstep_heard sid e a evs x c : eng_ok sid e -> hstep sid e a evs x -> listen_all (e_ords e) evs = Some c -> client c x.
Proof.
  intros He Hh Hl.
  assert (Hfr : forall i, introduces a i -> e_ords e !! i = None \/ refers a = Some i).
  { intros i Hi. destruct (e_ords e !! i) as [y|] eqn:Ey; [|by left].
    inversion Hh as [o o' Hsym Hval Ea|i' q0 o u e' q o' Q' Ho Hid Hsym Hq He' Hords Hlog Hpr Hp Ea
    |mit i' p q o u e' o' evs' Q' Ho Hid Hsym Hq He' Hords Hlog Hpr Hp Ea
    |i' ni p q o u e' o' Q' evs' Ho Hid Hsym Hq Hni Hty He' Hords Hlog Hpr Hp Ea
    |i' o u e' Q' evs' Ho Hid Hsym He' Hords Hlog Hpr Hp Ea
    |a' i' price q0 o u e' q o' Q' evs' Ha Ho Hid Hsym Hq He' Hords Hlog Hpr Hp Ea]; subst a evs; cbn in Hi; try done.
    - exfalso. cbn in Hl. unfold o' in Hl. rewrite (placed_id o), Hi, Ey in Hl. done.
    - by destruct mit.
    - destruct (decide (i' = i)) as [->|Hne]; [by right|exfalso]. unfold evs' in Hl. rewrite listen_lim in Hl. cbn in Hl.
      rewrite Hid, Ho in Hl. cbn in Hl. subst ni. rewrite lookup_delete_ne, Ey in Hl by done. done.
    - by destruct Ha as [[-> _]| ->]. }
  destruct (hstep_listen sid e a evs x He Hh Hfr) as (c' & H1 & H2). by assert (c' = c) as -> by congruence.
Qed.
Lemma seg_heard A s x evs s' c : inv s -> seg A s x evs s' -> listen_all (st_ords s) evs = Some c -> c = st_ords s'.
Proof.
  intros Hinv Hseg Hl.
  inversion Hseg as [a sid b hevs x1 uevs e' Hord Hb Htg Hh Hx1 Hfr Hfr' Hu|sid b uevs e' Hb Hfr' Hu]; subst.
  - apply listen_all_app in Hl as (c1 & H1 & H2). pose proof (hstep_heard sid _ _ _ _ _ (inv_eng _ _ _ Hinv Hb) Hh H1) as Hc1.
    destruct (usteps_listen sid A _ _ _ Hu Hx1 c1 Hc1) as (c' & H3 & Hc'). assert (c' = c) as -> by congruence. exact Hc'.
  - destruct (usteps_listen sid A _ _ _ Hu (conj (inv_eng _ _ _ Hinv Hb) I) (st_ords s)) as (c' & H2 & Hc'); [done|].
    assert (c' = c) as -> by congruence. exact Hc'.
Qed.
Lemma segs_heard A s l evs s' c : segs A s l evs s' -> listen_all (st_ords s) evs = Some c -> c = st_ords s'.
Proof.
  intros H. revert c. induction H as [s|s a evs s1 l evs' s' Hinv Hop Hseg Hinv1 _ IH]; intros c Hl; [by injection Hl as <-|].
  apply listen_all_app in Hl as (c1 & H1 & H2). rewrite (seg_heard _ _ _ _ _ _ Hinv Hseg H1) in H2. by apply IH.
Qed.
(** ... at the moment a micro action starts. *)
Lemma micro_heard A s x sid b h c0 c1 pre1 d : inv s -> get_book sid s = Some b ->
  ((x = None /\ c0 = (eng_of b s, None) /\ h = []) \/ (exists a, x = Some a /\ order_op a = true /\ target s a = Some sid /\ hstep sid (eng_of b s) a h c0)) ->
  cfg_ok sid c0 -> usteps sid A c0 pre1 c1 -> listen_all (st_ords s) (h ++ pre1) = Some d -> client d c1.
Proof.
  intros Hinv Hb Hst Hc0 Hus Hl. apply listen_all_app in Hl as (d1 & H1 & H2).
  assert (Hd1 : client d1 c0).
  { destruct Hst as [(_ & -> & ->)|(a & -> & _ & _ & Hh)]; [by injection H1 as <-|]. eapply (hstep_heard sid (eng_of b s)); [exact (inv_eng s sid b Hinv Hb)|done|done]. }
  destruct (usteps_listen sid A _ _ _ Hus Hc0 d1 Hd1) as (d' & H3 & Hd'). by assert (d' = d) as -> by congruence.
Qed.
(** The levels known at that moment. *)
Lemma micro_hears A s x sid b h c0 c1 pre1 m : inv s -> get_book sid s = Some b -> mirrors m s ->
  ((x = None /\ c0 = (eng_of b s, None) /\ h = []) \/ (exists a, x = Some a /\ order_op a = true /\ target s a = Some sid /\ hstep sid (eng_of b s) a h c0)) ->
  cfg_ok sid c0 -> usteps sid A c0 pre1 c1 -> exists m', hear_all m (h ++ pre1) = Some m' /\ knows_book sid m m' (e_bk (fst c1)).
Proof.
  intros Hinv Hb Hm Hst Hc0 Hus.
  assert (Hk0 : knows_book sid m m (e_bk (eng_of b s))).
  { specialize (Hm sid). rewrite Hb in Hm. destruct (m sid) as [t|] eqn:E; [|done]. split; [by exists t|done]. }
  assert (exists m1, hears m h m1 /\ knows_book sid m m1 (e_bk (fst c0))) as (m1 & H1 & Hk1).
  { destruct Hst as [(_ & -> & ->)|(a & -> & _ & _ & Hh)]; [exists m; split; [constructor|done]|].
    eapply (hstep_hears sid m m (eng_of b s)); [apply inv_eng; [by apply inv_loose|done]|done|done]. }
  destruct (usteps_hears sid A m _ _ _ Hus Hc0 m1 Hk1) as (m' & H2 & Hk'). exists m'. split; [|done]. apply hears_all. by eapply hears_app.
Qed.
Lemma hear_all_app c a c1 b c2 : hear_all c a = Some c1 -> hear_all c1 b = Some c2 -> hear_all c (a ++ b) = Some c2.
Proof. revert c. induction a as [|y a IH]; intros c H1 H2; cbn in *; [by injection H1 as ->|]. destruct (hear c y) as [c0'|]; [|done]. cbn in *. by eapply IH. Qed.
Lemma knows_view sid m m' b : knows_book sid m m' b -> exists t, m' sid = Some t /\ forall ty p, t ty p = shown b ty p.
Proof. by intros [? _]. Qed.
Lemma shown_queue ms sid b sd p : book_ok ms sid b -> shown b (match sd with BUY => BID | SELL => ASK end) p <> None <-> queue b (match sd with BUY => KBid | SELL => KAsk end) p <> [].
Proof.
  intros Hb. destruct sd.
  - change BID with (ltype_of KBid). rewrite (shown_view ms sid b KBid p) by auto. by destruct (queue b KBid p).
  - change ASK with (ltype_of KAsk). rewrite (shown_view ms sid b KAsk p) by auto. by destruct (queue b KAsk p).
Qed.
