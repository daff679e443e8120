(** * PropsEngine.v -- the matching engine program and the ITCH throughput program: C70, C71. *)
From Coq Require Import ZifyBool String Ascii.
From stdpp Require Import fin_maps.
From Verif Require Import Types Book Engine Manager Factory Validate BookInv Api StateInv Reach Calls Witness PropsState PropsSettle CallFacts PropsBasic PropsFill PropsExchange Itch ItchSpec PropsItch Feed Fast PropsFast Drive PropsFeed PropsItchFeed ItchPrint PropsItchPrint Example PropsExample Tally PropsTally Bench PropsBench Throughput Spec Spec2 Spec3 Spec5 Spec8 Spec10 Spec11 Spec21 Spec22 Spec24 Spec25 Spec26.
Open Scope Z_scope. Open Scope list_scope.

(** ** The calls *)
Lemma engine_narrow bh m : from_bytes bh m -> Forall narrow (engine_calls m) /\ 0 <= sumZ (map most (engine_calls m)) < TWO32.
Proof. intros H. unfold engine_calls. destruct (_ || _); [by split|]. by eapply handler_narrow. Qed.
Lemma engine_all_narrow bh l : Forall (from_bytes bh) l -> Forall narrow (flat_map engine_calls l) /\ 0 <= sumZ (map most (flat_map engine_calls l)) <= Z.of_nat (length l) * (TWO32 - 1).
Proof.
  induction 1 as [|m l Hm _ [IH1 IH2]]; [split; [constructor|done]|]. destruct (engine_narrow bh m Hm) as [H1 H2]. cbn [flat_map]. split; [by apply Forall_app|].
  rewrite map_app, sumZ_app. cbn [length]. rewrite Nat2Z.inj_succ. unfold TWO32 in *. lia.
Qed.
Lemma narrow_covered a : narrow a -> covered a.
Proof.
  intros Hn. split; [by intros ->|]. intros o Ho. destruct a; try done. cbn in Ho. injection Ho as <-. destruct Hn as (id & sym & sd & p & q & -> & _). cbn. split; [by left|done].
Qed.
(** What a run of the engine is. *)
Record runs (s : state) (ops : list op) (ers : list err) (evs : list event) (s' : state) : Prop := {
  ru_run : run s ops = Ok s';
  ru_does : performs s ops ers evs s';
  ru_reach : reach_with covered s';
  ru_match : st_match s' = true;
  ru_log : st_log s' = st_log s ++ evs;
  ru_flat : forall ns t, Spec21.told ns evs -> facts s t -> flat t -> facts s' (tell_all t ns) /\ flat (tell_all t ns)
}.
Lemma narrow_known s a s' er evs : reach s -> op_ok s a -> call s a s' er evs -> narrow a ->
  (forall j, known_symbols s j -> known_symbols s' j) /\ (forall j, open_books s j -> open_books s' j).
Proof.
  intros Hr Hop Hc Hn. pose proof (C30_registry _ _ _ _ _ Hr Hop Hc) as H. unfold known_symbols, open_books.
  destruct a as [sy|i|sy|i|o|i q|i p q|i p q|i ni p q|i o|i|i q|i p q| | |]; try done.
  - destruct H as (H1 & _ & H2). split; intros j; [|by rewrite H1]. destruct (get_symbol (sy_id sy) s) eqn:E.
    + destruct H2 as (_ & _ & H2). by rewrite H2.
    + destruct H2 as (_ & _ & H2 & H3). destruct (decide (j = sy_id sy)) as [->|Hne]; [by rewrite H2|by rewrite H3].
  - destruct H as (H1 & _ & H2). split; intros j; [by rewrite H1|]. destruct (get_symbol (sy_id sy) s) as [reg|] eqn:E; [destruct (get_book (sy_id sy) s) eqn:E2|].
    + destruct H2 as (_ & _ & H2). by rewrite H2.
    + destruct H2 as (_ & _ & H2 & H3). destruct (decide (j = sy_id sy)) as [->|Hne]; [by rewrite H2|by rewrite H3].
    + destruct H2 as (_ & _ & H2). by rewrite H2.
  - destruct H as (H1 & H2 & _). split; intros j; [by rewrite H1|by rewrite H2].
  - destruct H as (H1 & H2 & _). split; intros j; [by rewrite H1|by rewrite H2].
  - destruct H as (H1 & H2 & _). split; intros j; [by rewrite H1|by rewrite H2].
  - destruct H as (H1 & H2 & _). split; intros j; [by rewrite H1|by rewrite H2].
  - destruct H as (H1 & H2 & _). split; intros j; [by rewrite H1|by rewrite H2].
  - destruct H as (H1 & H2 & _). split; intros j; [by rewrite H1|by rewrite H2].
Qed.
Lemma engine_path ops : Forall narrow ops -> forall s, reach_with covered s -> st_match s = true -> total (st_ords s) + sumZ (map most ops) < TWO64 ->
  exists ers evs s', runs s ops ers evs s'.
Proof.
  induction 1 as [|a ops Ha Hops IH]; intros s Hrw Hm Ht.
  { exists [], [], s. constructor; try done; [constructor|by rewrite app_nil_r|]. intros ns t Hns Hf Hfl. apply map_eq_nil in Hns as ->. done. }
  change (sumZ (map most (a :: ops))) with (most a + sumZ (map most ops)) in *. pose proof (narrow_most a Ha) as Hb.
  assert (Hnn : 0 <= sumZ (map most ops)). { clear -Hops. induction Hops as [|b ops Hb _ IH]; [done|]. pose proof (narrow_most b Hb).
    change (sumZ (map most (b :: ops))) with (most b + sumZ (map most ops)). lia. }
  pose proof (reach_with_reach _ _ Hrw) as Hr. pose proof (reach_inv _ Hr) as Hinv. assert (Hop : op_ok s a) by (apply narrow_ok; [done|done|lia]).
  destruct (call_exists s a Hinv Hop) as (s1 & er & evs & Hc). pose proof (call_total _ _ _ _ _ Hr Hop Hc) as Ht1.
  destruct (covered_next s a s1 er Hrw Hm Hop (narrow_covered a Ha) (proj1 Hc)) as [Hrw1 Hm1].
  destruct (IH s1 Hrw1 Hm1 ltac:(lia)) as (ers & evs' & s2 & [R1 R2 R3 R4 R5 R6]).
  exists (er :: ers), (evs ++ evs'), s2. constructor; try done.
  - cbn [run]. rewrite (proj1 Hc). exact R1.
  - by econstructor.
  - rewrite R5, (proj2 Hc). by rewrite <- app_assoc.
  - intros ns t Hns Hf Hfl. apply told_app in Hns as (n1 & n2 & -> & H1 & H2). rewrite tell_all_app2.
    destruct (narrow_known s a s1 er evs Hr Hop Hc Ha) as [K1 K2].
    destruct (flat_call s a s1 er evs n1 t Hr Hop Hc H1 Hf Hfl K1 K2) as [F1 F2]. by apply R6.
Qed.
(** The first call. *)
Definition on : state := set_matching true init.
Lemma on_run : step init EnableMatching = Ok (on, OK).
Proof. by vm_compute. Qed.
Lemma on_call : call init EnableMatching on OK [].
Proof. split; [exact on_run|done]. Qed.
Lemma on_reach : reach_with covered on.
Proof. eapply (rw_step covered init EnableMatching on OK); [apply rw_init|exact I|split; [done|by intros ? [=]]|exact on_run]. Qed.
Lemma on_known j : ~ known_symbols on j /\ ~ open_books on j.
Proof. destruct (C30_empty j) as (E1 & E2 & _). unfold known_symbols, open_books. change (get_symbol j on) with (get_symbol j init). change (get_book j on) with (get_book j init). rewrite E1, E2. by split; intros []. Qed.
Lemma on_facts : facts on no_tally /\ flat no_tally.
Proof.
  split; [|done]. destruct (flat_call init EnableMatching on OK [] [] no_tally reach_init I on_call eq_refl facts_init (conj eq_refl eq_refl)) as [H _]; [done|done|exact H].
Qed.
(** The whole program. *)
Lemma engine_ops ops : Forall narrow ops -> sumZ (map most ops) < TWO64 ->
  exists ers evs s x, runs on ops ers evs s /\ run init (EnableMatching :: ops) = Ok s /\ st_log s = evs /\ all_uncrossed s /\
    performs init (EnableMatching :: ops) (OK :: ers) evs s /\ exchange_run (EnableMatching :: ops) nothing = (OK :: ers, execs evs, x) /\ agrees x s.
Proof.
  intros Hn Ht. destruct (engine_path ops Hn on on_reach eq_refl) as (ers & evs & s & R). { change (st_ords on) with (∅ : gmap Z order). by rewrite total_empty. }
  assert (P : performs init (EnableMatching :: ops) (OK :: ers) evs s). { change evs with ([] ++ evs). eapply pf_cons; [exact I|exact on_call|exact (ru_does _ _ _ _ _ R)]. }
  destruct (C49_history ops (OK :: ers) evs s P) as (x & Hx & Ha). { eapply Forall_impl; [exact Hn|]. apply narrow_covered. }
  exists ers, evs, s, x. split; [done|]. split; [|split; [|split; [|done]]].
  - cbn [run]. rewrite on_run. exact (ru_run _ _ _ _ _ R).
  - exact (ru_log _ _ _ _ _ R).
  - apply C01_uncrossed_partial; [|exact (ru_match _ _ _ _ _ R)]. eapply reach_with_weaken; [|exact (ru_reach _ _ _ _ _ R)]. intros a [_ H] o Ho. by apply H.
Qed.

(** ** C70: on any bytes the engine trades like the reference exchange *)
Theorem C70_any_bytes bh blocks : Forall (Forall is_byte) blocks ->
  exists d, run_blocks bh blocks new_dec = Ok d /\ (Z.of_nat (length (d_log d)) <= TWO32 -> exists s ers x, market_engine bh blocks = Ok s /\ reach s /\
    performs init (EnableMatching :: flat_map engine_calls (d_log d)) ers (st_log s) s /\
    exchange_run (EnableMatching :: flat_map engine_calls (d_log d)) nothing = (ers, execs (st_log s), x) /\ agrees x s /\ all_uncrossed s).
Proof.
  intros Hb. destruct (blocks_good bh blocks new_dec Hb) as (d & E & [_ Hg]); [split; constructor|constructor|]. exists d. split; [done|]. intros Hlen.
  destruct (engine_all_narrow bh _ Hg) as [Hn Ht]. destruct (engine_ops _ Hn) as (ers & evs & s & x & R & Er & El & Hu & P & Hx & Ha); [unfold TWO64, TWO32 in *; lia|].
  exists s, (OK :: ers), x. rewrite El. split; [unfold market_engine; rewrite E; exact Er|]. split; [by eapply reach_with_reach, ru_reach|]. done.
Qed.
Print Assumptions C70_any_bytes.

(** ** C70: a stream *)
Lemma says_asks ks ms : Forall packet_ok ks -> Spec11.says ks ms -> exists opss, Forall2 asks ms opss /\ concat opss = flat_map engine_calls (map callback ks).
Proof.
  intros Hk Hs. induction Hs as [|k ks m ms Ha Ht Hs IH|k ks ms Ha Hs IH]; [by exists []| |]; apply Forall_cons in Hk as [Hk Hks]; destruct (IH Hks) as (opss & H1 & H2).
  - exists (engine_calls (callback k) :: opss). split; [constructor; [|done]|cbn; by rewrite H2].
    pose proof (tells_drives k m Hk Ht) as Hd. pose proof (proj1 (Forall_forall _ _) layout_struct _ (proj1 Hk)) as (N1 & N2 & N3 & N4 & N5 & N6 & N7 & N8 & N). cbn [fst snd] in *.
    unfold engine_calls. change (m_struct (callback k)) with (pk_name k).
    destruct Ht as [sym Ty|id sym p q Ty|id sym p q Ty|id q Ty|id p q Ty|id q Ty|id Ty|id nid p q Ty].
    + rewrite (N1 Ty). exact Hd.
    + assert (Hn : pk_name k = "AddOrderMessage"%string \/ pk_name k = "AddOrderMPIDMessage"%string) by naive_solver. destruct Hn as [-> | ->]; exact Hd.
    + assert (Hn : pk_name k = "AddOrderMessage"%string \/ pk_name k = "AddOrderMPIDMessage"%string) by naive_solver. destruct Hn as [-> | ->]; exact Hd.
    + rewrite (N4 Ty). done.
    + rewrite (N5 Ty). done.
    + rewrite (N6 Ty). exact Hd.
    + rewrite (N7 Ty). exact Hd.
    + rewrite (N8 Ty). exact Hd.
  - exists opss. split; [done|]. cbn. rewrite H2. pose proof (proj1 (Forall_forall _ _) layout_struct _ (proj1 Hk)) as (_ & _ & _ & _ & _ & _ & _ & _ & N).
    destruct (N Ha (delivered_fields (pk_layout k) (pk_values k))) as [E _]. unfold engine_calls. destruct (_ || _); [done|]. change (callback k) with (mkMsg (pk_name k) (delivered_fields (pk_layout k) (pk_values k))). by rewrite E.
Qed.
Lemma feeds_decoded bh blocks ks ms : feeds blocks ks ms -> run_blocks bh blocks new_dec = Ok (match run_blocks bh blocks new_dec with Ok d => d | _ => new_dec end) /\
  d_log (match run_blocks bh blocks new_dec with Ok d => d | _ => new_dec end) = map callback ks.
Proof.
  intros (tail & Hb & Hk & Ht & Hc & Hs & Hl). destruct (C40_stream bh (fun _ => true) blocks (map on_wire ks) tail Hb) as (ok & d & Hf & Hd); [|done|done|].
  { apply Forall_map. eapply Forall_impl; [done|]. apply on_wire_length. }
  rewrite (deliver_packets bh ks [] Hk) in Hd. injection Hd as <- Hlog. cbn [app] in Hlog. rewrite (run_feed _ _ _ _ Hf). by split.
Qed.
Theorem C70_trades bh blocks ks ms : feeds blocks ks ms -> exists s opss ers x, market_engine bh blocks = Ok s /\ reach s /\
  Forall2 asks ms opss /\ performs init (EnableMatching :: concat opss) ers (st_log s) s /\
  exchange_run (EnableMatching :: concat opss) nothing = (ers, execs (st_log s), x) /\ agrees x s /\ all_uncrossed s.
Proof.
  intros H. pose proof H as (tail & Hb & Hk & Ht & Hc & Hs & Hl). destruct (feeds_decoded bh blocks ks ms H) as [E El]. destruct (says_asks ks ms Hk Hs) as (opss & H1 & H2).
  destruct (C70_any_bytes bh blocks Hb) as (d & Ed & Hx). rewrite Ed in El. destruct Hx as (s & ers & x & A1 & A2 & A3 & A4 & A5 & A6); [by rewrite El, map_length|].
  exists s, opss, ers, x. rewrite H2, <- El. done.
Qed.
Print Assumptions C70_trades.

(** ** The books of the engine *)
Lemma performs_app o1 : forall s o2 ers evs s', performs s (o1 ++ o2) ers evs s' -> exists e1 v1 s1 e2 v2, performs s o1 e1 v1 s1 /\ performs s1 o2 e2 v2 s'.
Proof.
  induction o1 as [|a o1 IH]; intros s o2 ers evs s' H; [exists [], [], s, ers, evs; split; [constructor|done]|].
  inversion H as [|s0 a0 s1 er evs1 ops ers1 evs2 s2 Hop Hc Hp]; subst. destruct (IH _ _ _ _ _ Hp) as (e1 & v1 & s2 & e2 & v2 & H1 & H2).
  exists (er :: e1), (evs1 ++ v1), s2, e2, v2. split; [by econstructor|done].
Qed.
Lemma announce s B sy s1 er1 evs1 s2 er2 evs2 : known s B -> reach s -> call s (AddSymbol sy) s1 er1 evs1 -> op_ok s (AddSymbol sy) -> call s1 (AddOrderBook sy) s2 er2 evs2 -> op_ok s1 (AddOrderBook sy) ->
  known s2 (sy_id sy :: B).
Proof.
  intros Hk Hr Hc1 O1 Hc2 O2. pose proof (C30_registry s (AddSymbol sy) s1 er1 evs1 Hr O1 Hc1) as (K1 & K2 & K3).
  assert (Hr1 : reach s1) by (eapply reach_step; [done|apply O1|apply Hc1]). pose proof (C30_registry s1 (AddOrderBook sy) s2 er2 evs2 Hr1 O2 Hc2) as (L1 & L2 & L3).
  set (sym := sy_id sy) in *.
  assert (A1 : forall j, (known_symbols s1 j <-> j ∈ sym :: B) /\ (open_books s1 j <-> j ∈ B)).
  { intros j. destruct (Hk j) as [Hk1 Hk2]. split; [|unfold open_books; rewrite K1; exact Hk2]. rewrite elem_of_cons, <- Hk1. unfold known_symbols.
    destruct (get_symbol sym s) as [x|] eqn:Es; destruct K3 as (_ & _ & K3); [rewrite K3|destruct K3 as [K3 K4]]; destruct (decide (j = sym)) as [->|Hne]; try (rewrite K4 by done); rewrite ?Es, ?K3; naive_solver. }
  intros j. split.
  - rewrite <- (proj1 (A1 j)). unfold known_symbols. by rewrite L1.
  - rewrite elem_of_cons, <- (proj2 (A1 j)). unfold open_books. assert (Hsy : get_symbol sym s1 <> None) by (apply (proj1 (A1 sym)); left).
    destruct (get_symbol sym s1) as [r|]; [|done]. destruct (get_book sym s1) as [b|] eqn:Eb.
    + destruct L3 as (_ & _ & L3). rewrite L3. split; [auto|]. intros [->|?]; [by rewrite Eb|done].
    + destruct L3 as (_ & _ & L3 & L4). destruct (decide (j = sym)) as [->|Hne]; [rewrite L3; naive_solver|rewrite L4 by done; naive_solver].
Qed.
Lemma asked_known ms opss : Forall2 asks ms opss -> forall s B ers evs s', reach s -> known s B -> performs s (concat opss) ers evs s' -> known s' (books_all B ms).
Proof.
  induction 1 as [|m ops ms opss Hm _ IH]; intros s B ers evs s' Hr Hk Hp; [inversion Hp; by subst|]. cbn [concat] in Hp.
  destruct (performs_app _ _ _ _ _ _ Hp) as (e1 & v1 & s1 & e2 & v2 & H1 & H2). cbn [books_all fold_left]. change (fold_left _ ms (books_of m ++ B)) with (books_all (books_of m ++ B) ms).
  enough (reach s1 /\ known s1 (books_of m ++ B)) as [Hr1 Hk1] by (by eapply IH).
  destruct (match m with FBook _ => true | _ => false end) eqn:Em.
  - destruct m as [sym| | | | | | | |]; try done. destruct Hm as [nm ->]. inversion H1 as [|? ? sa ? ? ? ? ? ? Ho1 Hc1 Hp1]; subst. inversion Hp1 as [|? ? sb ? ? ? ? ? ? Ho2 Hc2 Hp2]; subst. inversion Hp2; subst.
    assert (Hra : reach sa) by (eapply reach_step; [done|exact Ho1|apply Hc1]).
    split; [eapply reach_step; [exact Hra|exact Ho2|apply Hc2]|]. exact (announce s B (mkSymbol sym nm) _ _ _ _ _ _ Hk Hr Hc1 Ho1 Hc2 Ho2).
  - assert (Eb : books_of m = []) by (by destruct m). rewrite Eb. cbn [app].
    assert (ops = [] \/ exists a, ops = [a] /\ order_call a = true) as [-> | (a & -> & Ho)].
    { destruct m; cbn [asks] in Hm; try done; subst ops; first [by left|right; eexists; split; reflexivity]. }
    + inversion H1; by subst.
    + inversion H1 as [|? ? sa ? ? ? ? ? ? Ho1 Hc1 Hp1]; subst. inversion Hp1; subst. split; [eapply reach_step; [done|exact Ho1|apply Hc1]|].
      destruct (order_known _ _ _ _ _ Hr Ho1 Hc1 Ho) as [N1 N2]. intros j. rewrite (N1 j), (N2 j). apply Hk.
Qed.

(** ** The figures *)
Lemma often_times d l : how_often d l = times d (kinds l).
Proof.
  unfold how_often, times, kinds. f_equal. induction l as [|ev l IH]; [done|]. cbn [List.filter omap list_omap]. destruct ev, d; cbn [is_about kind_of]; cbn; rewrite ?IH; done.
Qed.
Lemma many_ups l : how_many l = ups l.
Proof.
  unfold how_many, ups. induction l as [|ev l IH]; [done|]. change (sumZ (map up1 (ev :: l))) with (up1 ev + sumZ (map up1 l)). rewrite <- IH. cbn [List.filter]. destruct ev; cbn [up1 length]; lia.
Qed.
Lemma often_many d l : how_often d l <= how_many l.
Proof. unfold how_often, how_many. induction l as [|ev l IH]; [done|]. cbn [List.filter]. destruct ev, d; cbn [is_about length]; lia. Qed.
Lemma often_pos d l : 0 <= how_often d l.
Proof. unfold how_often. lia. Qed.
Lemma silent_symbols ns : forall t, how_many (map fst ns) = 0 -> t_symbols (tell_all t ns) = t_symbols t.
Proof.
  induction ns as [|[ev b] ns IH]; intros t H; [done|]. change (tell_all t ((ev, b) :: ns)) with (tell_all (tell t (ev, b)) ns). cbn [map fst] in H. unfold how_many in *. cbn [List.filter] in H.
  destruct ev; cbn [length] in H; try lia. rewrite IH by done. by destruct t.
Qed.
Theorem C71_engine_report bh blocks ks ms hear elapsed nb : feeds blocks ks ms -> 0 < elapsed < TWO64 -> (forall l, map fst (hear l) = l) ->
  number (fun sym => FBook sym ∈ ms) nb -> 0 < nb ->
  exists s, market_engine bh blocks = Ok s /\ let l := st_log s in let n := Z.of_nat (length ks) in let u := how_many l in
  (u * 1000000000 < TWO64 -> exists levels level_orders orders, (forall most, peak live_orders s most -> most <= orders <= most + 1) /\
   matching_engine bh hear elapsed blocks = Ok [
    ("Errors", 0); ("Processing time", elapsed); ("Total ITCH messages", n); ("ITCH message latency", elapsed / n); ("ITCH message throughput", n * 1000000000 / elapsed);
    ("Total market updates", u); ("Market update latency", elapsed / u); ("Market update throughput", u * 1000000000 / elapsed);
    ("Max symbols", nb); ("Max order books", nb); ("Max order book levels", levels); ("Max order book orders", level_orders); ("Max orders", orders);
    ("Add order operations", how_often Arrives l); ("Update order operations", how_often Changes l); ("Delete order operations", how_often Leaves l); ("Execute order operations", how_often Trades l)]%string).
Proof.
  intros H He Hhear Hnb Hpos. pose proof H as (tail & Hb & Hk & Ht & Hc & Hs & Hl). destruct (feeds_decoded bh blocks ks ms H) as [E El].
  set (d := match run_blocks bh blocks new_dec with Ok d => d | _ => new_dec end) in *. destruct (says_asks ks ms Hk Hs) as (opss & H1 & H2).
  assert (Hg : Forall (from_bytes bh) (d_log d)). { destruct (blocks_good bh blocks new_dec Hb) as (d' & E' & [_ Hg]); [split; constructor|constructor|]. rewrite E in E'. by injection E' as <-. }
  destruct (engine_all_narrow bh _ Hg) as [Hn Hsum]. destruct (engine_ops _ Hn) as (ers & evs & s & x & R & Er & Elog & Hu & P & _).
  { assert (Z.of_nat (length (d_log d)) <= TWO32) by (by rewrite El, map_length). unfold TWO64, TWO32 in *. lia. }
  exists s. split; [unfold market_engine; rewrite E; exact Er|]. cbv zeta. rewrite Elog. intros Hfew.
  set (t := tell_all no_tally (hear (st_log s))). assert (Htold : Spec21.told (hear (st_log s)) evs) by (unfold Spec21.told; by rewrite Hhear).
  destruct on_facts as [Of1 Of2]. destruct (ru_flat _ _ _ _ _ R _ no_tally Htold Of1 Of2) as [F [F1 F2]]. fold t in F, F1, F2.
  assert (Hk0 : known on []). { intros j. destruct (on_known j) as [N1 N2]. split; (split; [intros Hj; exfalso; by auto|intros Hj; by apply elem_of_nil in Hj]). }
  pose proof (ru_does _ _ _ _ _ R) as Hdo. rewrite El, <- H2 in Hdo. pose proof (asked_known ms opss H1 on [] ers evs s (reach_with_reach _ _ on_reach) Hk0 Hdo) as Hkn.
  assert (Hbooks : number (fun j => j ∈ books_all [] ms) nb) by (eapply number_iff; [exact Hnb|]; intros j; rewrite books_all_in, elem_of_nil; naive_solver).
  assert (Esy : t_symbols t = nb). { apply (number_fun (known_symbols s)); [apply F|]. eapply number_iff; [exact Hbooks|]. intros j. symmetry. apply (Hkn j). }
  assert (Ebk : t_order_books t = nb). { apply (number_fun (open_books s)); [apply F|]. eapply number_iff; [exact Hbooks|]. intros j. symmetry. apply (Hkn j). }
  assert (Hu0 : 0 < how_many evs).
  { assert (0 <= how_many evs) by (unfold how_many; lia). destruct (decide (how_many evs = 0)) as [Ez|]; [|lia]. exfalso. assert (Hz : t_symbols t = 0) by (unfold t; apply (silent_symbols (hear (st_log s)) no_tally); by rewrite Hhear, Elog). lia. }
  assert (Ht64 : forall z, 0 <= z < TWO64 -> u64 z = z) by (intros; by apply u64_id).
  assert (Eup : t_updates t = how_many evs).
  { unfold t. rewrite (updates_tell _ no_tally 0 eq_refl), Hhear, Elog, <- many_ups. rewrite Z.add_0_l. apply Ht64. lia. }
  pose proof (view_tell (hear (st_log s)) no_tally) as Hv. fold t in Hv. rewrite Hhear, Elog in Hv.
  destruct (counts (kinds evs) 0 0 0 0 0 0) as (o' & mo' & Ec). change (u64 0) with 0 in Ec. change (view no_tally) with (0, 0, 0, 0, 0, 0) in Hv. rewrite Ec in Hv.
  unfold view in Hv. injection Hv as V1 V2 V3 V4 V5 V6. rewrite Z.add_0_l, <- often_times, Ht64 in V3, V4, V5, V6 by (pose proof (often_pos Arrives evs); pose proof (often_many Arrives evs); pose proof (often_pos Changes evs); pose proof (often_many Changes evs);
    pose proof (often_pos Leaves evs); pose proof (often_many Leaves evs); pose proof (often_pos Trades evs); pose proof (often_many Trades evs); lia).
  exists (t_max_levels t), (t_max_level_orders t), (t_max_orders t). split.
  { intros most Hm. apply (C65_maxima s (hear (st_log s)) 0 0 most); [unfold Spec21.told; by rewrite Hhear|done]. }
  unfold matching_engine. rewrite E. cbn [rbind]. rewrite Er. cbn [rbind]. fold t.
  rewrite note_all_is, El. destruct (callbacks_known ks Hk) as [-> ->]. rewrite map_length. change (length []) with 0%nat. change (u64 (Z.of_nat 0)) with 0.
  assert (1 <= length ks)%nat. { destruct ks; [|cbn; lia]. exfalso. assert (ms = []) as Ems by (by inversion Hs). rewrite Ems in Hnb. destruct Hnb as (lb & _ & Elb & Hp). destruct lb as [|j lb]; [cbn in Elb; lia|]. assert (Hj : j ∈ j :: lb) by left. apply Hp in Hj. by apply elem_of_nil in Hj. }
  rewrite (Ht64 (Z.of_nat (length ks))) by (unfold TWO64, TWO32 in *; lia). unfold report, div64. cbn [fst snd]. rewrite Eup. rewrite !Ht64 by (unfold TWO64, TWO32 in *; lia).
  replace (Z.of_nat (length ks) =? 0) with false by lia. replace (elapsed =? 0) with false by lia. replace (how_many evs =? 0) with false by lia. cbn [rbind].
  rewrite F1, F2, Esy, Ebk, V3, V4, V5, V6. done.
Qed.
Print Assumptions C71_engine_report.
(** The report of the ITCH throughput program, on any stream of messages of known and unknown types. *)
Theorem C71_itch_report bh blocks ms xs tail elapsed :
  Forall (Forall is_byte) blocks -> Forall (fun m => Z.of_nat (length m) <= 65535) ms -> incomplete tail -> concat blocks = stream ms ++ tail -> Forall2 Spec22.says ms xs ->
  0 < elapsed < TWO64 -> Z.of_nat (length ms) <= TWO32 ->
  let unknown := Z.of_nat (length (filter (fun x : Spec22.told => x.1 = "UnknownMessage"%string) xs)) in let n := Z.of_nat (length ms) - unknown in
  itch_throughput bh elapsed blocks = if decide (n = 0) then Undef else
    Ok [("Errors", unknown); ("Processing time", elapsed); ("Total ITCH messages", n); ("ITCH message latency", elapsed / n); ("ITCH message throughput", n * 1000000000 / elapsed)]%string.
Proof.
  intros Hb Hl Ht Hc Hs He Hf. cbv zeta. destruct (C69_counts bh blocks ms xs tail Hb Hl Ht Hc Hs) as (d & Ed & En).
  assert (Hsum : (length (filter (fun x : Spec22.told => x.1 <> "UnknownMessage"%string) xs) + length (filter (fun x : Spec22.told => x.1 = "UnknownMessage"%string) xs) = length xs)%nat).
  { clear. induction xs as [|x xs IH]; [done|]. rewrite !filter_cons. destruct (decide (x.1 = "UnknownMessage"%string)) as [e|e].
    - rewrite decide_False by (intros Hn; by apply Hn). cbn [length]. lia.
    - rewrite decide_True by done. cbn [length]. lia. }
  rewrite <- (Forall2_length _ _ _ Hs) in Hsum. unfold itch_throughput. rewrite Ed. cbn [rbind]. rewrite En. clear En.
  set (a := length (filter (fun x : Spec22.told => x.1 <> "UnknownMessage"%string) xs)) in *. set (b := length (filter (fun x : Spec22.told => x.1 = "UnknownMessage"%string) xs)) in *. clearbody a b.
  replace (Z.of_nat (length ms) - Z.of_nat b) with (Z.of_nat a) by lia. unfold itch_report, div64. cbn [fst snd].
  rewrite !(u64_id (Z.of_nat a)) by (unfold TWO64, TWO32 in *; lia). rewrite !(u64_id (Z.of_nat b)) by (unfold TWO64, TWO32 in *; lia).
  rewrite (u64_id (Z.of_nat a * 1000000000)) by (unfold TWO64, TWO32 in *; lia). case_decide as Ez; [by replace (Z.of_nat a =? 0) with true by lia|].
  replace (Z.of_nat a =? 0) with false by lia. cbn [rbind]. replace (elapsed =? 0) with false by lia. done.
Qed.
Print Assumptions C71_itch_report.

(** ** Example: a stock; a purchase of 500; a sale of 300 at a lower limit, which trades with it; the
    message that tells so (passed over); 50 cancelled; the rest replaced. *)
Definition e_day : list packet :=
  match layouts with
  | _ :: R :: _ :: _ :: _ :: _ :: _ :: _ :: A :: _ :: E :: _ :: X :: _ :: U :: _ =>
      let pk (l : layout) vs := mkPacket (fst (fst l)) (snd (fst l)) (snd l) vs in
      [pk R (hd 82 7 ++ [VText [65;65;80;76;32;32;32;32]; VText [81]; VText [78]; VNum 100; VText [78]; VText [67]; VText [90;32]; VText [80]; VText [78]; VText [78]; VText [49]; VText [78]; VNum 1; VText [78]]);
       pk A (hd 65 7 ++ [VNum 10; VText [66]; VNum 500; VText [65;65;80;76;32;32;32;32]; VNum 1000000]);
       pk A (hd 65 7 ++ [VNum 11; VText [83]; VNum 300; VText [65;65;80;76;32;32;32;32]; VNum 990000]);
       pk E (hd 69 7 ++ [VNum 10; VNum 300; VNum 4242]);
       pk X (hd 88 7 ++ [VNum 10; VNum 50]);
       pk U (hd 85 7 ++ [VNum 10; VNum 12; VNum 400; VNum 1005000])]
  | _ => []
  end.
Definition e_feed : list Feed.feed := [FBook 7; FAdd 10 7 BUY 1000000 500; FAdd 11 7 SELL 990000 300; FExecute 10 300; FReduce 10 50; FReplace 10 12 1005000 400].
Definition e_bytes : list Z := stream (map on_wire e_day).
Definition e_blocks : list (list Z) := [take 100 e_bytes; drop 100 e_bytes ++ [0; 19; 68]].
Lemma e_day_ok : Forall packet_ok e_day.
Proof.
  assert (Hb : forall l, bool_decide (Forall is_byte l) = true -> Forall is_byte l) by (intros l; apply bool_decide_eq_true).
  unfold e_day, layouts. repeat (apply Forall_cons; split; [split; [|split]|]); try (by apply Forall_nil); try (cbn [pk_type pk_name pk_layout fst snd];
    first [by (repeat (first [apply elem_of_list_here|apply elem_of_list_further]))|idtac]).
  all: try (split; [|by eexists]; unfold hd, head; cbn [app]; repeat (constructor; [cbn; first [lia | split; [reflexivity|apply Hb; vm_compute; reflexivity]]|]); constructor).
  all: intros t Ht; apply elem_of_list_In in Ht; cbn in Ht; unfold chr; cbn; intuition (try discriminate); match goal with H : (_, VText ?a) = (_, VText ?b) |- _ => injection H as <- end; auto.
Qed.
Example C70_example : feeds e_blocks e_day e_feed /\
  (match market_engine false e_blocks with Ok s => map (fun z => (o_id (fst (fst z)), snd (fst z), snd z)) (execs (st_log s)) | _ => [] end) = [(10, 1000000, 300); (11, 1000000, 300)] /\
  (match market_engine false e_blocks with Ok s => map (fun j => o_leaves <$> get_order j s) [10; 11; 12] | _ => [] end) = [None; None; Some 400].
Proof.
  split; [|split; vm_compute; reflexivity]. exists [0; 19; 68]. split; [|split; [exact e_day_ok|split; [right; vm_compute; reflexivity|split; [|split; [|done]]]]].
  - assert (Hx : forallb (fun l => forallb (fun x => (0 <=? x) && (x <? 256)) l) e_blocks = true) by (vm_compute; reflexivity).
    apply Forall_forall. intros l Hl. rewrite forallb_forall in Hx. apply elem_of_list_In in Hl. specialize (Hx l Hl). rewrite forallb_forall in Hx.
    apply Forall_forall. intros x Hi. apply elem_of_list_In in Hi. specialize (Hx x Hi). unfold is_byte. lia.
  - unfold e_blocks, e_bytes. cbn [concat]. rewrite app_nil_r, app_assoc, take_drop. done.
  - unfold e_day, layouts, e_feed. cbn [fst snd].
    apply says_one; [done|apply tells_book; [done|apply elem_of_list_In; vm_compute; tauto]|].
    apply says_one; [done|apply tells_buy; [by left| | | | |]; apply elem_of_list_In; vm_compute; tauto|].
    apply says_one; [done|apply tells_sell; [by left| | | | |]; apply elem_of_list_In; vm_compute; tauto|].
    apply says_one; [done|apply tells_execute; [done| |]; apply elem_of_list_In; vm_compute; tauto|].
    apply says_one; [done|apply tells_cancel; [done| |]; apply elem_of_list_In; vm_compute; tauto|].
    apply says_one; [done|apply tells_replace; [done| | | |]; apply elem_of_list_In; vm_compute; tauto|]. apply says_nil.
Qed.
Example C71_example : number (fun sym => FBook sym ∈ e_feed) 1 /\
  matching_engine false plain 2000 e_blocks = Ok [("Errors", 0); ("Processing time", 2000); ("Total ITCH messages", 6); ("ITCH message latency", 333); ("ITCH message throughput", 3000000);
    ("Total market updates", 16); ("Market update latency", 125); ("Market update throughput", 8000000); ("Max symbols", 1); ("Max order books", 1); ("Max order book levels", 0); ("Max order book orders", 1);
    ("Max orders", 2); ("Add order operations", 3); ("Update order operations", 2); ("Delete order operations", 2); ("Execute order operations", 2)]%string /\
  itch_throughput false 2000 e_blocks = Ok [("Errors", 0); ("Processing time", 2000); ("Total ITCH messages", 6); ("ITCH message latency", 333); ("ITCH message throughput", 3000000)]%string.
Proof.
  split; [|split; vm_compute; reflexivity].
  exists [7]. split; [apply NoDup_singleton|]. split; [done|]. intros j. unfold e_feed. rewrite !elem_of_cons, !elem_of_nil. split; [intros [->|[]]; by left|intros [H|H]; [injection H as ->; by left|]; repeat (destruct H as [H|H]; [discriminate|]); done].
Qed.
