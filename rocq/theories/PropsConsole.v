(** * PropsConsole.v -- the console: C59, C60, C61, C62. *)
From Coq Require Import Ascii String ZifyBool.
From stdpp Require Import fin_maps gmap relations strings.
From Verif Require Import Types Book Engine Manager Factory Validate LevelFacts BookInv EngInv EngPrim Steps StepsOk Refine1 Refine2 Refine3 Refine4 Api StateInv Micro Reach Calls Witness PropsState PropsSettle PropsReject PropsBasic PropsExchange PropsRing Console ConsoleOk Spec Spec8 Spec14 Spec15.
Open Scope Z_scope. Open Scope list_scope.

(** ** How much a call can add to the book *)
Definition brought (a : op) : Z :=
  match a with
  | AddOrder o => o_leaves o
  | ModifyOrder _ _ q | MitigateOrder _ _ q | ReplaceOrder _ _ _ q => q
  | ReplaceWith _ o => o_leaves o
  | _ => 0
  end.
Lemma live_leaves sid e i o : eng_ok sid e -> e_ords e !! i = Some o -> 0 < o_leaves o /\ 0 <= o_exec o.
Proof. intros [Hm _] Hi. destruct (mo_live _ Hm _ _ Hi). unfold u64_range in *. lia. Qed.
Lemma hstep_total sid e a evs c : eng_ok sid e -> hstep sid e a evs c -> total (e_ords (fst c)) + fly_leaves (snd c) <= total (e_ords e) + brought a.
Proof.
  intros He H. inversion H as [o o' Hs Hv|i q0 o u e' q o' Q Ho Hid Hs Hq He' Hords|mit i p q o u e' o' evs0 Q Ho Hid Hs Hq He' Hords|i ni p q o u e' o' Q evs0 Ho Hid Hs Hq Hni Hty He' Hords|i o u e' Q evs0 Ho Hid Hs He' Hords|a0 i price q0 o u e' q o' Q evs0 Ha Ho Hid Hs Hq He' Hords]; subst; cbn [fst snd fly_leaves] in *.
  - unfold o', placed. destruct (o_type o) eqn:Et; cbn; unfold retrail; rewrite ?Et; cbn; lia.
  - destruct (live_leaves _ _ _ _ He Ho). rewrite Hords, (total_reduced _ o) by done. unfold o'. cbn. lia.
  - destruct (live_leaves _ _ _ _ He Ho). rewrite Hords, (total_delete (e_ords e) _ _ Ho). unfold o', modified. destruct mit; cbn; [destruct (Z.ltb_spec (o_exec o) q); cbn; lia|lia].
  - destruct (live_leaves _ _ _ _ He Ho). rewrite Hords, (total_delete (e_ords e) _ _ Ho). cbn. lia.
  - destruct (live_leaves _ _ _ _ He Ho). rewrite Hords, (total_delete (e_ords e) _ _ Ho). cbn. lia.
  - destruct (live_leaves _ _ _ _ He Ho). rewrite Hords, (total_reduced _ o) by done. assert (brought a = 0) as -> by (by destruct Ha as [[-> _]| ->]). unfold o', executed. cbn. lia.
Qed.
Lemma outcome_brought s a s' er : inv s -> 0 <= brought a -> StateInv.outcome s a s' er -> total (st_ords s') <= total (st_ords s) + brought a.
Proof.
  intros Hinv Hb Ho. destruct Ho as [er|sid b c e' er Hbk Htg Hhd Hc Hfr Hend]; [lia|].
  destruct (ending_micro _ _ _ (wide True) _ _ _ Hend Hc (allows_wide _ _ _ (or_introl I)) (fun _ => I) (fun _ => I)) as [evs Hu]. pose proof (usteps_total _ _ _ _ _ Hu Hc) as Ht. cbn [fst snd fly_leaves] in Ht.
  destruct (head_hstep s sid b _ c Hinv Hbk Htg Hhd) as [hevs Hh]. pose proof (hstep_total _ _ _ _ _ (inv_eng _ _ _ Hinv Hbk) Hh) as H2. cbn in *. lia.
Qed.
Lemma mrun_total s s' : mrun s s' -> inv s -> total (st_ords s') <= total (st_ords s).
Proof.
  induction 1 as [|s sid b e' s' Hb Hr He' _ _ IH]; intros Hinv; [lia|]. pose proof (inv_eng _ _ _ Hinv Hb) as He.
  destruct (msteps_micro sid (wide True) _ _ (msteps_mono _ _ _ _ _ _ (fun x : False => match x with end) (fun x : False => match x with end) Hr) (conj He I) (allows_wide _ _ _ (or_introl I))) as [evs Hu].
  pose proof (usteps_total _ _ _ _ _ Hu (conj He I)) as Ht. cbn [fst snd fly_leaves] in Ht.
  assert (Hi : inv (put_eng sid e' s)). { eapply put_inv; [done|done|done|]. by destruct (msteps_ok sid _ _ Hr (conj He I)). }
  specialize (IH Hi). cbn in *. lia.
Qed.
Lemma step_brought s a s' er : inv s -> op_ok s a -> 0 <= brought a -> step s a = Ok (s', er) -> total (st_ords s') <= total (st_ords s) + brought a.
Proof.
  intros Hinv Hop Hb Hst. destruct (step_ok s a Hinv Hop) as (s1 & er1 & Heq & Hres & Hi1). rewrite Hst in Heq. injection Heq as <- <-.
  destruct Hres as [a s' er _ Ho|i o er _ _ _|i o s1 s' er Ho1 Hi Hop1 Ho2|s' Hm|s' Hm| | | | | | | | | |]; cbn [brought] in *; try (cbn; lia).
  - by eapply outcome_brought.
  - pose proof (outcome_brought s (DeleteOrder i) s1 OK Hinv (Z.le_refl 0) Ho1) as T1. pose proof (outcome_brought s1 (AddOrder o) _ _ Hi Hb Ho2) as T2. cbn in T1, T2. lia.
  - pose proof (mrun_total _ _ Hm Hinv). lia.
  - pose proof (mrun_total _ _ Hm (inv_matching true s Hinv)). cbn in *. lia.
Qed.

(** ** What can be entered is in range *)
Lemma says_nonneg l ws ns : says l ws ns -> Forall (fun n => 0 <= n) ns.
Proof. intros (fs & H & _). induction H as [|f n fs ns Hf _ IH]; constructor; [by eapply numeral_nonneg|done]. Qed.
Definition LIM : Z := 2 ^ 31.
Lemma enters_range l a ns s : enters l a ns -> moderate ns -> total (st_ords s) + LIM < TWO64 -> inv s ->
  (forall i, a = DeleteOrderBook i -> forall j r, get_order j s = Some r -> o_sym r <> i) -> op_ok s a /\ 0 <= brought a < LIM.
Proof.
  intros He Hm Ht Hi Hd. unfold moderate in Hm.
  assert (Hdel : forall i, total (delete i (st_ords s)) <= total (st_ords s)).
  { intros i. destruct (st_ords s !! i) as [o|] eqn:E; [|by rewrite delete_notin]. rewrite (total_delete _ _ _ E). pose proof (lo_leaves _ _ (mo_live _ (iv_map _ Hi) _ _ E)). lia. }
  assert (HL : LIM = 2147483648) by reflexivity. assert (H64 : TWO64 = 18446744073709551616) by reflexivity. assert (H32 : TWO32 = 4294967296) by reflexivity. assert (H63 : TWO63 = 9223372036854775808) by reflexivity.
  destruct He as [| |l f i name n Hf Hn Ho Hc ->|l i H|l i H|l i H|l sd i s0 q H|l sd i s0 q sl H|l sd i s0 p q H|l sd i s0 p q H|l sd i s0 p q H|l sd i s0 p q H|l sd i s0 st q H|l sd i s0 st p q H|l sd i s0 st q d t H|l sd i s0 st p q d t H|l i q H|l i p q H|l i p q H|l i ni p q H|l i H];
    try (apply says_nonneg in H; rewrite !Forall_cons in H); rewrite ?Forall_cons in Hm; unfold op_ok, order_range, u64_range, i64_range; cbn [brought MarketOrder LimitOrder StopOrder StopLimitOrder TrailingStopOrder TrailingStopLimitOrder o_id o_sym o_price o_stop o_qty o_exec o_leaves o_maxvis o_slip o_tdist o_tstep sy_id];
    unfold MAX64; rewrite ?H64, ?H32, ?HL in *; change (2 ^ 31) with 2147483648 in *.
  - split; [done|lia].
  - split; [done|lia].
  - apply numeral_nonneg in Hf. split; lia.
  - split; [done|lia].
  - split; lia.
  - split; [|lia]. intros j o Hj. by apply (Hd i eq_refl j o); rewrite get_order_inv.
  - split; [split_and!|]; lia.
  - split; [split_and!|]; lia.
  - split; [split_and!|]; lia.
  - split; [split_and!|]; lia.
  - split; [split_and!|]; lia.
  - split; [split_and!|]; lia.
  - split; [split_and!|]; lia.
  - split; [split_and!|]; lia.
  - split; [split_and!|]; lia.
  - split; [split_and!|]; lia.
  - split; [split_and!|]; lia.
  - specialize (Hdel i); split; [split_and!|]; lia.
  - specialize (Hdel i); split; [split_and!|]; lia.
  - specialize (Hdel i); split; [split_and!|]; lia.
  - split; lia.
Qed.

(** ** Sessions *)
Lemma tidy_cons s l ls o evs s1 : (forall ls1 o' evs' s', sits s1 ls1 o' evs' s' -> sits s (l :: ls1) (o ++ o') (evs ++ evs') s') -> ~ farewell l -> tidy_from s (l :: ls) -> tidy_from s1 ls.
Proof.
  intros Hs Hf Ht ls1 l' ls2 i ns o' evs' s' -> Hq He H1. eapply (Ht (l :: ls1) l' ls2 i ns); [done| |done|by apply Hs].
  intros l0 [<-|Hin]; auto.
Qed.
Definition comes_to (junk : nat -> string) (s : state) (ls : list string) : Prop :=
  exists o e s', session junk ls s = Ok (o, e, s') /\ exists evs ls1, sits s ls1 o evs s' /\ performs s (calls_of o) (codes_of o) evs s' /\
    match e with Ended => ls1 = ls | Crashed => exists l ls2 a ns, ls = ls1 ++ l :: ls2 /\ enters l a ns /\ ~ moderate ns end.
(** From a state with room for the quantities of all lines. *)
Lemma session_from ls : forall junk s, reach s -> total (st_ords s) + LIM * Z.of_nat (length ls) < TWO64 -> tidy_from s ls -> comes_to junk s ls.
Proof.
  induction ls as [|l ls IH]; intros junk s Hr Hb Ht.
  { exists [], Ended, s. split; [done|]. exists [], []. split; [constructor|split; [constructor|done]]. }
  assert (HLs : LIM * Z.of_nat (length (l :: ls)) = LIM * Z.of_nat (length ls) + LIM) by (cbn [length]; rewrite Nat2Z.inj_succ; lia).
  assert (HL0 : 0 < LIM) by done. assert (Hn : 0 <= LIM * Z.of_nat (length ls)) by lia. pose proof (reach_inv _ Hr) as Hi.
  unfold comes_to. cbn [session]. destruct (read_cases (junk O) l) as [-> Ha| -> Hf|(a & ns & He & Hm)|Hw Ha Hf He].
  - assert (Hnf : ~ farewell l). { intros Hf. pose proof (farewell_quit "" l Hf) as X. rewrite (aside_quiet "" l Ha) in X. done. }
    destruct (IH (fun n => junk (S n)) s Hr) as (o & e & s' & Hse & evs & ls1 & Hsi & Hpe & Hend); [lia|eapply (tidy_cons s l ls [Nothing] []); [|done|done]; intros; by constructor|].
    rewrite Hse. cbn. exists (Nothing :: o), e, s'. split; [done|]. exists evs, (l :: ls1). split; [by constructor|]. split; [done|].
    destruct e; [by rewrite Hend|]. destruct Hend as (l0 & ls2 & a & ns & -> & ? & ?). by exists l0, ls2, a, ns.
  - exists [], Ended, s. split; [done|]. exists [], (l :: ls). split; [by constructor|split; [constructor|done]].
  - assert (Hnf : ~ farewell l). { intros Hf. pose proof (farewell_quit (junk O) l Hf) as X. pose proof (enters_read l a ns He (junk O)) as Y. destruct (moderateb ns); [destruct Y as (? & Y & _)|]; rewrite X in Y; done. }
    pose proof (enters_read l a ns He (junk O)) as Hrd. destruct (moderateb ns) eqn:Em.
    + destruct Hrd as (a' & -> & He' & _). apply moderateb_ok in Em.
      assert (Hd : forall i, a' = DeleteOrderBook i -> forall j r, get_order j s = Some r -> o_sym r <> i).
      { intros i -> j r Hj. exact (Ht [] l ls i ns [] [] s eq_refl (fun _ x => match x with end) He' (sits_end s) j r Hj). }
      destruct (enters_range l a' ns s He' Em) as [Hop [Hb1 Hb2]]; [lia|done|done|].
      destruct (call_exists s a' Hi Hop) as (s1 & er & evs & Hc). destruct Hc as [Hst Hlog].
      pose proof (step_brought s a' s1 er Hi Hop Hb1 Hst) as Htot. pose proof (reach_step _ _ _ _ Hr Hop Hst) as Hr1.
      destruct (IH (fun n => junk (S n)) s1 Hr1) as (o & e & s' & Hse & evs' & ls1 & Hsi & Hpe & Hend); [lia|eapply (tidy_cons s l ls [Answer a' er] evs); [|done|done]; intros; by eapply sits_call; [|split|]|].
      rewrite Hst. cbn. rewrite Hse. cbn. exists (Answer a' er :: o), e, s'. split; [done|]. exists (evs ++ evs'), (l :: ls1).
      split; [by eapply sits_call; [|split|]|]. split; [by econstructor; [|split|]|].
      destruct e; [by rewrite Hend|]. destruct Hend as (l0 & ls2 & a0 & ns0 & -> & ? & ?). by exists l0, ls2, a0, ns0.
    + rewrite Hrd. exists [], Crashed, s. split; [done|]. exists [], []. split; [constructor|]. split; [constructor|]. exists l, ls, a, ns. split; [done|]. split; [done|].
      intros Hmo. apply moderateb_ok in Hmo. by rewrite Hmo in Em.
  - destruct (IH (fun n => junk (S n)) s Hr) as (o & e & s' & Hse & evs & ls1 & Hsi & Hpe & Hend); [lia|eapply (tidy_cons s l ls [Complaint] []); [|done|done]; intros; by constructor|].
    exists (Complaint :: o), e, s'. split; [destruct Hw as [-> | ->]; by rewrite Hse|]. exists evs, (l :: ls1). split; [by constructor|]. split; [done|].
    destruct e; [by rewrite Hend|]. destruct Hend as (l0 & ls2 & a & ns & -> & ? & ?). by exists l0, ls2, a, ns.
Qed.

(** ** C59: a text is read line by line, and what happens is what its lines say *)
Theorem C59_session junk ls : Z.of_nat (length ls) < 2 ^ 33 -> tidy ls ->
  exists o e s', session junk ls init = Ok (o, e, s') /\ exists evs ls1, sits init ls1 o evs s' /\ performs init (calls_of o) (codes_of o) evs s' /\
    match e with
    | Ended => ls1 = ls
    | Crashed => exists l ls2 a ns, ls = ls1 ++ l :: ls2 /\ enters l a ns /\ ~ moderate ns
    end.
Proof.
  intros Hl Ht. apply session_from; [constructor| |done]. change (total (st_ords init)) with 0.
  assert (LIM = 2147483648 /\ TWO64 = 18446744073709551616 /\ 2 ^ 33 = 8589934592) as (HL & H64 & H33) by done. rewrite HL, H64. rewrite H33 in Hl. lia.
Qed.
Print Assumptions C59_session.
(** A line says one call only. *)
Theorem C59_unambiguous l a b ns ms : enters l a ns -> enters l b ms -> moderate ns -> same_call a b.
Proof.
  intros Ha Hb Hm. apply moderateb_ok in Hm. pose proof (enters_read l a ns Ha "") as H1. rewrite Hm in H1. destruct H1 as (a' & H1 & _ & Hsa).
  pose proof (enters_read l b ms Hb "") as H2. destruct (moderateb ms); [|by rewrite H1 in H2]. destruct H2 as (b' & H2 & _ & Hsb). rewrite H1 in H2. injection H2 as <-.
  destruct Hsa as [-> |(i & n & m & -> & ->)]; [by destruct Hsb as [-> |(i & n & m & -> & ->)]; [left|right; eauto 6]|].
  destruct Hsb as [-> |(i2 & n2 & m2 & -> & [= <- <-])]; right; eauto 6.
Qed.
Print Assumptions C59_unambiguous.
(** The lines of a text. *)
Lemma lines_head l ls : no_newline l -> text_lines (l +:+ newline +:+ unlines ls) = l :: text_lines (unlines ls).
Proof.
  induction l as [|c l IH]; intros Hn; [done|]. cbn. assert (Hc : c <> "010"%char) by exact (Hn O c eq_refl).
  destruct (Ascii.eqb_spec c "010") as [|_]; [done|]. cbn in IH. rewrite IH; [done|]. intros k d Hk. exact (Hn (S k) d Hk).
Qed.
Theorem C59_lines ls : (forall l, In l ls -> no_newline l) -> text_lines (unlines ls) = ls.
Proof. induction ls as [|l ls IH]; intros Hn; [done|]. cbn [unlines]. rewrite lines_head by (apply Hn; by left). f_equal. apply IH. intros l' Hl. apply Hn. by right. Qed.
Print Assumptions C59_lines.
Theorem C59_text t : unlines (text_lines t) = t \/ unlines (text_lines t) = (t +:+ newline)%string.
Proof.
  induction t as [|c t IH]; [by left|]. cbn [text_lines]. destruct (Ascii.eqb_spec c "010") as [-> |Hc].
  - cbn. destruct IH as [-> | ->]; [by left|by right].
  - destruct (text_lines t) as [|l ls]; cbn in *; destruct IH as [IH|IH].
    + rewrite <- IH. by right.
    + destruct t; discriminate.
    + left. by rewrite IH.
    + right. by rewrite IH.
Qed.
Print Assumptions C59_text.

(** ** C60: the program survives exactly the texts whose numbers are below 2^31 *)
Lemma crash_at junk l a ns : enters l a ns -> ~ moderate ns -> read_line junk l = Thrown.
Proof. intros He Hm. pose proof (enters_read l a ns He junk) as H. destruct (moderateb ns) eqn:E; [apply moderateb_ok in E; done|done]. Qed.
Definition bad_line (ls : list string) : Prop :=
  exists ls1 l ls2 a ns, ls = ls1 ++ l :: ls2 /\ (forall l', In l' ls1 -> ~ farewell l') /\ enters l a ns /\ ~ moderate ns.
Lemma bad_skip l ls : ~ farewell l -> (forall a ns, enters l a ns -> moderate ns) -> bad_line (l :: ls) <-> bad_line ls.
Proof.
  intros Hf Hm. split.
  - intros (ls1 & l0 & ls2 & a & ns & Heq & Hq & He & Hn). destruct ls1 as [|l1 ls1]; cbn in Heq; injection Heq as <- ->; [by destruct Hn; eapply Hm|].
    exists ls1, l0, ls2, a, ns. split_and!; [done| |done|done]. intros l' Hl. apply Hq. by right.
  - intros (ls1 & l0 & ls2 & a & ns & -> & Hq & He & Hn). exists (l :: ls1), l0, ls2, a, ns. split_and!; [done| |done|done]. intros l' [<-|Hl]; auto.
Qed.
Lemma not_farewell l a ns : enters l a ns -> ~ farewell l.
Proof. intros He Hf. pose proof (farewell_quit "" l Hf) as X. pose proof (enters_read l a ns He "") as Y. destruct (moderateb ns); [destruct Y as (? & Y & _)|]; rewrite X in Y; done. Qed.
Lemma moderate_all junk l r : read_line junk l = r -> r <> Thrown -> forall a ns, enters l a ns -> moderate ns.
Proof. intros Hr Hn a ns He. apply moderateb_ok. pose proof (enters_read l a ns He junk) as H. destruct (moderateb ns); [done|]. by rewrite Hr in H. Qed.
Lemma crashed ls : forall junk s o e s', session junk ls s = Ok (o, e, s') -> (e = Crashed <-> bad_line ls).
Proof.
  induction ls as [|l ls IH]; intros junk s o e s' H.
  { cbn in H. injection H as <- <- <-. split; [done|]. intros (ls1 & ? & ? & ? & ? & H & _). by destruct ls1. }
  cbn [session] in H. destruct (read_cases (junk O) l) as [Hr Ha|Hr Hf|(a & ns & He & Hr)|Hr Ha Hf He].
  - rewrite Hr in H. destruct (session _ ls s) as [[[o1 e1] s1]| |] eqn:E; [|done..]. cbn in H. injection H as <- <- <-.
    rewrite bad_skip; [by eapply IH| |by eapply moderate_all]. intros Hf. by rewrite (farewell_quit _ _ Hf) in Hr.
  - rewrite Hr in H. injection H as <- <- <-. split; [done|]. intros (ls1 & l0 & ? & a & ns & Heq & Hq & He & _). destruct ls1 as [|l1 ls1]; injection Heq as <- _.
    + by destruct (not_farewell _ _ _ He).
    + by destruct (Hq l (or_introl eq_refl)).
  - destruct (moderateb ns) eqn:Em; rewrite Hr in H.
    + destruct (step s a) as [[s2 er]| |]; [|done..]. cbn in H. destruct (session _ ls s2) as [[[o1 e1] s1]| |] eqn:E; [|done..]. cbn in H. injection H as <- <- <-.
      rewrite bad_skip; [by eapply IH|by eapply not_farewell|by eapply moderate_all].
    + injection H as <- <- <-. split; [intros _|done]. exists [], l, ls, a, ns. split_and!; [done|by intros ? []|done|]. intros Hm. apply moderateb_ok in Hm. by rewrite Hm in Em.
  - assert (Hs : exists o1, session (fun n => junk (S n)) ls s = Ok (o1, e, s')).
    { destruct (session _ ls s) as [[[o1 e1] s1]| |]; destruct Hr as [Hr|Hr]; rewrite Hr in H; try done; cbn in H; injection H as <- <- <-; by exists o1. }
    destruct Hs as [o1 Hs]. rewrite bad_skip; [by eapply IH|done|]. intros a ns Hen. by destruct (He a ns).
Qed.
Theorem C60_ends junk ls s o e s' : session junk ls s = Ok (o, e, s') ->
  (e = Crashed <-> exists ls1 l ls2 a ns, ls = ls1 ++ l :: ls2 /\ (forall l', In l' ls1 -> ~ farewell l') /\ enters l a ns /\ ~ moderate ns).
Proof. apply crashed. Qed.
Print Assumptions C60_ends.
(** Finding: the documented commands carry 64-bit identifiers, prices and quantities, but a number of 2^31 or more ends the program. *)
Theorem C60_refuted : exists l a, enters l a [2 ^ 31] /\ op_ok init a /\ forall junk ls s, session junk (l :: ls) s = Ok ([], Crashed, s).
Proof.
  exists "delete order 2147483648"%string, (DeleteOrder (2 ^ 31)).
  assert (He : enters "delete order 2147483648" (DeleteOrder (2 ^ 31)) [2 ^ 31]).
  { constructor. exists ["2147483648"%string]. split; [|done]. constructor; [|constructor].
    exact (numeral_of "2147483648" ltac:(done) eq_refl). }
  split; [done|]. split; [done|]. intros junk ls s. cbn [session].
  rewrite (crash_at (junk O) _ _ _ He); [done|]. intros H. apply moderateb_ok in H. done.
Qed.
Print Assumptions C60_refuted.

(** ** C61: a text without All-Or-None orders, against the reference exchange *)
Lemma sits_no_aon s ls o evs s' : sits s ls o evs s' -> no_aon_line ls -> Forall adds_no_aon (calls_of o).
Proof.
  induction 1 as [s|s l ls Hf|s l ls o evs s' Ha _ IH|s l ls o evs s' Ha Hf He _ IH|s l ls a ns sm er evs o evs' s' He Hc _ IH]; intros Hq; cbn; [constructor|constructor| | |];
    try (apply IH; intros l' Hl; apply Hq; by right).
  constructor; [|apply IH; intros l' Hl; apply Hq; by right]. specialize (Hq l (or_introl eq_refl)).
  destruct He; intros x; cbn; try discriminate; intros [= <-]; try discriminate.
  exfalso. destruct H as (fs & _ & ->). destruct sd; destruct fs; cbn in Hq; discriminate.
Qed.
Theorem C61_script junk ls : Z.of_nat (length ls) < 2 ^ 33 -> tidy ls -> no_aon_line ls ->
  exists o e s', session junk ls init = Ok (o, e, s') /\ exists evs ls1, sits init ls1 o evs s' /\ (exists ls2, ls = ls1 ++ ls2) /\
    exists x, bourse_run (calls_of o) new_bourse = (codes_of o, execs evs, x) /\ alike x s'.
Proof.
  intros Hl Ht Hna. destruct (C59_session junk ls Hl Ht) as (o & e & s' & Hs & evs & ls1 & Hsi & Hpe & Hend). exists o, e, s'. split; [done|]. exists evs, ls1. split; [done|].
  assert (Hpre : exists ls2, ls = ls1 ++ ls2). { destruct e; [subst ls1; exists []; by rewrite app_nil_r|]. destruct Hend as (l & ls2 & _ & _ & -> & _). by exists (l :: ls2). }
  split; [done|]. apply C58_history; [done|]. eapply sits_no_aon; [done|]. intros l Hin. apply Hna. destruct Hpre as [ls2 ->]. apply in_or_app. by left.
Qed.
Print Assumptions C61_script.

(** ** C62: the name of a new symbol *)
Lemma name_full n : forall s j1 j2, (n <= String.length s)%nat -> name_from n s j1 = name_from n s j2.
Proof. induction n as [|n IH]; intros s j1 j2 Hn; [done|]. destruct s as [|c s]; cbn in Hn; [lia|]. cbn. f_equal. f_equal. apply IH. lia. Qed.
Definition long_names (ls : list string) : Prop :=
  forall l f i name, In l ls -> numeral f i -> l = sentence ["add"; "symbol"; f; name] -> (8 <= String.length name)%nat.
Lemma read_indep j1 j2 l : (forall f i name, numeral f i -> l = sentence ["add"; "symbol"; f; name] -> (8 <= String.length name)%nat) -> read_line j1 l = read_line j2 l.
Proof.
  intros Hn. assert (Hc : cmd_add_symbol j1 l = cmd_add_symbol j2 l).
  { destruct (symbol_inv j1 l) as [H1|(f & i & name & Hf & Hne & Ho & Hl & H1)].
    - destruct (symbol_inv j2 l) as [H2|(f & i & name & Hf & Hne & Ho & Hl & H2)]; [by rewrite H1, H2|]. exfalso. rewrite Hl, (symbol_ok _ _ _ _ Hf Hne Ho) in H1. by destruct (i <? 2 ^ 31).
    - rewrite H1, Hl, (symbol_ok _ _ _ _ Hf Hne Ho). by rewrite (name_full 8 name j1 j2 (Hn _ _ _ Hf Hl)). }
  unfold read_line. repeat (case_match; [done|]). cbn [dispatch first_cmd]. case_match; [done|]. done.
Qed.
Theorem C62_long_names ls : (forall l f i name, In l ls -> numeral f i -> l = sentence ["add"; "symbol"; f; name] -> (8 <= String.length name)%nat) ->
  forall junk junk' s, session junk ls s = session junk' ls s.
Proof.
  induction ls as [|l ls IH]; intros Hn junk junk' s; [done|]. cbn [session].
  assert (Hi : forall s, session (fun n => junk (S n)) ls s = session (fun n => junk' (S n)) ls s) by (intros s0; apply IH; intros l0 f i name Hin; apply Hn; by right).
  rewrite (read_indep (junk O) (junk' O) l) by (intros f i name; apply Hn; by left).
  destruct (read_line (junk' O) l) as [| |a| | |]; rewrite ?Hi; try done. destruct (step s a) as [[s1 er]| |]; cbn; [|done..]. by rewrite Hi.
Qed.
Print Assumptions C62_long_names.
(** The symbol that is added has the bytes of the text, as far as there are, in its name. *)
Theorem C62_added junk l f i name s : reach s -> numeral f i -> i < 2 ^ 31 -> name <> ""%string -> one_line name -> l = sentence ["add"; "symbol"; f; name] -> get_symbol i s = None ->
  exists n s', session junk [l] s = Ok ([Answer (AddSymbol (mkSymbol i n)) OK], Ended, s') /\ get_symbol i s' = Some (mkSymbol i n) /\ carries n name.
Proof.
  intros Hr Hf Hi Hne Ho -> Hg. pose proof (numeral_nonneg _ _ Hf) as Hpos. set (n := name_from 8 name (junk O)).
  assert (Hop : op_ok s (AddSymbol (mkSymbol i n))). { assert (TWO32 = 4294967296) as H32 by done. change (2 ^ 31) with 2147483648 in Hi. cbn. lia. }
  destruct (call_exists s _ (reach_inv _ Hr) Hop) as (s' & er & evs & Hc). pose proof (C30_registry s _ s' er evs Hr Hop Hc) as (_ & _ & H3). cbn in H3. rewrite Hg in H3. destruct H3 as (-> & _ & Hg' & _).
  exists n, s'. split; [|split; [done|apply name_carries]]. cbn [session]. rewrite read_symbol, (symbol_ok _ _ _ _ Hf Hne Ho). assert ((i <? 2 ^ 31) = true) as -> by (apply Z.ltb_lt; done).
  destruct Hc as [Hst _]. fold n. rewrite Hst. done.
Qed.
Print Assumptions C62_added.
(** Finding: a shorter name keeps what was in the memory before. *)
Theorem C62_refuted : exists j1 j2 l o1 s1 o2 s2, session (fun _ => j1) [l] init = Ok (o1, Ended, s1) /\ session (fun _ => j2) [l] init = Ok (o2, Ended, s2) /\
  enters l (AddSymbol (mkSymbol 1 65)) [1] /\ get_symbol 1 s1 <> get_symbol 1 s2.
Proof.
  exists "********"%string, "????????"%string, "add symbol 1 A"%string. do 4 eexists. split; [reflexivity|]. split; [reflexivity|]. split.
  - apply (en_add_symbol _ "1" 1 "A" 65); [by apply (numeral_of "1")|done| | |done].
    + intros [|[|k]] c; cbn; try discriminate; intros [= <-]. done.
    + intros [|[|k]] c _; cbn; try discriminate; intros [= <-]. done.
  - vm_compute. discriminate.
Qed.
Print Assumptions C62_refuted.

(** ** A day at the console *)
Definition day_lines : list string :=
  ["# a day"; "add symbol 0 CHRONOXOR"; "add book 0"; "enable matching"; "add limit sell 1 0 100 5"; "add limit sell 2 0 101 7"; "add limit buy 3 0 90 10";
   "add stop buy 4 0 102 3"; "add trailing stop-limit sell 5 0 80 79 2 5 1"; "add slippage market buy 6 0 8 5"; "add ioc limit sell 7 0 90 4"; "add fok limit buy 8 0 101 40";
   "add fok limit  buy 8 0 101 40"; "ad limit buy 9 0 1 1"; ""; "modify order 2 101 3"; "replace order 3 10 91 6"; "mitigate order 10 92 6"; "reduce order 10 1"; "delete order 77";
   "add market sell 11 0 4"; "delete symbol 9"; "disable matching"; "quit"; "delete order 99999999999"]%string.
Definition no_delete_book (ls : list string) : bool := forallb (fun l => negb (match strip "delete book" l with Some _ => true | None => false end)) ls.
Lemma tidy_no_delete ls : no_delete_book ls = true -> tidy ls.
Proof.
  intros H ls1 l ls2 i ns o evs s -> _ He. exfalso. unfold no_delete_book in H. rewrite forallb_app in H. cbn in H.
  inversion He as [| | | | |l0 i0 Hs| | | | | | | | | | | | | | |]; subst. destruct Hs as (fs & _ & ->). destruct fs; cbn in H; by rewrite andb_false_r in H.
Qed.
Definition brief_shown (x : shown) : option err := match x with Answer _ er => Some er | _ => None end.
Definition brief_session (x : res (list shown * ending * state)) : list (option err) * ending * list (Z * Z * Z) :=
  match x with
  | Ok (o, e, s) => (map brief_shown o, e, map (fun z => (o_id (fst (fst z)), snd (fst z), snd z)) (execs (st_log s)))
  | _ => ([], Crashed, [])
  end.
Lemma day_long : long_names day_lines.
Proof.
  intros l f i name Hin Hf ->. pose proof (numeral_inv _ _ Hf) as (Hne & Hd & _). unfold day_lines in Hin. cbn [In] in Hin.
  repeat (destruct Hin as [Hin|Hin]; [first [discriminate Hin|rewrite symbol_sentence in Hin; cbn in Hin; injection Hin as Hin]|]); [|done].
  destruct f as [|c f]; [done|]. cbn in Hin. injection Hin as <- Hin. destruct f as [|c f].
  - cbn in Hin. injection Hin as <-. cbn. lia.
  - cbn in Hin. injection Hin as <- _. cbn in Hd. discriminate.
Qed.
Definition letter_ok (l : string) : bool := all_chars (fun c => negb (Ascii.eqb c "010")) l.
Lemma letter_no_newline l : letter_ok l = true -> no_newline l.
Proof.
  unfold letter_ok. induction l as [|c l IH]; intros H k d Hk; [by destruct k|]. cbn in H. apply andb_true_iff in H as [H1 H2]. destruct k as [|k]; cbn in Hk.
  - injection Hk as <-. intros ->. done.
  - by eapply IH.
Qed.
Example C59_example : tidy day_lines /\ no_aon_line day_lines /\ long_names day_lines /\ (forall l, In l day_lines -> no_newline l) /\
  brief_session (session (fun _ => "") day_lines init) =
  ([None; Some OK; Some OK; Some OK; Some OK; Some OK; Some OK; Some OK; Some OK; Some OK; Some OK; Some OK; None; None; None; Some OK; Some OK; Some OK; Some OK; Some ORDER_NOT_FOUND;
    Some OK; Some SYMBOL_NOT_FOUND; Some OK], Ended,
   [(1, 100, 5); (6, 100, 5); (2, 101, 3); (6, 101, 3); (3, 90, 4); (7, 90, 4); (10, 92, 4); (11, 92, 4)]).
Proof.
  split; [by apply tidy_no_delete|]. split; [|split; [exact day_long|split; [|vm_compute; reflexivity]]].
  - intros l Hin. assert (H : forallb (fun l => negb (String.prefix "add aon limit" l)) day_lines = true) by (vm_compute; reflexivity). rewrite forallb_forall in H. specialize (H l Hin). by destruct (String.prefix _ _).
  - intros l Hin. apply letter_no_newline. assert (H : forallb letter_ok day_lines = true) by (vm_compute; reflexivity). rewrite forallb_forall in H. by apply H.
Qed.
(** A book may be deleted when it is empty. *)
Example C59_example_delete : tidy ["delete book 0"; "add symbol 0 A"]%string.
Proof.
  intros ls1 l ls2 i ns o evs s Heq _ He Hs j r Hj. destruct ls1 as [|l1 [|l2 ls1]]; cbn in Heq.
  - inversion Hs; subst. unfold get_order in Hj. cbn in Hj. rewrite lookup_empty in Hj. by destruct (j =? 0).
  - injection Heq as <- <- <-. inversion He as [| | | | |l0 i0 Hd| | | | | | | | | | | | | | |]; subst. destruct Hd as (fs & _ & Hd). by destruct fs.
  - by destruct ls1.
Qed.
Example C60_example : brief_session (session (fun _ => "") ["add symbol 0 A"; "add book 2147483648"; "add book 0"]%string init) = ([Some OK], Crashed, []).
Proof. vm_compute. reflexivity. Qed.
