(** * PropsPrint.v -- C63: the printed text tells the notifications. *)
From Coq Require Import Ascii String DecimalString DecimalZ DecimalFacts Decimal.
From stdpp Require Import strings fin_maps.
From Verif Require Import Types Book Engine Manager Factory Print Reach Calls Witness PropsState PropsMirror PropsMirror2 Console ConsoleOk PropsConsole Spec Spec3 Spec15 Spec19.
Open Scope Z_scope. Open Scope list_scope.

(** ** Texts *)
Lemma sapp_assoc (a b c : string) : ((a +:+ b) +:+ c = a +:+ b +:+ c)%string.
Proof. induction a as [|x a IH]; [done|]. cbn. by rewrite <- IH. Qed.
(** A word: no blank, no semicolon, no closing bracket, no end of line. *)
Definition wordb (c : ascii) : bool := negb (Ascii.eqb c " " || Ascii.eqb c ";" || Ascii.eqb c ")" || Ascii.eqb c "010").
Definition stops (t : string) : Prop := match t with String c _ => wordb c = false | EmptyString => True end.
Lemma cut a : forall b x y, all_chars wordb a = true -> all_chars wordb b = true -> stops x -> stops y -> (a +:+ x = b +:+ y)%string -> a = b /\ x = y.
Proof.
  induction a as [|c a IH]; intros [|d b] x y Ha Hb Hx Hy H; cbn in H.
  - done.
  - subst x. cbn in Hx, Hb. apply andb_prop in Hb as [Hd _]. congruence.
  - subst y. cbn in Hy, Ha. apply andb_prop in Ha as [Hd _]. congruence.
  - injection H as -> H. cbn in Ha, Hb. apply andb_prop in Ha as [_ Ha], Hb as [_ Hb]. destruct (IH b x y Ha Hb Hx Hy H) as [-> ->]. done.
Qed.
(** ** Numbers *)
Lemma uint_word d : all_chars wordb (NilEmpty.string_of_uint d) = true.
Proof. induction d; cbn; auto. Qed.
Lemma dec_word z : all_chars wordb (dec z) = true.
Proof.
  unfold dec. destruct (Z.to_int z) as [d|d]; cbn; [|destruct d; cbn; rewrite ?uint_word; done]. destruct d; cbn; rewrite ?uint_word; done.
Qed.
Lemma to_int_usable z : Z.to_int z <> Pos Nil /\ Z.to_int z <> Neg Nil.
Proof.
  destruct z as [|p|p]; cbn; [done| |]; (split; [|try done]); intros [= H]; by apply (DecimalPos.Unsigned.to_uint_nonnil p).
Qed.
Lemma dec_inj a b : dec a = dec b -> a = b.
Proof.
  unfold dec. intros H. destruct (to_int_usable a) as [A1 A2], (to_int_usable b) as [B1 B2].
  pose proof (NilZero.isi_posnil) as _.
  assert (E : NilZero.int_of_string (NilZero.string_of_int (Z.to_int a)) = NilZero.int_of_string (NilZero.string_of_int (Z.to_int b))) by (by rewrite H).
  rewrite !NilZero.isi in E by done. injection E as E. by apply DecimalZ.to_int_inj.
Qed.
Lemma sapp_nil (a : string) : (a +:+ "" = a)%string.
Proof. induction a as [|c a IH]; [done|]. cbn. by rewrite IH. Qed.
Lemma slit a : forall x y, (a +:+ x = a +:+ y)%string -> x = y.
Proof. induction a as [|c a IH]; intros x y H; [done|]. injection H as H. by apply IH. Qed.
Lemma type_word t : all_chars wordb (type_text t) = true. Proof. by destruct t. Qed.
Lemma side_word_ok d : all_chars wordb (side_text d) = true. Proof. by destruct d. Qed.
Lemma tif_word t : all_chars wordb (tif_text t) = true. Proof. by destruct t. Qed.
Lemma ltype_word t : all_chars wordb (ltype_text t) = true. Proof. by destruct t. Qed.
Lemma type_inj a b : type_text a = type_text b -> a = b. Proof. by destruct a, b. Qed.
Lemma side_inj a b : side_text a = side_text b -> a = b. Proof. by destruct a, b. Qed.
Lemma tif_inj a b : tif_text a = tif_text b -> a = b. Proof. by destruct a, b. Qed.
Lemma ltype_inj a b : ltype_text a = ltype_text b -> a = b. Proof. by destruct a, b. Qed.
Ltac word := first [apply dec_word | apply type_word | apply side_word_ok | apply tif_word | apply ltype_word].
Ltac field H E inj := apply slit in H; apply cut in H as [E H]; [|word|word|first [exact eq_refl|exact I]|first [exact eq_refl|exact I]]; apply inj in E.
(** The optional part of an order. *)
Definition extras (tr mv sl : string) : string := (tr +:+ mv +:+ sl +:+ ")")%string.
Definition trail_text (t : option (Z * Z)) : string := match t with Some (d, s) => "; TrailingDistance=" +:+ dec d +:+ "; TrailingStep=" +:+ dec s | None => "" end.
Definition vis_text (v : option Z) : string := match v with Some v => "; MaxVisibleQuantity=" +:+ dec v | None => "" end.
Definition slip_text (v : option Z) : string := match v with Some v => "; Slippage=" +:+ dec v | None => "" end.
Lemma order_text_eq o : order_text o =
  ("Order(Id=" +:+ dec (o_id o) +:+ "; SymbolId=" +:+ dec (o_sym o) +:+ "; Type=" +:+ type_text (o_type o) +:+ "; Side=" +:+ side_text (o_side o) +:+
  "; Price=" +:+ dec (o_price o) +:+ "; StopPrice=" +:+ dec (o_stop o) +:+ "; Quantity=" +:+ dec (o_qty o) +:+ "; ExecutedQuantity=" +:+ dec (o_exec o) +:+
  "; LeavesQuantity=" +:+ dec (o_leaves o) +:+ "; " +:+ tif_text (o_tif o) +:+ extras (trail_text (trail_of o)) (vis_text (limit_of (o_maxvis o))) (slip_text (limit_of (o_slip o))))%string.
Proof.
  unfold order_text, extras. do 20 f_equal. change (2 ^ 64 - 1) with MAX64.
  assert ((if is_trailing_stop o || is_trailing_stop_limit o then "; TrailingDistance=" +:+ dec (o_tdist o) +:+ "; TrailingStep=" +:+ dec (o_tstep o) else "") = trail_text (trail_of o))%string as ->.
  { unfold is_trailing_stop, is_trailing_stop_limit, trail_of. by destruct (o_type o). }
  f_equal. unfold limit_of. change (2 ^ 64 - 1) with MAX64. assert ((o_maxvis o =? 0) || (o_maxvis o <? MAX64) = (o_maxvis o <? MAX64)) as ->.
  { destruct (Z.eqb_spec (o_maxvis o) 0) as [-> |]; done. }
  destruct (o_maxvis o <? MAX64), (o_slip o <? MAX64); done.
Qed.
Lemma slip_inj v w x y : stops x -> stops y -> (slip_text v +:+ ")" +:+ x = slip_text w +:+ ")" +:+ y)%string -> v = w /\ x = y.
Proof.
  intros Hx Hy H. destruct v as [v|], w as [w|]; cbn [slip_text] in H; try discriminate.
  - rewrite !sapp_assoc in H. field H E dec_inj. subst w. by injection H as ->.
  - by injection H as ->.
Qed.
Lemma vis_inj v w x y : (vis_text v +:+ x = vis_text w +:+ y)%string -> stops x -> stops y ->
  (forall z, x <> ("; MaxVisibleQuantity=" +:+ z)%string) -> (forall z, y <> ("; MaxVisibleQuantity=" +:+ z)%string) -> v = w /\ x = y.
Proof.
  intros H Hx Hy Nx Ny. destruct v as [v|], w as [w|]; cbn [vis_text] in H; rewrite ?sapp_assoc in H.
  - apply slit in H. apply cut in H as [E H]; [|word|word|done|done]. apply dec_inj in E. by subst.
  - exfalso. exact (Ny _ (eq_sym H)).
  - exfalso. exact (Nx _ H).
  - done.
Qed.
Lemma slip_stops v x : stops (slip_text v +:+ ")" +:+ x). Proof. by destruct v. Qed.
Lemma slip_not_vis v x z : (slip_text v +:+ ")" +:+ x)%string <> ("; MaxVisibleQuantity=" +:+ z)%string. Proof. by destruct v. Qed.
Lemma vis_stops v w x : stops (vis_text v +:+ slip_text w +:+ ")" +:+ x). Proof. destruct v; [done|]. apply slip_stops. Qed.
Lemma trail_inj v w x y : (trail_text v +:+ x = trail_text w +:+ y)%string -> (v = None <-> w = None) -> stops x -> stops y -> v = w /\ x = y.
Proof.
  intros H Hn Hx Hy. destruct v as [[d s]|], w as [[d' s']|]; [|naive_solver..|done]. cbn [trail_text] in H. rewrite !sapp_assoc in H.
  field H E dec_inj. apply slit in H. apply cut in H as [E2 H]; [|word|word|done|done]. apply dec_inj in E2. by subst.
Qed.
Lemma extras_stops t v w x : stops (trail_text t +:+ vis_text v +:+ slip_text w +:+ ")" +:+ x).
Proof. destruct t as [[d s]|]; [done|]. apply vis_stops. Qed.
Lemma order_text_inj o o' x y : (order_text o +:+ x = order_text o' +:+ y)%string -> stops x -> stops y -> facts o = facts o' /\ x = y.
Proof.
  rewrite !order_text_eq. unfold extras. rewrite !sapp_assoc. intros H Hx Hy.
  field H E1 dec_inj. field H E2 dec_inj. field H E3 type_inj. field H E4 side_inj. field H E5 dec_inj. field H E6 dec_inj. field H E7 dec_inj. field H E8 dec_inj. field H E9 dec_inj.
  apply slit in H. apply cut in H as [E10 H]; [|word|word|apply extras_stops..]. apply tif_inj in E10.
  apply trail_inj in H as [E11 H]; [|unfold trail_of; rewrite E3; by destruct (o_type o')|apply vis_stops..].
  apply vis_inj in H as [E12 H]; [|apply slip_stops|apply slip_stops|intros; apply slip_not_vis|intros; apply slip_not_vis].
  apply slip_inj in H as [E13 H]; [|done..]. split; [|done]. unfold facts. congruence.
Qed.
Theorem C63_order o o' : order_text o = order_text o' <-> facts o = facts o'.
Proof.
  split.
  - intros H. apply (order_text_inj o o' "" ""); [by rewrite H|done..].
  - unfold facts. intros [= E1 E2 E3 E4 E5 E6 E7 E8 E9 E10 E11 E12 E13]. rewrite !order_text_eq. by rewrite E1, E2, E3, E4, E5, E6, E7, E8, E9, E10, E11, E12, E13.
Qed.
Print Assumptions C63_order.
Lemma level_text_inj l l' x y : (level_text l +:+ x = level_text l' +:+ y)%string -> l = l' /\ x = y.
Proof.
  unfold level_text. rewrite !sapp_assoc. intros H. field H E1 ltype_inj. field H E2 dec_inj. field H E3 dec_inj. field H E4 dec_inj. field H E5 dec_inj. field H E6 dec_inj.
  injection H as H. split; [|done]. destruct l, l'. cbn in *. congruence.
Qed.
Theorem C63_level l l' : level_text l = level_text l' <-> l = l'.
Proof. split; [|by intros ->]. intros H. apply (level_text_inj l l' "" ""). by rewrite H. Qed.
Print Assumptions C63_level.
Theorem C63_codes e e' : err_text e = err_text e' <-> e = e'.
Proof. split; [|by intros ->]. by destruct e, e'. Qed.
Print Assumptions C63_codes.
(** The last character. *)
Fixpoint last_char (s : string) : option ascii := match s with EmptyString => None | String c EmptyString => Some c | String _ s => last_char s end.
Lemma last_char_app a c : last_char (a +:+ String c "") = Some c.
Proof. induction a as [|d a IH]; [done|]. cbn. destruct (a +:+ String c "")%string eqn:E; [by destruct a|]. done. Qed.
Lemma rlit a b c : (a +:+ String c "" = b +:+ String c "")%string -> a = b.
Proof.
  revert b. induction a as [|x a IH]; intros [|y b] H; cbn in H; [done| | |].
  - injection H as <- H. by destruct b.
  - injection H as -> H. by destruct a.
  - injection H as -> H. f_equal. by apply IH.
Qed.
Lemma symbol_text_inj wr s s' : symbol_text wr s = symbol_text wr s' -> sy_id s = sy_id s' /\ wr (sy_name s) = wr (sy_name s').
Proof. unfold symbol_text. intros H. field H E1 dec_inj. apply slit in H. apply rlit in H. done. Qed.
Lemma book_text_id wr b b' x y : (book_text wr b +:+ x = book_text wr b' +:+ y)%string -> sy_id (b_sym b) = sy_id (b_sym b').
Proof. unfold book_text, symbol_text. rewrite !sapp_assoc. intros H. apply slit in H. field H E1 dec_inj. done. Qed.
Definition book_front (wr : Z -> string) (b : book) : string :=
  "OrderBook(Symbol=" +:+ symbol_text wr (b_sym b) +:+ "; Bids=" +:+ size_text (b_bids b) +:+ "; Asks=" +:+ size_text (b_asks b) +:+ "; BuyStop=" +:+ size_text (b_bstop b) +:+
  "; SellStop=" +:+ size_text (b_sstop b) +:+ "; TrailingBuyStop=" +:+ size_text (b_tbuy b) +:+ "; TrailingSellStop=" +:+ size_text (b_tsell b).
Lemma book_text_front wr b : book_text wr b = (book_front wr b +:+ ")")%string.
Proof. unfold book_text, book_front. by rewrite !sapp_assoc. Qed.
Lemma top_inj wr b b' t t' : (book_text wr b +:+ top_text t = book_text wr b' +:+ top_text t')%string -> t = t'.
Proof.
  rewrite !book_text_front. intros H. apply (f_equal last_char) in H.
  assert (L : forall b t, last_char ((book_front wr b +:+ ")") +:+ top_text t) = Some (if t then "!" else ")")%char).
  { intros b0 [|]; cbn [top_text].
    - change " - Top of the book!"%string with (" - Top of the book" +:+ String "!" "")%string. rewrite <- sapp_assoc. apply last_char_app.
    - rewrite sapp_assoc. change (")" +:+ "")%string with (String ")" ""). apply last_char_app. }
  rewrite !L in H. by destruct t, t'.
Qed.
(** The same notification up to the book of a level. *)
Definition tells_weak (wr : Z -> string) (ev ev' : event) : Prop :=
  match ev, ev' with
  | EAddLevel _ l t, EAddLevel _ l' t' | EUpdateLevel _ l t, EUpdateLevel _ l' t' | EDeleteLevel _ l t, EDeleteLevel _ l' t' => l = l' /\ t = t'
  | _, _ => tells_alike wr ev ev'
  end.
Lemma top_text_inj t t' : top_text t = top_text t' -> t = t'. Proof. by destruct t, t'. Qed.
Lemma line_inj wr n n' : about n -> about n' -> line_text wr (snd n) (fst n) = line_text wr (snd n') (fst n') -> tells_weak wr (fst n) (fst n').
Proof.
  destruct n as [ev b], n' as [ev' b']. unfold about. cbn [fst snd]. intros Ha Ha' H.
  destruct ev, ev'; cbn [line_text] in H; try discriminate H; apply slit in H; cbn [tells_weak tells_alike].
  1, 2: by apply symbol_text_inj in H.
  1: pose proof (book_text_id wr b b' "" "" ltac:(by rewrite H)); congruence.
  1: pose proof (book_text_id wr b b' "" "" ltac:(by rewrite H)); congruence.
  1: pose proof (book_text_id _ _ _ _ _ H); apply top_inj in H; congruence.
  1, 2, 3: apply level_text_inj in H as [-> H]; split; [done|by apply top_text_inj].
  1, 2, 3: by apply C63_order.
  apply order_text_inj in H as [E H]; [|done..]. field H E2 dec_inj. rewrite <- (sapp_nil (dec qty)), <- (sapp_nil (dec qty0)) in H. field H E3 dec_inj. done.
Qed.

(** ** Lines *)
Definition nl_free (s : string) : Prop := all_chars (fun c => negb (Ascii.eqb c "010")) s = true.
Lemma all_app P a b : all_chars P (a +:+ b) = all_chars P a && all_chars P b.
Proof. induction a as [|c a IH]; [done|]. cbn. rewrite IH. by rewrite andb_assoc. Qed.
Lemma nl_app a b : nl_free a -> nl_free b -> nl_free (a +:+ b).
Proof. unfold nl_free. intros Ha Hb. by rewrite all_app, Ha, Hb. Qed.
Lemma word_free a : all_chars wordb a = true -> nl_free a.
Proof.
  unfold nl_free. induction a as [|c a IH]; [done|]. cbn. intros [Hc Ha]%andb_prop. rewrite (IH Ha), andb_true_r. unfold wordb in Hc. apply negb_true_iff in Hc. apply negb_true_iff.
  by apply orb_false_iff in Hc as [_ ->].
Qed.
Lemma free_ok a : nl_free a <-> no_newline a.
Proof.
  unfold nl_free. induction a as [|c a IH].
  - split; [|done]. intros _ k d H. by destruct k.
  - cbn. split.
    + intros [Hc Ha]%andb_prop k d H. destruct k as [|k]; cbn in H; [|by apply (proj1 IH Ha k)]. injection H as ->. by destruct (Ascii.eqb_spec d "010").
    + intros H. apply andb_true_intro. split; [|apply IH; intros k d Hd; exact (H (S k) d Hd)]. destruct (Ascii.eqb_spec c "010") as [-> |]; [|done]. by destruct (H O _ eq_refl).
Qed.
Ltac nl := repeat match goal with
  | |- nl_free (String.append _ _) => apply nl_app
  | |- nl_free (dec _) => apply word_free, dec_word
  | |- nl_free (type_text _) => apply word_free, type_word
  | |- nl_free (side_text _) => apply word_free, side_word_ok
  | |- nl_free (tif_text _) => apply word_free, tif_word
  | |- nl_free (ltype_text _) => apply word_free, ltype_word
  | |- nl_free (top_text ?t) => destruct t; cbn [top_text]
  | |- nl_free (String _ _) => exact eq_refl
  | |- nl_free EmptyString => exact eq_refl
  end.
Lemma order_free o : nl_free (order_text o).
Proof.
  rewrite order_text_eq. unfold extras. nl.
  - destruct (trail_of o) as [[d s]|]; cbn [trail_text]; nl.
  - destruct (limit_of (o_maxvis o)); cbn [vis_text]; nl.
  - destruct (limit_of (o_slip o)); cbn [slip_text]; nl.
Qed.
Lemma symbol_free wr s : clean wr -> nl_free (symbol_text wr s).
Proof. intros Hc. unfold symbol_text. nl. apply free_ok, Hc. Qed.
Lemma book_free wr b : clean wr -> nl_free (book_text wr b).
Proof. intros Hc. unfold book_text, size_text. nl. by apply symbol_free. Qed.
Lemma line_free wr b ev : clean wr -> nl_free (line_text wr b ev).
Proof.
  intros Hc. destruct ev; cbn [line_text]; unfold level_text; nl;
    match goal with |- nl_free (order_text _) => apply order_free | |- nl_free (symbol_text _ _) => by apply symbol_free | |- nl_free (book_text _ _) => by apply book_free end.
Qed.
Definition lines_of (wr : Z -> string) (ns : list (event * book)) : list string := map (fun n => line_text wr (snd n) (fst n)) ns.
Lemma stdout_lines wr ns : stdout wr ns = unlines (lines_of wr ns).
Proof. induction ns as [|[ev b] ns IH]; [done|]. cbn [stdout lines_of map unlines]. by rewrite IH. Qed.
Lemma stdout_read wr ns : clean wr -> text_lines (stdout wr ns) = lines_of wr ns.
Proof.
  intros Hc. rewrite stdout_lines. apply C59_lines. intros l Hl. apply in_map_iff in Hl as (n & <- & _). apply free_ok. by apply line_free.
Qed.
(** One line per notification. *)
Theorem C63_one_line wr ns : clean wr -> length (text_lines (stdout wr ns)) = length ns.
Proof. intros Hc. rewrite stdout_read by done. apply map_length. Qed.
Print Assumptions C63_one_line.
Lemma stdout_weak wr ns ns' : clean wr -> Forall about ns -> Forall about ns' -> stdout wr ns = stdout wr ns' -> Forall2 (tells_weak wr) (map fst ns) (map fst ns').
Proof.
  intros Hc Ha Ha' H. apply (f_equal text_lines) in H. rewrite !stdout_read in H by done. unfold lines_of in H.
  revert ns' Ha' H. induction Ha as [|n ns Hn Ha IH]; intros [|n' ns'] Ha' H; try discriminate; [constructor|]. cbn [map] in *. injection H as H1 H2. apply Forall_cons in Ha' as [Hn' Ha'].
  constructor; [by apply line_inj|]. by apply IH.
Qed.
(** ** Histories *)
Lemma log_paired s : reach s -> paired (st_log s).
Proof.
  induction 1 as [|s a s' er Hr IH Hop Hst]; [constructor|]. destruct (call_exists s a (reach_inv _ Hr) Hop) as (s1 & er1 & evs & Hst1 & Hlog). rewrite Hst in Hst1. injection Hst1 as <- <-.
  rewrite Hlog. apply paired_app; [done|]. by eapply C29_book_flag; [done|done|split].
Qed.
Lemma weak_level wr ev ev' : tells_weak wr ev ev' -> (level_event ev = None <-> level_event ev' = None).
Proof. by destruct ev, ev'. Qed.
Lemma weak_other wr ev ev' : tells_weak wr ev ev' -> level_event ev = None -> tells_alike wr ev ev'.
Proof. by destruct ev, ev'. Qed.
Lemma weak_strong wr evs : paired evs -> forall evs', paired evs' -> Forall2 (tells_weak wr) evs evs' -> Forall2 (tells_alike wr) evs evs'.
Proof.
  induction 1 as [|ev i top evs Hev Hp IH|ev evs Hev Hno Hp IH]; intros evs' Hp' Hf.
  - inversion Hf; subst. constructor.
  - inversion Hf as [|? ev' ? l1 H1 Hf1]; subst. inversion Hf1 as [|? x ? l2 H2 Hf2]; subst. inversion Hp' as [|? i' top' ? Hev' Hp1|? ? Hev' _ _]; subst.
    + cbn in H2. injection H2 as <- <-. constructor; [|constructor; [done|by apply IH]]. destruct ev, ev'; try done; cbn in *; destruct H1 as [-> ->]; congruence.
    + apply (weak_level _ _ _ H1) in Hev'. congruence.
  - inversion Hf as [|? ev' ? l1 H1 Hf1]; subst. inversion Hp' as [|? i' top' l2 Hev' Hp1|? ? Hev' _ Hp1]; subst.
    + apply (weak_level _ _ _ H1) in Hev. congruence.
    + constructor; [by apply weak_other|]. by apply IH.
Qed.
(** The notifications: two histories printing the same text made the same notifications. *)
Theorem C63_history wr s s' ns ns' : reach s -> reach s' -> clean wr -> map fst ns = st_log s -> map fst ns' = st_log s' -> Forall about ns -> Forall about ns' ->
  stdout wr ns = stdout wr ns' -> Forall2 (tells_alike wr) (st_log s) (st_log s').
Proof.
  intros Hr Hr' Hc H1 H2 Ha Ha' H. apply weak_strong; [by apply log_paired..|]. rewrite <- H1, <- H2. by apply stdout_weak.
Qed.
Print Assumptions C63_history.
Lemma alike_hear wr ev ev' c : tells_alike wr ev ev' -> hear c ev = hear c ev'.
Proof. destruct ev, ev'; cbn [tells_alike]; try done; intros [=]; by subst. Qed.
Lemma alike_hear_all wr evs evs' : Forall2 (tells_alike wr) evs evs' -> forall c, hear_all c evs = hear_all c evs'.
Proof. induction 1 as [|ev ev' evs evs' He Hf IH]; intros c; [done|]. cbn. rewrite (alike_hear wr _ _ c He). destruct (hear c ev'); [|done]. cbn. apply IH. Qed.
(** The books. *)
Theorem C63_levels wr s s' ns ns' : reach s -> reach s' -> clean wr -> map fst ns = st_log s -> map fst ns' = st_log s' -> Forall about ns -> Forall about ns' ->
  stdout wr ns = stdout wr ns' -> same_levels s s'.
Proof.
  intros Hr Hr' Hc H1 H2 Ha Ha' H. pose proof (C63_history wr s s' ns ns' Hr Hr' Hc H1 H2 Ha Ha' H) as Hf.
  destruct (C27_history s Hr) as (c & Hc1 & Hm1), (C27_history s' Hr') as (c' & Hc2 & Hm2). rewrite (alike_hear_all _ _ _ Hf), Hc2 in Hc1. injection Hc1 as <-.
  intros i. specialize (Hm1 i). specialize (Hm2 i). destruct (get_book i s), (get_book i s'), (c' i); try done. intros ty p. by rewrite <- Hm1, <- Hm2.
Qed.
Print Assumptions C63_levels.
(** The executions. *)
Lemma alike_execs wr evs evs' : Forall2 (tells_alike wr) evs evs' -> Forall2 (fun x x' => facts (fst (fst x)) = facts (fst (fst x')) /\ snd (fst x) = snd (fst x') /\ snd x = snd x') (execs evs) (execs evs').
Proof. induction 1 as [|ev ev' evs evs' He Hf IH]; [constructor|]. destruct ev, ev'; try done; cbn in *. constructor; done. Qed.
Theorem C63_executions wr s s' ns ns' : reach s -> reach s' -> clean wr -> map fst ns = st_log s -> map fst ns' = st_log s' -> Forall about ns -> Forall about ns' ->
  stdout wr ns = stdout wr ns' ->
  Forall2 (fun x x' => facts (fst (fst x)) = facts (fst (fst x')) /\ snd (fst x) = snd (fst x') /\ snd x = snd x') (execs (st_log s)) (execs (st_log s')).
Proof. intros. eapply alike_execs, C63_history; eauto. Qed.
Print Assumptions C63_executions.
(** The live orders. *)
Lemma after_fill_facts q o o' : facts o = facts o' -> facts (after_fill q o) = facts (after_fill q o').
Proof.
  assert (F : forall x, facts (after_fill q x) = (o_id x, o_sym x, o_type x, o_side x, o_price x, o_stop x, o_qty x, u64 (o_exec x + q), o_leaves x - q, o_tif x, trail_of x, limit_of (o_maxvis x), limit_of (o_slip x))) by (intros []; reflexivity).
  intros H. rewrite !F. unfold facts in H. congruence.
Qed.
Lemma facts_id o o' : facts o = facts o' -> o_id o = o_id o'. Proof. unfold facts. congruence. Qed.
Lemma alike_listen wr ev ev' c c' d d' : tells_alike wr ev ev' -> (forall i, facts <$> c !! i = facts <$> c' !! i) -> listen c ev = Some d -> listen c' ev' = Some d' ->
  forall i, facts <$> d !! i = facts <$> d' !! i.
Proof.
  intros He Hc Hd Hd' i.
  assert (Hins : forall o o' , facts o = facts o' -> facts <$> <[o_id o := o]> c !! i = facts <$> <[o_id o' := o']> c' !! i).
  { intros o o' E. rewrite <- (facts_id _ _ E). destruct (decide (i = o_id o)) as [-> |Hn]; [by rewrite !lookup_insert; cbn; rewrite E|]. by rewrite !lookup_insert_ne by done. }
  destruct ev, ev'; try done; cbn in He, Hd, Hd'; try (by injection Hd as <-; injection Hd' as <-).
  - destruct (c !! _); [done|]. destruct (c' !! _); [done|]. injection Hd as <-. injection Hd' as <-. by apply Hins.
  - destruct (c !! _); [|done]. destruct (c' !! _); [|done]. injection Hd as <-. injection Hd' as <-. by apply Hins.
  - destruct (c !! _); [|done]. destruct (c' !! _); [|done]. injection Hd as <-. injection Hd' as <-. rewrite <- (facts_id _ _ He).
    destruct (decide (i = o_id o)) as [-> |Hn]; [by rewrite !lookup_delete|]. by rewrite !lookup_delete_ne by done.
  - destruct He as (E & -> & ->). destruct (c !! _); [|done]. destruct (c' !! _); [|done]. cbn in Hd, Hd'. case_decide; [|done]. case_decide; [|done]. injection Hd as <-. injection Hd' as <-.
    exact (Hins (after_fill qty0 o) (after_fill qty0 o0) (after_fill_facts _ _ _ E)).
Qed.
Lemma alike_listen_all wr evs evs' : Forall2 (tells_alike wr) evs evs' -> forall c c' d d', (forall i, facts <$> c !! i = facts <$> c' !! i) -> listen_all c evs = Some d -> listen_all c' evs' = Some d' ->
  forall i, facts <$> d !! i = facts <$> d' !! i.
Proof.
  induction 1 as [|ev ev' evs evs' He Hf IH]; intros c c' d d' Hc Hd Hd'; cbn in Hd, Hd'.
  - injection Hd as <-. by injection Hd' as <-.
  - destruct (listen c ev) as [c1|] eqn:E1; [|done]. destruct (listen c' ev') as [c1'|] eqn:E2; [|done]. cbn in Hd, Hd'. eapply IH; [|done|done]. by eapply alike_listen.
Qed.
Theorem C63_orders wr s s' ns ns' : reach_if fresh_ids s -> reach_if fresh_ids s' -> clean wr -> map fst ns = st_log s -> map fst ns' = st_log s' -> Forall about ns -> Forall about ns' ->
  stdout wr ns = stdout wr ns' -> forall i, facts <$> get_order i s = facts <$> get_order i s'.
Proof.
  intros Hr Hr' Hc H1 H2 Ha Ha' H i. pose proof (C63_history wr s s' ns ns' (reach_if_reach _ _ Hr) (reach_if_reach _ _ Hr') Hc H1 H2 Ha Ha' H) as Hf.
  destruct (C28_history_partial s Hr) as (c & Hc1 & Hm1), (C28_history_partial s' Hr') as (c' & Hc2 & Hm2). rewrite <- Hm1, <- Hm2.
  by apply (alike_listen_all _ _ _ Hf ∅ ∅ c c').
Qed.
Print Assumptions C63_orders.
(** A history with a trade, and the same history with a rejected call and an unnoticed DisableMatching: the same text. *)
Definition ex_name : Z -> string := fun _ => "MSFT".
Definition ex_books (s : state) : list (event * book) := map (fun ev => (ev, new_book (mkSymbol 0 7))) (st_log s).
Definition ex_print : list op := setup ++ [EnableMatching; BL 1 100 10; SL 2 100 4].
Definition ex_print2 : list op := setup ++ [EnableMatching; BL 1 100 10; DeleteOrder 99; SL 2 100 4; DisableMatching].
Example C63_example : let s := hist ex_print in let s' := hist ex_print2 in
  reach s /\ reach s' /\ clean ex_name /\ map fst (ex_books s) = st_log s /\ map fst (ex_books s') = st_log s' /\ Forall about (ex_books s) /\ Forall about (ex_books s') /\
  stdout ex_name (ex_books s) = stdout ex_name (ex_books s') /\ length (st_log s) = 12%nat /\ st_match s <> st_match s'.
Proof.
  cbv zeta. split; [apply hist_reach|]. split; [apply hist_reach|]. split; [intros n; apply free_ok; exact eq_refl|].
  assert (M : forall s, map fst (ex_books s) = st_log s) by (intros s; unfold ex_books; rewrite map_map; apply map_id).
  split; [apply M|]. split; [apply M|].
  assert (A : forall l, forallb (fun ev => match ev with EAddBook i | EUpdateBook i _ | EDeleteBook i => 0 =? i | _ => true end) l = true -> Forall about (map (fun ev => (ev, new_book (mkSymbol 0 7))) l)).
  { intros l H. apply Forall_forall. intros x Hx. apply elem_of_list_In, in_map_iff in Hx as (ev & <- & Hin). rewrite forallb_forall in H. specialize (H ev Hin). unfold about. cbn.
    destruct ev; try done; by apply Z.eqb_eq in H. }
  split; [apply A; vm_compute; reflexivity|]. split; [apply A; vm_compute; reflexivity|]. split; [vm_compute; reflexivity|]. split; [vm_compute; reflexivity|].
  intros H. assert (E : st_match (hist ex_print) = true) by (vm_compute; reflexivity). assert (E' : st_match (hist ex_print2) = false) by (vm_compute; reflexivity). rewrite E, E' in H. discriminate.
Qed.
Example C63_example_text :
  order_text (TrailingStopOrder 5 0 SELL 90 10 (-50) 3 GTC 7) =
  "Order(Id=5; SymbolId=0; Type=TRAILING-STOP; Side=SELL; Price=0; StopPrice=90; Quantity=10; ExecutedQuantity=0; LeavesQuantity=10; GTC; TrailingDistance=-50; TrailingStep=3; Slippage=7)"%string.
Proof. vm_compute. reflexivity. Qed.
Example C63_example_fresh : reach_if fresh_ids (hist ex_print) /\ reach_if fresh_ids (hist ex_print2).
Proof. split; [apply (fresh_history ex_print init); [constructor|vm_compute; reflexivity]|apply (fresh_history ex_print2 init); [constructor|vm_compute; reflexivity]]. Qed.
