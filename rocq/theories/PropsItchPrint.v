(** * PropsItchPrint.v -- what the ITCH example prints: C66. *)
From Coq Require Import ZifyBool Ascii String.
From stdpp Require Import strings.
From Verif Require Import Types Itch ItchSpec PropsItch PropsPrint ItchPrint.
From Verif Require Print.
From Verif Require Import Spec22.
Open Scope Z_scope. Open Scope list_scope.

(** ** The table of printers against the layouts *)
Definition kind_of (f : string) (k : fkind) : pk :=
  match k with
  | Int _ => PNum
  | Alpha n => if String.eqb f "Reason" || String.eqb f "Attribution" then PChar
               else if (n =? 1)%nat then (if String.eqb f "BreachedLevel" || String.eqb f "IPOReleaseQualifier" then PRaw else PChar) else PStr
  end.
Definition as_item (f : string * fkind) : string * string * pk := (f.1, f.1, kind_of f.1 f.2).
Definition wide_enough (f : string * fkind) : Prop := f.2 <> Alpha 0.
Definition printed_layout (l : layout) : Prop :=
  let '(_, name, fs) := l in
  (exists p, pick name printers = Some p /\ pr_name p = name /\ pr_items p = map as_item fs) /\ NoDup (map fst fs) /\ Forall wide_enough fs.
Lemma printed_layouts : Forall printed_layout layouts.
Proof.
  unfold layouts. repeat (apply Forall_cons; split); [..|apply Forall_nil_2].
  all: (split; [eexists; split; [vm_compute; reflexivity|split; reflexivity]|split; [apply (bool_decide_unpack _); vm_compute; exact I|]]).
  all: unfold head; cbn [app]; repeat (apply Forall_cons; split); try apply Forall_nil_2; done.
Qed.
Lemma pick_lookup {A} (l : list (string * A)) f x : NoDup (map fst l) -> (f, x) ∈ l -> pick f l = Some x.
Proof.
  induction l as [|[g y] l IH]; intros Hn Hin; [by apply elem_of_nil in Hin|]. cbn in Hn. apply NoDup_cons in Hn as [Hg Hn]. cbn.
  apply elem_of_cons in Hin as [[= <- <-]|Hin]; [by rewrite String.eqb_refl|]. destruct (String.eqb_spec f g) as [->|]; [|by apply IH].
  destruct Hg. apply elem_of_list_fmap. by exists (g, x).
Qed.
Lemma value_ok wc ws f k v : wide_enough (f, k) -> wire_value k v -> value_text wc ws (kind_of f k) (Some (delivered f v)) = field_text wc ws f (delivered f v).
Proof.
  intros Hw Hv. destruct k as [n|n], v as [x|s]; try done; cbn [wire_value] in Hv.
  - cbn. by destruct (String.eqb f "Timestamp").
  - destruct Hv as [Hl _]. unfold kind_of, delivered. destruct (String.eqb f "Reason" || String.eqb f "Attribution") eqn:Er.
    + assert (String.eqb f "BreachedLevel" || String.eqb f "IPOReleaseQualifier" = false) as Eb.
      { apply orb_true_iff in Er as [E|E]; apply String.eqb_eq in E; by subst f. }
      destruct s as [|c s]; [destruct Hw; cbn in *; by subst n|]. cbn. rewrite Eb. done.
    + destruct (n =? 1)%nat eqn:En.
      * apply Nat.eqb_eq in En. destruct s as [|c [|]]; cbn in Hl; try lia.
        unfold field_text. by destruct (String.eqb f "BreachedLevel" || String.eqb f "IPOReleaseQualifier").
      * apply Nat.eqb_neq in En. by destruct s as [|c [|]]; cbn in Hl; try lia.
Qed.
Definition sep {A} (l : list A) : string := match l with [] => "" | _ => "; " end.
Lemma concat_cons x l : String.concat "; " (x :: l) = (x +:+ sep l +:+ String.concat "; " l)%string.
Proof. destruct l; cbn; [by rewrite sapp_nil|done]. Qed.
Definition part_text (wc : Z -> string) (ws : list Z -> string) (p : string * value) : string := (p.1 +:+ "=" +:+ field_text wc ws p.1 p.2)%string.
Lemma delivered_cons f k fs v vs : delivered_fields ((f, k) :: fs) (v :: vs) = (f, delivered f v) :: delivered_fields fs vs.
Proof. done. Qed.
Lemma items_ok wc ws m fs vs : Forall2 (fun f v => wire_value (snd f) v) fs vs -> Forall wide_enough fs ->
  (forall f v, (f, v) ∈ delivered_fields fs vs -> pick f (m_fields m) = Some v) ->
  items_text wc ws m (map as_item fs) = String.concat "; " (map (part_text wc ws) (delivered_fields fs vs)).
Proof.
  induction 1 as [|[f k] v fs vs Hv Hall IH]; intros Hw Hp; [done|]. apply Forall_cons in Hw as [Hw1 Hw]. rewrite delivered_cons. rewrite map_cons, map_cons, concat_cons.
  change (items_text wc ws m (as_item (f, k) :: map as_item fs)) with (f +:+ "=" +:+ value_text wc ws (kind_of f k) (pick f (m_fields m)) +:+ sep (map as_item fs) +:+ items_text wc ws m (map as_item fs))%string.
  assert (Hf : pick f (m_fields m) = Some (delivered f v)) by (apply Hp; rewrite delivered_cons; by left). rewrite Hf, value_ok by done.
  rewrite IH by (done || (intros f' v' Hin; apply Hp; rewrite delivered_cons; by right)). clear IH Hp.
  change (part_text wc ws (f, delivered f v)) with (f +:+ "=" +:+ field_text wc ws f (delivered f v))%string. rewrite !sapp_assoc.
  assert (sep (map as_item fs) = sep (map (part_text wc ws) (delivered_fields fs vs))) as ->; [|done].
  destruct Hall as [|f1 v1]; [done|]. by destruct f1.
Qed.
Lemma named_fst fs vs : length fs = length vs -> map fst (delivered_fields fs vs) = map fst fs.
Proof.
  intros Hl. unfold delivered_fields, named. rewrite map_map. cbn. revert vs Hl. induction fs as [|[f k] fs IH]; intros [|v vs] Hl; cbn in *; try done; try lia. f_equal. apply IH. lia.
Qed.
Lemma text_known wc ws t name fs vs : (t, name, fs) ∈ layouts -> wire_message t fs vs ->
  message_text wc ws (mkMsg name (delivered_fields fs vs)) = line wc ws (name, delivered_fields fs vs).
Proof.
  intros Hin [Hvs _]. pose proof printed_layouts as HP. rewrite Forall_forall in HP. destruct (HP _ Hin) as [(p & Hp & Hn & Hi) [Hnd Hw]].
  unfold message_text. cbn [m_struct m_fields]. rewrite Hp, Hn, Hi.
  change (line wc ws (name, delivered_fields fs vs)) with (name +:+ "(" +:+ String.concat "; " (map (part_text wc ws) (delivered_fields fs vs)) +:+ ")")%string.
  rewrite (items_ok wc ws (mkMsg name (delivered_fields fs vs)) fs vs Hvs Hw); [done|].
  intros f v Hf. cbn. apply pick_lookup; [|done]. rewrite named_fst by (by eapply Forall2_length). done.
Qed.
Lemma text_unknown wc ws t : message_text wc ws (mkMsg "UnknownMessage" [("Type"%string, VText [t])]) = line wc ws ("UnknownMessage"%string, [("Type"%string, VText [t])]).
Proof. unfold message_text, line. cbn. by rewrite !sapp_nil. Qed.
(** ** What one message and a stream of them print *)
Definition as_msg (x : told) : message := mkMsg x.1 x.2.
Lemma says_text wc ws m x : says m x -> message_text wc ws (as_msg x) = line wc ws x.
Proof. intros [t name fs vs Hin Hw|t rest Hu]; [by eapply text_known|apply text_unknown]. Qed.
Lemma says_process bh acc m x log : says m x -> m <> [] /\ process_message bh acc m log = Ok (acc (log ++ [as_msg x]), log ++ [as_msg x]).
Proof.
  intros [t name fs vs Hin Hw|t rest Hu].
  - split; [|exact (C42_decode_partial bh acc t name fs vs log Hin Hw)]. destruct Hw as [Hvs [vs' ->]]. inversion Hvs as [|[f k] ? fs' ? Hk]; subst. cbn. done.
  - split; [done|]. apply C43_unknown. intros (c & name & fs & Hin & E). by eapply Hu.
Qed.
Lemma deliver_says bh ms xs : Forall2 says ms xs -> forall log, deliver bh (fun _ => true) ms log = Ok (true, log ++ map as_msg xs).
Proof.
  induction 1 as [|m x ms xs Hm _ IH]; intros log; [cbn; by rewrite app_nil_r|].
  destruct (says_process bh (fun _ => true) m x log Hm) as [Hne Hp]. cbn [deliver]. destruct m as [|b m]; [done|]. rewrite Hp. cbn. rewrite IH, <- app_assoc. done.
Qed.
Lemma run_feed bh blocks : forall d d', feed bh (fun _ => true) blocks d = Ok (true, d') -> run_blocks bh blocks d = Ok d'.
Proof.
  induction blocks as [|b bs IH]; intros d d' H; [by injection H as <-|]. cbn [feed run_blocks] in *.
  destruct (process bh (fun _ => true) b d) as [[ok d1]| |]; cbn [rbind] in *; try done. destruct ok; [by apply IH|done].
Qed.
Lemma output_lines wc ws ms xs : Forall2 says ms xs -> output wc ws (map as_msg xs) = lines (map (line wc ws) xs).
Proof. induction 1 as [|m x ms xs Hm _ IH]; [done|]. cbn. by rewrite IH, (says_text _ _ _ _ Hm). Qed.
(** ** C66: the program prints one line for each message of its input, however the input is cut into blocks *)
Theorem C66_prints wc ws bh blocks ms xs tail :
  Forall (Forall is_byte) blocks -> Forall (fun m => Z.of_nat (length m) <= 65535) ms -> incomplete tail -> concat blocks = stream ms ++ tail ->
  Forall2 says ms xs -> example wc ws bh blocks = Ok (lines (map (line wc ws) xs)).
Proof.
  intros Hb Hl Ht Hc Hs. destruct (C40_stream bh (fun _ => true) blocks ms tail Hb Hl Ht Hc) as (ok & d & Hf & Hd).
  rewrite (deliver_says bh ms xs Hs) in Hd. injection Hd as <- Hd. unfold example. rewrite (run_feed _ _ _ _ Hf). cbn. rewrite <- Hd. f_equal. by eapply output_lines.
Qed.
Print Assumptions C66_prints.

(** ** The text tells the messages *)
Fixpoint allp (P : ascii -> bool) (s : string) : bool := match s with EmptyString => true | String c s => P c && allp P s end.
Lemma allp_app P a b : allp P (a +:+ b)%string = allp P a && allp P b.
Proof. induction a as [|c a IH]; [done|]. cbn. rewrite IH. by destruct (P c). Qed.
Definition ends (P : ascii -> bool) (t : string) : Prop := match t with String c _ => P c = false | EmptyString => True end.
Lemma cutp P a : forall b x y, allp P a = true -> allp P b = true -> ends P x -> ends P y -> (a +:+ x = b +:+ y)%string -> a = b /\ x = y.
Proof.
  induction a as [|c a IH]; intros [|d b] x y Ha Hb Hx Hy H; cbn in H.
  - done.
  - subst x. cbn in Hx, Hb. apply andb_prop in Hb as [Hd _]. congruence.
  - subst y. cbn in Hy, Ha. apply andb_prop in Ha as [Hd _]. congruence.
  - injection H as -> H. cbn in Ha, Hb. apply andb_prop in Ha as [_ Ha], Hb as [_ Hb]. destruct (IH b x y Ha Hb Hx Hy H) as [-> ->]. done.
Qed.
Lemma all_inside_allp s : all_inside s = allp inside s.
Proof. induction s as [|c s IH]; [done|]. cbn. by rewrite IH. Qed.
Lemma allp_more (P Q : ascii -> bool) s : (forall c, P c = true -> Q c = true) -> allp P s = true -> allp Q s = true.
Proof. intros H. induction s as [|c s IH]; [done|]. cbn. intros [H1 H2]%andb_prop. by rewrite (H _ H1), IH. Qed.
Definition nonl (c : ascii) : bool := negb (Ascii.eqb c "010").
Definition nobr (c : ascii) : bool := negb (Ascii.eqb c "(").
Lemma inside_nonl c : inside c = true -> nonl c = true.
Proof. unfold inside, nonl. by destruct (Ascii.eqb c ";"), (Ascii.eqb c ")"), (Ascii.eqb c "010"). Qed.
Lemma char_code c : 0 <= c < 256 -> chr (ascii_of_N (Z.to_N c)) = c.
Proof. intros H. unfold chr. rewrite N_ascii_embedding by lia. lia. Qed.
Lemma char_inside c : ordinary c -> inside (ascii_of_N (Z.to_N c)) = true.
Proof.
  intros (H1 & H2 & H3). pose proof (char_code c ltac:(lia)) as E. unfold inside.
  destruct (Ascii.eqb_spec (ascii_of_N (Z.to_N c)) ";") as [X|_]; [rewrite X in E; congruence|].
  destruct (Ascii.eqb_spec (ascii_of_N (Z.to_N c)) ")") as [X|_]; [rewrite X in E; congruence|].
  destruct (Ascii.eqb_spec (ascii_of_N (Z.to_N c)) "010") as [X|_]; [|done]. rewrite X in E. assert (chr "010" = 10) by done. lia.
Qed.
Lemma dec_inside z : allp inside (Print.dec z) = true.
Proof.
  pose proof (dec_word z) as H. revert H. generalize (Print.dec z). intros s. induction s as [|c s IH]; [done|]. cbn. intros [H1 H2]%andb_prop. rewrite IH by done.
  unfold wordb in H1. unfold inside. revert H1. by destruct (Ascii.eqb c " "), (Ascii.eqb c ";"), (Ascii.eqb c ")"), (Ascii.eqb c "010").
Qed.
Definition ordinary_value (v : value) : Prop := match v with VNum _ => True | VText s => Forall ordinary s end.
Definition shape (v : value) : option nat := match v with VNum _ => None | VText s => Some (length s) end.
Section texts.
Context (wc : Z -> string) (ws : list Z -> string) (HF : faithful wc ws).
Lemma field_inside f v : ordinary_value v -> allp inside (field_text wc ws f v) = true.
Proof.
  destruct HF as (H1 & H2 & H3 & H4). destruct v as [x|s]; cbn; [intros _; apply dec_inside|]. intros Hs.
  assert (Hws : allp inside (ws s) = true) by (rewrite <- all_inside_allp; by apply H3).
  destruct s as [|c [|]]; try done. apply Forall_cons in Hs as [Hc _]. destruct (_ || _).
  - cbn. by rewrite char_inside.
  - rewrite <- all_inside_allp. by apply H1.
Qed.
Lemma field_inj f v v' : ordinary_value v -> ordinary_value v' -> shape v = shape v' -> field_text wc ws f v = field_text wc ws f v' -> v = v'.
Proof.
  destruct HF as (H1 & H2 & H3 & H4). destruct v as [x|s], v' as [y|t]; cbn; try done.
  - intros _ _ _ H. f_equal. by apply dec_inj.
  - intros Hs Ht [= Hl] H. f_equal. destruct s as [|c [|c2 s]], t as [|d [|d2 t]]; try done; try (by apply H4).
    apply Forall_cons in Hs as [Hc _], Ht as [Hd _]. f_equal. destruct (_ || _); [|by apply H2].
    injection H as H. rewrite <- (char_code c), <- (char_code d) by (unfold ordinary in *; lia). by rewrite H.
Qed.
Lemma parts_inj l : forall l' r r', map (fun p : string * value => (p.1, shape p.2)) l = map (fun p : string * value => (p.1, shape p.2)) l' ->
  Forall (fun p : string * value => ordinary_value p.2) l -> Forall (fun p : string * value => ordinary_value p.2) l' ->
  (String.concat "; " (map (part_text wc ws) l) +:+ ")" +:+ r = String.concat "; " (map (part_text wc ws) l') +:+ ")" +:+ r')%string -> l = l' /\ r = r'.
Proof.
  induction l as [|[f v] l IH]; intros [|[g w] l'] r r' Hs Ho Ho' H; try done.
  - injection H as ->. done.
  - cbn in Hs. injection Hs as -> Hv Hs. apply Forall_cons in Ho as [O1 Ho], Ho' as [O2 Ho']. cbn [snd] in O1, O2.
    rewrite !map_cons, !concat_cons in H. unfold part_text at 1 4 in H. cbn [fst snd] in H. rewrite !sapp_assoc in H. apply slit, slit in H.
    assert (E : sep (map (part_text wc ws) l) = sep (map (part_text wc ws) l')) by (by destruct l, l').
    rewrite E in H. apply (cutp inside) in H as [Et H]; [|by apply field_inside|by apply field_inside|..].
    2: { destruct l as [|p l]; [destruct l' as [|p' l']; done|]. by destruct l'. }
    2: { by destruct l'. }
    apply slit in H. apply (IH l' r r' Hs Ho Ho') in H as [-> ->]. apply field_inj in Et; [by subst|done..].
Qed.
End texts.
(** What a message says has the form its name prescribes. *)
Definition form (x : told) : list (string * option nat) := map (fun p : string * value => (p.1, shape p.2)) x.2.
Definition shape_of (f : string) (k : fkind) : option nat :=
  match k with Int _ => None | Alpha n => Some (if String.eqb f "Reason" || String.eqb f "Attribution" then 1%nat else n) end.
Lemma form_known name fs vs : Forall2 (fun f v => wire_value (snd f) v) fs vs -> Forall wide_enough fs -> form (name, delivered_fields fs vs) = map (fun f => (f.1, shape_of f.1 f.2)) fs.
Proof.
  unfold form. cbn [snd]. induction 1 as [|[f k] v fs vs Hv _ IH]; intros Hw; [done|]. apply Forall_cons in Hw as [Hw1 Hw]. rewrite delivered_cons, !map_cons, IH by done. f_equal.
  cbn [fst snd]. f_equal. destruct k as [n|n], v as [x|s]; try done; cbn in Hv.
  - cbn. by destruct (String.eqb f "Timestamp").
  - destruct Hv as [Hl _]. cbn. destruct (_ || _); cbn; [|by subst n]. destruct s as [|c s]; [|done]. destruct Hw1. cbn in *. by subst n.
Qed.
Definition layout_name (l : layout) : string := l.1.2.
Lemma names_unique : NoDup ("UnknownMessage"%string :: map layout_name layouts).
Proof. apply (bool_decide_unpack _). vm_compute. exact I. Qed.
Lemma nodup_map {A B} (f : A -> B) l x y : NoDup (map f l) -> x ∈ l -> y ∈ l -> f x = f y -> x = y.
Proof.
  induction l as [|z l IH]; intros Hn Hx Hy E; [by apply elem_of_nil in Hx|]. cbn in Hn. apply NoDup_cons in Hn as [Hz Hn].
  apply elem_of_cons in Hx as [->|Hx], Hy as [->|Hy]; try done; try (by apply IH).
  - destruct Hz. apply elem_of_list_fmap. by exists y.
  - destruct Hz. apply elem_of_list_fmap. by exists x.
Qed.
Lemma says_form m x m' y : says m x -> says m' y -> x.1 = y.1 -> form x = form y.
Proof.
  pose proof names_unique as Hn. apply NoDup_cons in Hn as [Hu Hn]. pose proof printed_layouts as HP. rewrite Forall_forall in HP.
  intros [t name fs vs Hin [Hw _]|t rest Ht] [t' name' fs' vs' Hin' [Hw' _]|t' rest' Ht'] E; cbn in E.
  - subst name'. pose proof (nodup_map layout_name layouts _ _ Hn Hin Hin' eq_refl) as [= <- <-].
    destruct (HP _ Hin) as (_ & _ & Hwide). by rewrite !form_known.
  - destruct Hu. apply elem_of_list_fmap. exists (t, name, fs). split; [by subst|done].
  - destruct Hu. apply elem_of_list_fmap. exists (t', name', fs'). split; [by subst|done].
  - done.
Qed.
Definition labels_ok (x : told) : Prop := allp nobr x.1 = true /\ allp nonl x.1 = true /\ Forall (fun p : string * value => allp nonl p.1 = true) x.2.
Definition layout_ok (l : layout) : Prop := allp nobr (layout_name l) = true /\ allp nonl (layout_name l) = true /\ Forall (fun f : string * fkind => allp nonl f.1 = true) l.2.
Lemma layouts_ok : Forall layout_ok layouts.
Proof.
  unfold layouts. repeat (apply Forall_cons; split); [..|apply Forall_nil_2]. all: split; [done|split; [done|]].
  all: cbn [snd]; unfold head; cbn [app]; repeat (apply Forall_cons; split); try apply Forall_nil_2; done.
Qed.
Lemma says_labels m x : says m x -> labels_ok x.
Proof.
  intros [t name fs vs Hin [Hw _]|t rest Ht]; [|by repeat constructor]. pose proof layouts_ok as HL. rewrite Forall_forall in HL.
  destruct (HL _ Hin) as (H1 & H2 & H3). split; [done|]. split; [done|]. cbn [snd] in *. clear -Hw H3. revert H3.
  induction Hw as [|[f k] v fs vs Hv _ IH]; intros H3; [constructor|]. apply Forall_cons in H3 as [H1 H3]. rewrite delivered_cons. constructor; [done|auto].
Qed.
Lemma ordinary_values x : ordinary_text x -> Forall (fun p : string * value => ordinary_value p.2) x.2.
Proof. intros H. apply Forall_forall. intros [f [n|s]] Hin; cbn; [done|]. by eapply H. Qed.
Section tells.
Context (wc : Z -> string) (ws : list Z -> string) (HF : faithful wc ws).
Lemma line_part x : line wc ws x = (x.1 +:+ "(" +:+ String.concat "; " (map (part_text wc ws) x.2) +:+ ")")%string.
Proof. done. Qed.
Lemma line_inj m x m' y r r' : says m x -> says m' y -> ordinary_text x -> ordinary_text y -> (line wc ws x +:+ r = line wc ws y +:+ r')%string -> x = y /\ r = r'.
Proof.
  intros Hx Hy Ox Oy H. rewrite !line_part, !sapp_assoc in H.
  destruct (says_labels _ _ Hx) as (Lx & _), (says_labels _ _ Hy) as (Ly & _).
  apply (cutp nobr) in H as [E H]; try done. apply slit in H. pose proof (says_form _ _ _ _ Hx Hy E) as Hform.
  apply (parts_inj wc ws HF) in H as [E2 ->]; [|done|by apply ordinary_values..]. split; [|done]. destruct x, y; cbn in *; congruence.
Qed.
Lemma line_nonl m x : says m x -> ordinary_text x -> allp nonl (line wc ws x) = true.
Proof.
  intros Hx Ox. destruct (says_labels _ _ Hx) as (_ & L1 & L2). rewrite line_part, !allp_app, L1. cbn [allp andb nonl].
  assert (allp nonl (String.concat "; " (map (part_text wc ws) x.2)) = true) as ->; [|done]. apply ordinary_values in Ox. revert L2 Ox. generalize x.2. intros l.
  induction l as [|[f v] l IH]; intros L2 Ox; [done|]. apply Forall_cons in L2 as [Lf L2], Ox as [Ov Ox]. rewrite map_cons, concat_cons, !allp_app, IH by done.
  cbn [part_text fst snd] in *. unfold part_text. cbn [fst snd]. rewrite !allp_app. cbn [fst] in Lf. rewrite Lf. rewrite (allp_more inside nonl _ inside_nonl (field_inside wc ws HF f v Ov)).
  by destruct l.
Qed.
Lemma lines_inj ms xs : forall ms' ys, Forall2 says ms xs -> Forall2 says ms' ys -> Forall ordinary_text xs -> Forall ordinary_text ys ->
  lines (map (line wc ws) xs) = lines (map (line wc ws) ys) -> xs = ys.
Proof.
  intros ms' ys H. revert ms' ys. induction H as [|m x ms xs Hm Hms IH]; intros ms' ys H' Ox Oy E.
  - destruct H' as [|m' y ms' ys Hm' _]; [done|]. cbn [map lines] in E. by destruct (line wc ws y).
  - destruct H' as [|m' y ms' ys Hm' Hms']; cbn [map lines] in E; [by destruct (line wc ws x)|].
    apply Forall_cons in Ox as [Ox1 Ox], Oy as [Oy1 Oy]. destruct (line_inj _ _ _ _ _ _ Hm Hm' Ox1 Oy1 E) as [-> E']. injection E' as E'. f_equal. by eapply IH.
Qed.
End tells.
(** No line end inside a line. *)
Theorem C66_one_line wc ws m x a b : faithful wc ws -> says m x -> ordinary_text x -> line wc ws x <> (a +:+ String "010" b)%string.
Proof. intros HF Hm Ho E. pose proof (line_nonl wc ws HF m x Hm Ho) as H. rewrite E, allp_app in H. cbn in H. by rewrite andb_false_r in H. Qed.
Print Assumptions C66_one_line.
(** From the output of the program one can tell every message of its input, and every field of it. *)
Theorem C66_tells wc ws bh blocks ms xs tail blocks' ms' ys tail' : faithful wc ws ->
  Forall (Forall is_byte) blocks -> Forall (fun m => Z.of_nat (length m) <= 65535) ms -> incomplete tail -> concat blocks = stream ms ++ tail -> Forall2 says ms xs ->
  Forall (Forall is_byte) blocks' -> Forall (fun m => Z.of_nat (length m) <= 65535) ms' -> incomplete tail' -> concat blocks' = stream ms' ++ tail' -> Forall2 says ms' ys ->
  Forall ordinary_text xs -> Forall ordinary_text ys -> example wc ws bh blocks = example wc ws bh blocks' -> xs = ys.
Proof.
  intros HF B1 B2 B3 B4 B5 D1 D2 D3 D4 D5 Ox Oy H. rewrite (C66_prints wc ws bh blocks ms xs tail) in H by done. rewrite (C66_prints wc ws bh blocks' ms' ys tail') in H by done.
  injection H as H. by eapply (lines_inj wc ws HF ms xs ms' ys).
Qed.
Print Assumptions C66_tells.

(** One code can break a line in two: BreachedLevel is written as it is (so is IPOReleaseQualifier), whatever WriteChar does. *)
Definition status_fields : list (string * fkind) := ItchSpec.head [("BreachedLevel"%string, Alpha 1)].
Definition status_values (c : Z) : list value := [VText [chr "W"]; VNum 0; VNum 0; VNum 0; VText [c]].
Lemma status_wire c : is_byte c -> wire_message "W" status_fields (status_values c).
Proof. intros Hc. split; [|by eexists]. repeat (apply Forall2_cons; split); [..|apply Forall2_nil_2]; cbn; try lia; (split; [done|]); (apply Forall_cons; split; [try done; cbn; unfold is_byte; lia|constructor]). Qed.
Lemma status_says c : is_byte c -> says (encode status_fields (status_values c)) ("MWCBStatusMessage"%string, delivered_fields status_fields (status_values c)).
Proof.
  intros Hc. apply (sa_known "W"); [|by apply status_wire]. unfold layouts. do 6 apply elem_of_list_further. apply elem_of_list_here.
Qed.
Theorem C66_one_line_refuted : exists m x, says m x /\ forall wc ws, exists a b, line wc ws x = (a +:+ String "010" b)%string.
Proof.
  exists (encode status_fields (status_values 10)), ("MWCBStatusMessage"%string, delivered_fields status_fields (status_values 10)).
  split; [by apply status_says|]. intros wc ws.
  exists ("MWCBStatusMessage(Type=" +:+ wc (chr "W") +:+ "; StockLocate=0; TrackingNumber=0; Timestamp=0; BreachedLevel=")%string, ")"%string.
  rewrite line_part, !sapp_assoc. unfold delivered_fields, status_fields, status_values, ItchSpec.head. cbn [app combine map fst snd named zip_with].
  rewrite !concat_cons. unfold part_text, field_text, delivered. cbn. by rewrite !sapp_assoc.
Qed.
Print Assumptions C66_one_line_refuted.

(** The result of Process is not looked at.  After a message that Process refuses (here a system event of one byte), what is printed of
    the rest depends on how the input is cut into blocks: in one block nothing, in two blocks a message that is not there. *)
Definition bad_frame : list Z := frame [chr "S"].
Definition good_frame : list Z := frame (encode status_fields (status_values 49)).
Theorem C66_blocks_refuted wc ws bh :
  example wc ws bh [bad_frame ++ good_frame] = Ok ""%string /\
  example wc ws bh [bad_frame; good_frame] <> example wc ws bh [bad_frame ++ good_frame].
Proof.
  assert (E : example wc ws bh [bad_frame ++ good_frame] = Ok ""%string) by (destruct bh; vm_compute; reflexivity).
  split; [exact E|]. intros H. rewrite E in H. clear E. revert H. destruct bh; vm_compute; discriminate.
Qed.
Print Assumptions C66_blocks_refuted.

(** Writers as C66_tells asks for, and a stream of three messages, one of an unknown type, that arrives in three blocks. *)
Definition plain (s : list Z) : string := foldr (fun c => String (ascii_of_N (Z.to_N c))) ""%string s.
Lemma plain_inj s : forall t, Forall ordinary s -> Forall ordinary t -> plain s = plain t -> s = t.
Proof.
  induction s as [|c s IH]; intros [|d t] Hs Ht H; try done. apply Forall_cons in Hs as [Hc Hs], Ht as [Hd Ht]. cbn in H. injection H as E H. f_equal; [|by apply IH].
  rewrite <- (char_code c), <- (char_code d) by (unfold ordinary in *; lia). by rewrite E.
Qed.
Example C66_example_faithful : faithful (fun c => plain [c]) plain.
Proof.
  split; [|split; [|split]].
  - intros c Hc. cbn. by rewrite char_inside.
  - intros c d Hc Hd H. apply plain_inj in H; [by injection H|by apply Forall_singleton..].
  - intros s Hs. induction Hs as [|c s Hc _ IH]; [done|]. cbn. by rewrite char_inside.
  - intros s t Hs Ht. by apply plain_inj.
Qed.
Definition delete_fields : list (string * fkind) := ItchSpec.head [("OrderReferenceNumber"%string, Int 8)].
Definition delete_values : list value := [VText [chr "D"]; VNum 7; VNum 2; VNum 0; VNum 4711].
Definition delete_bytes : list Z := encode delete_fields delete_values.
Definition three : list (list Z) := [delete_bytes; encode status_fields (status_values 49); [122; 1; 2]].
Definition three_told : list told :=
  [("OrderDeleteMessage"%string, delivered_fields delete_fields delete_values); ("MWCBStatusMessage"%string, delivered_fields status_fields (status_values 49));
   ("UnknownMessage"%string, [("Type"%string, VText [122])])].
Definition three_blocks : list (list Z) := [take 10 (stream three); take 20 (drop 10 (stream three)); drop 30 (stream three)].
Example C66_example :
  Forall (Forall is_byte) three_blocks /\ Forall (fun m => Z.of_nat (length m) <= 65535) three /\ incomplete [] /\ concat three_blocks = stream three ++ [] /\
  Forall2 says three three_told /\ Forall ordinary_text three_told /\
  example (fun c => plain [c]) plain false three_blocks = Ok ("OrderDeleteMessage(Type=D; StockLocate=7; TrackingNumber=2; Timestamp=0; OrderReferenceNumber=4711)
MWCBStatusMessage(Type=W; StockLocate=0; TrackingNumber=0; Timestamp=0; BreachedLevel=1)
UnknownMessage(Type=z)
"%string).
Proof.
  split; [|split; [|split; [|split; [|split; [|split]]]]].
  - apply (bool_decide_unpack (Forall (Forall (fun b => 0 <= b < 256)) _)). vm_compute. exact I.
  - repeat (apply Forall_cons; split); [..|apply Forall_nil_2]; vm_compute; congruence.
  - left. cbn. lia.
  - vm_compute. reflexivity.
  - apply Forall2_cons; split; [|apply Forall2_cons; split; [|apply Forall2_cons; split; [|apply Forall2_nil_2]]].
    + apply (sa_known "D"); [unfold layouts; do 13 apply elem_of_list_further; apply elem_of_list_here|]. split; [|by eexists].
      repeat (apply Forall2_cons; split); [..|apply Forall2_nil_2]; cbn; try lia. split; [done|]. apply Forall_cons; split; [done|constructor].
    + apply status_says. unfold is_byte. lia.
    + apply sa_unknown. intros c name fs Hin E. unfold layouts in Hin. repeat (apply elem_of_cons in Hin as [[= -> -> ->]|Hin]; [by vm_compute in E|]). by apply elem_of_nil in Hin.
  - assert (T : Forall (fun x : told => forall f s, (f, VText s) ∈ x.2 -> exists c, s = [c] /\ ordinary c) three_told).
    { apply Forall_cons; split; [|apply Forall_cons; split; [|apply Forall_cons; split; [|apply Forall_nil_2]]]; intros f s Hin; vm_compute in Hin.
      all: repeat (apply elem_of_cons in Hin as [Hin|Hin]; [try discriminate Hin; injection Hin as -> ->; eexists; (split; [reflexivity|]); unfold ordinary, chr; vm_compute; intuition congruence|]).
      all: by apply elem_of_nil in Hin. }
    eapply Forall_impl; [exact T|]. intros x Hx f s Hin. destruct (Hx f s Hin) as (c & -> & Hc). by apply Forall_singleton.
  - vm_compute. reflexivity.
Qed.
