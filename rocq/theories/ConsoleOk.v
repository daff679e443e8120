(** * ConsoleOk.v -- reading a command line: the matcher of Console.v against the documented commands of Spec15.v. *)
From Coq Require Import Ascii String ZifyBool.
From stdpp Require Import strings.
From Verif Require Import Types Book Engine Manager Factory Console Spec15.
Open Scope Z_scope. Open Scope list_scope.

(** ** Strings *)
Global Arguments String.append !s1 s2 / : simpl nomatch.
Lemma sapp_nil s : (s +:+ "")%string = s.
Proof. induction s as [|c s IH]; [done|]. cbn. by rewrite IH. Qed.
Lemma sapp_assoc a b c : ((a +:+ b) +:+ c)%string = (a +:+ (b +:+ c))%string.
Proof. induction a as [|x a IH]; [done|]. cbn. by rewrite IH. Qed.
Lemma all_app f a b : all_chars f (a +:+ b) = all_chars f a && all_chars f b.
Proof. induction a as [|x a IH]; [done|]. cbn. by rewrite IH, andb_assoc. Qed.
Lemma strip_app p s : strip p (p +:+ s) = Some s.
Proof. induction p as [|c p IH]; [done|]. cbn. by rewrite Ascii.eqb_refl. Qed.
Lemma strip_inv p : forall s r, strip p s = Some r -> s = (p +:+ r)%string.
Proof.
  induction p as [|c p IH]; intros s r H; cbn in H; [by injection H as ->|]. destruct s as [|b s]; [done|]. destruct (Ascii.eqb_spec c b) as [<-|]; [|done].
  cbn. by rewrite (IH _ _ H).
Qed.
(** ** Numerals *)
Lemma digitb_code c : digitb c = true <-> 48 <= code c <= 57.
Proof. unfold digitb, code. lia. Qed.
Lemma stoi_app s c : forall a, stoi_from a (s +:+ String c "") = 10 * stoi_from a s + (code c - 48).
Proof. induction s as [|x s IH]; intros a; cbn; [done|]. by rewrite IH. Qed.
Lemma numeral_inv s n : numeral s n -> s <> ""%string /\ all_chars digitb s = true /\ stoi_from 0 s = n.
Proof.
  induction 1 as [c d Hd Hc|s n c d _ (IH1 & IH2 & IH3) Hd Hc].
  - assert (Hb : digitb c = true) by (apply digitb_code; lia). cbn. rewrite Hb. repeat split; try done. unfold code in Hc. lia.
  - assert (Hb : digitb c = true) by (apply digitb_code; lia). split; [by destruct s|]. split; [rewrite all_app, IH2; cbn; by rewrite Hb|]. rewrite stoi_app, IH3. lia.
Qed.
Lemma numeral_app s : forall p a, numeral p a -> all_chars digitb s = true -> numeral (p +:+ s) (stoi_from a s).
Proof.
  induction s as [|c s IH]; intros p a Hp Hd; [by rewrite sapp_nil|]. cbn in Hd. apply andb_prop in Hd as [Hc Hd]. apply digitb_code in Hc.
  replace (p +:+ String c s)%string with ((p +:+ String c "") +:+ s)%string by by rewrite sapp_assoc. cbn [stoi_from]. fold (code c). apply IH; [|done]. apply numeral_more; [done|lia|lia].
Qed.
Lemma numeral_of s : s <> ""%string -> all_chars digitb s = true -> numeral s (stoi_from 0 s).
Proof.
  destruct s as [|c s]; [done|]. intros _ Hd. cbn in Hd. apply andb_prop in Hd as [Hc Hd]. apply digitb_code in Hc. change (String c s) with (String c "" +:+ s)%string at 1.
  cbn [stoi_from]. apply numeral_app; [|done]. fold (code c). apply numeral_one; lia.
Qed.
Lemma numeral_stoi s n : numeral s n -> stoi s = if n <? 2 ^ 31 then Some n else None.
Proof. intros (_ & _ & H)%numeral_inv. unfold stoi. by rewrite H. Qed.
Lemma numeral_nonneg s n : numeral s n -> 0 <= n.
Proof. induction 1; lia. Qed.
(** A text that does not go on with a digit. *)
Definition starts_no_digit (r : string) : Prop := match r with EmptyString => True | String c _ => digitb c = false end.
Lemma digits_app d : forall r, all_chars digitb d = true -> starts_no_digit r -> digits (d +:+ r) = (d, r).
Proof.
  induction d as [|c d IH]; intros r Hd Hr; cbn.
  - destruct r as [|c r]; [done|]. cbn in Hr |- *. by rewrite Hr.
  - cbn in Hd. apply andb_prop in Hd as [Hc Hd]. rewrite Hc. by rewrite IH.
Qed.
Lemma digits_inv s : forall d r, digits s = (d, r) -> s = (d +:+ r)%string /\ all_chars digitb d = true.
Proof.
  induction s as [|c s IH]; intros d r H; cbn in H; [by injection H as <- <-|]. destruct (digitb c) eqn:Hc.
  - destruct (digits s) as [d' r'] eqn:E. injection H as <- <-. destruct (IH _ _ eq_refl) as [-> Hd]. cbn. by rewrite Hc.
  - by injection H as <- <-.
Qed.
(** ** Fields *)
Fixpoint tail (fs : list string) : string := match fs with [] => "" | f :: fs => (" " +:+ f +:+ tail fs)%string end.
Lemma sentence_cons w ws : sentence (w :: ws) = (w +:+ tail ws)%string.
Proof. revert w. induction ws as [|v ws IH]; intros w; [by rewrite sapp_nil|]. cbn [sentence tail]. rewrite <- IH. done. Qed.
Lemma tail_app fs gs : tail (fs ++ gs) = (tail fs +:+ tail gs)%string.
Proof. induction fs as [|f fs IH]; [done|]. cbn [tail app]. rewrite IH, !sapp_assoc. done. Qed.
Lemma says_tail l w ws ns : says l (w :: ws) ns <-> exists fs, Forall2 numeral fs ns /\ l = (sentence (w :: ws) +:+ tail fs)%string.
Proof.
  unfold says. split; intros (fs & H & ->); exists fs; (split; [done|]); rewrite <- app_comm_cons, !sentence_cons, tail_app, sapp_assoc; done.
Qed.
Lemma tail_no_digit fs : starts_no_digit (tail fs).
Proof. by destruct fs. Qed.
Lemma nums_ok fs ns : Forall2 numeral fs ns -> pmatch (nums (List.length ns)) (tail fs) = Some (map CNum fs).
Proof.
  induction 1 as [|f n fs ns Hf _ IH]; [done|]. cbn [List.length nums tail map]. destruct (numeral_inv _ _ Hf) as (H1 & H2 & _). cbn [pmatch]. rewrite strip_app.
  rewrite (digits_app f (tail fs) H2 (tail_no_digit fs)). rewrite IH. by destruct f.
Qed.
Lemma nums_inv n : forall l caps, pmatch (nums n) l = Some caps -> exists fs ns, Forall2 numeral fs ns /\ List.length ns = n /\ l = tail fs /\ caps = map CNum fs.
Proof.
  induction n as [|n IH]; intros l caps H; cbn [nums pmatch] in H.
  - destruct l; [|done]. injection H as <-. by exists [], [].
  - destruct (strip " " l) as [r|] eqn:E; [|done]. apply strip_inv in E. destruct (digits r) as [d r'] eqn:Ed. apply digits_inv in Ed as [-> Hd]. destruct d as [|c d]; [done|].
    destruct (pmatch (nums n) r') as [caps'|] eqn:Ep; [|done]. injection H as <-. destruct (IH _ _ Ep) as (fs & ns & H1 & H2 & -> & ->).
    exists (String c d :: fs), (stoi_from 0 (String c d) :: ns). split; [constructor; [by apply numeral_of|done]|]. split; [cbn; lia|]. split; [by rewrite E|done].
Qed.
Definition moderateb (ns : list Z) : bool := forallb (fun n => n <? 2 ^ 31) ns.
Lemma moderateb_ok ns : moderateb ns = true <-> moderate ns.
Proof. unfold moderateb, moderate. rewrite forallb_forall, Forall_forall. setoid_rewrite elem_of_list_In. setoid_rewrite Z.ltb_lt. done. Qed.
Lemma stois_ok fs ns : Forall2 numeral fs ns -> stois (map CNum fs) = if moderateb ns then Some ns else None.
Proof.
  induction 1 as [|f n fs ns Hf _ IH]; [done|]. cbn [map stois]. rewrite (numeral_stoi _ _ Hf), IH. unfold moderateb. cbn [forallb]. destruct (n <? 2 ^ 31); cbn; [|done]. by destruct (forallb _ ns).
Qed.
(** ** The two kinds of commands *)
Lemma plain_ok name n f w ws l ns : sentence (w :: ws) = name -> says l (w :: ws) ns -> List.length ns = n -> plain_cmd name n f l = if moderateb ns then f ns else Thrown.
Proof.
  intros <- H <-. apply says_tail in H as (fs & H & ->). unfold plain_cmd. cbn [pmatch]. rewrite strip_app, (nums_ok _ _ H), (stois_ok _ _ H). by destruct (moderateb ns).
Qed.
Lemma plain_inv name n f w ws l : sentence (w :: ws) = name -> plain_cmd name n f l = Invalid \/
  exists ns, says l (w :: ws) ns /\ List.length ns = n /\ plain_cmd name n f l = if moderateb ns then f ns else Thrown.
Proof.
  intros <-. unfold plain_cmd. cbn [pmatch]. destruct (strip _ l) as [r|] eqn:E; [|by left]. apply strip_inv in E. destruct (pmatch (nums n) r) as [caps|] eqn:Ep; [|by left]. right.
  destruct (nums_inv _ _ _ Ep) as (fs & ns & H1 & H2 & -> & ->). exists ns. split; [apply says_tail; eauto|]. split; [done|]. rewrite (stois_ok _ _ H1). by destruct (moderateb ns).
Qed.
Lemma side_sentence w ws sd : sentence (w :: ws ++ [side_word sd]) = (sentence (w :: ws) +:+ " " +:+ side_word sd)%string.
Proof. rewrite !sentence_cons, tail_app, sapp_assoc. cbn [tail]. by rewrite sapp_nil. Qed.
Lemma side_ok sd r ts : pmatch (SideTok :: ts) (side_word sd +:+ r) = match pmatch ts r with Some l => Some (CSide sd :: l) | None => None end.
Proof. destruct sd; cbn [pmatch side_word]; [by rewrite (strip_app "buy")|]. by rewrite (strip_app "sell"). Qed.
Lemma order_ok name n f w ws sd l ns : sentence (w :: ws) = name -> says l (w :: ws ++ [side_word sd]) ns -> List.length ns = n ->
  order_cmd name n f l = if moderateb ns then f sd ns else Thrown.
Proof.
  intros <- H <-. apply says_tail in H as (fs & H & ->). rewrite side_sentence, !sapp_assoc. unfold order_cmd. cbn [pmatch]. rewrite strip_app. rewrite (strip_app " ").
  change (match pmatch (SideTok :: nums (List.length ns)) (side_word sd +:+ tail fs) with Some (CSide sd0 :: caps) => match stois caps with Some ns0 => f sd0 ns0 | None => Thrown end | _ => Invalid end = if moderateb ns then f sd ns else Thrown).
  rewrite side_ok, (nums_ok _ _ H), (stois_ok _ _ H). by destruct (moderateb ns).
Qed.
Lemma order_inv name n f w ws l : sentence (w :: ws) = name -> order_cmd name n f l = Invalid \/
  exists sd ns, says l (w :: ws ++ [side_word sd]) ns /\ List.length ns = n /\ order_cmd name n f l = if moderateb ns then f sd ns else Thrown.
Proof.
  intros Hw. destruct (pmatch (Lit name :: Lit " " :: SideTok :: nums n) l) as [caps|] eqn:E; [|left; unfold order_cmd; by rewrite E].
  right. assert (H : exists sd r, l = (name +:+ " " +:+ side_word sd +:+ r)%string /\ exists caps', pmatch (nums n) r = Some caps').
  { cbn [pmatch] in E. destruct (strip name l) as [r|] eqn:E1; [|done]. destruct (strip " " r) as [r1|] eqn:E2; [|done]. apply strip_inv in E1, E2. subst l r.
    destruct (strip "buy" r1) as [r2|] eqn:E3.
    - apply strip_inv in E3. subst r1. exists BUY, r2. split; [done|]. destruct (pmatch (nums n) r2); [eauto|done].
    - destruct (strip "sell" r1) as [r2|] eqn:E4; [|done]. apply strip_inv in E4. subst r1. exists SELL, r2. split; [done|]. destruct (pmatch (nums n) r2); [eauto|done]. }
  clear E caps. destruct H as (sd & r & -> & caps & Hn). destruct (nums_inv _ _ _ Hn) as (fs & ns & H1 & H2 & -> & ->).
  assert (Hs : says (name +:+ " " +:+ side_word sd +:+ tail fs) (w :: ws ++ [side_word sd]) ns).
  { apply says_tail. exists fs. split; [done|]. by rewrite side_sentence, Hw, !sapp_assoc. }
  exists sd, ns. split; [done|]. split; [done|]. by apply (order_ok name n f w ws).
Qed.
(** ** Which command a line is *)
Definition fieldb (c : ascii) : bool := digitb c || Ascii.eqb c " ".
Fixpoint ends_letter (k : string) : bool :=
  match k with EmptyString => true | String c EmptyString => negb (fieldb c) | String _ k => ends_letter k end.
Lemma tail_fields fs ns : Forall2 numeral fs ns -> all_chars fieldb (tail fs) = true.
Proof.
  induction 1 as [|f n fs ns Hf _ IH]; [done|]. cbn [tail]. rewrite !all_app, IH. destruct (numeral_inv _ _ Hf) as (_ & H & _).
  assert (Hi : all_chars fieldb f = true). { clear -H. induction f as [|c f IH]; [done|]. cbn in *. apply andb_prop in H as [H0 H]. unfold fieldb at 1. rewrite H0. by apply IH. }
  by rewrite Hi.
Qed.
Lemma strip_fields k : forall r x, ends_letter k = true -> k <> ""%string -> all_chars fieldb r = true -> strip k r = Some x -> False.
Proof.
  induction k as [|c k IH]; intros r x He Hk Hr H; [done|]. destruct r as [|b r]; [done|]. cbn [strip] in H. destruct (Ascii.eqb_spec c b) as [<-|]; [|done].
  cbn [all_chars] in Hr. apply andb_prop in Hr as [Hc Hr]. destruct k as [|c' k]; [cbn in He; by rewrite Hc in He|]. by apply (IH r x He).
Qed.
Lemma strip_keeps k : forall w r, ends_letter k = true -> all_chars fieldb r = true ->
  match strip k (w +:+ r) with Some _ => true | None => false end = match strip k w with Some _ => true | None => false end.
Proof.
  induction k as [|c k IH]; intros w r He Hr; [done|]. destruct w as [|b w].
  - cbn [String.append]. destruct (strip (String c k) r) eqn:E; [|done]. exfalso. by eapply (strip_fields (String c k) r).
  - cbn. destruct (Ascii.eqb c b); [|done]. apply IH; [|done]. by destruct k.
Qed.
Lemma contains_keeps k w r : ends_letter k = true -> k <> ""%string -> all_chars fieldb r = true -> contains k (w +:+ r) = contains k w.
Proof.
  intros He Hk Hr. assert (Hn : contains k r = false).
  { clear w. revert Hr. induction r as [|c r IH]; intros Hr; cbn [contains].
    - destruct (strip k "") eqn:E; [|done]. exfalso. by eapply (strip_fields k "").
    - destruct (strip k (String c r)) eqn:E; [exfalso; by eapply (strip_fields k (String c r))|]. apply IH. cbn in Hr. by apply andb_prop in Hr as [_ Hr]. }
  induction w as [|c w IH].
  - cbn [String.append]. rewrite Hn. cbn. by destruct k.
  - pose proof (strip_keeps k (String c w) r He Hr) as Hs. cbn [String.append] in *. cbn [contains]. destruct (strip k (String c (w +:+ r))), (strip k (String c w)); try done.
Qed.
Definition pick (cs : list (string * (string -> reply))) (w : string) : string -> reply :=
  match find (fun kf => contains (fst kf) w) cs with Some (_, f) => f | None => fun _ => Unknown end.
Lemma first_keeps cs w r : forallb (fun kf => ends_letter (fst kf) && negb (String.eqb (fst kf) "")) cs = true -> all_chars fieldb r = true ->
  first_cmd cs (w +:+ r) = pick cs w (w +:+ r)%string.
Proof.
  intros Hc Hr. induction cs as [|[k f] cs IH]; [done|]. cbn [forallb fst] in Hc. apply andb_prop in Hc as [[H1 H2]%andb_prop Hc]. cbn [first_cmd]. unfold pick. cbn [find fst].
  rewrite contains_keeps by (first [done|by destruct k]). destruct (contains k w); [done|]. by apply IH.
Qed.
Lemma first_inv cs l : first_cmd cs l = Unknown \/ exists k f, In (k, f) cs /\ first_cmd cs l = f l.
Proof.
  induction cs as [|[k f] cs [IH|(k' & f' & Hin & IH)]]; [by left|..]; cbn [first_cmd]; (destruct (contains k l); [right; exists k, f; by split; [left|]|]).
  - by left. - right. exists k', f'. split; [by right|done].
Qed.
Lemma read_known junk w ws l ns cmd : says l (w :: ws) ns ->
  (forall r, read_line junk (sentence (w :: ws) +:+ r) = first_cmd (dispatch junk) (sentence (w :: ws) +:+ r)) ->
  pick (dispatch junk) (sentence (w :: ws)) = cmd -> read_line junk l = cmd l.
Proof.
  intros (fs & Hf & ->)%says_tail Hr <-. rewrite Hr. apply first_keeps; [reflexivity|]. by eapply tail_fields.
Qed.
(** ** Symbol names *)
Lemma code_range c : 0 <= code c < 256.
Proof. unfold code. pose proof (nat_ascii_bounded c). lia. Qed.
Lemma name_byte n : forall s junk k c, (k < n)%nat -> String.get k s = Some c -> (name_from n s junk / 256 ^ Z.of_nat k) mod 256 = code c.
Proof.
  induction n as [|n IH]; intros s junk k c Hk Hg; [lia|]. destruct s as [|b s]; [by destruct k|]. cbn [name_from]. fold (code b). destruct k as [|k]; cbn [String.get] in Hg.
  - injection Hg as ->. cbn [Z.of_nat]. rewrite Z.pow_0_r, Z.div_1_r, (Z.mul_comm 256), Z.mod_add by lia. apply Z.mod_small, code_range.
  - rewrite Nat2Z.inj_succ, Z.pow_succ_r by lia. rewrite <- Z.div_div by lia. rewrite (Z.mul_comm 256 (name_from _ _ _)), Z.div_add by lia.
    rewrite (Z.div_small (code b)) by apply code_range. rewrite Z.add_0_l. apply IH; [lia|done].
Qed.
Lemma name_carries s junk : carries (name_from 8 s junk) s.
Proof. intros k c Hk Hg. by apply name_byte. Qed.
Lemma one_line_dot s : one_line s <-> all_chars dotb s = true.
Proof.
  unfold one_line. induction s as [|b s IH]; [split; [done|intros _ k c; by destruct k]|]. cbn [all_chars]. rewrite andb_true_iff, <- IH. unfold dotb. fold (code b). split.
  - intros H. split; [pose proof (H O b eq_refl); lia|]. intros k c Hk. by apply (H (S k) c).
  - intros [Hb H] [|k] c Hk; cbn [String.get] in Hk; [injection Hk as <-; lia|by apply (H k)].
Qed.
Lemma symbol_sentence f s : sentence ["add"; "symbol"; f; s] = ("add symbol " +:+ f +:+ " " +:+ s)%string.
Proof. done. Qed.
Lemma symbol_ok junk f i s : numeral f i -> s <> ""%string -> one_line s ->
  cmd_add_symbol junk (sentence ["add"; "symbol"; f; s]) = if i <? 2 ^ 31 then Calls (AddSymbol (mkSymbol i (name_from 8 s junk))) else Thrown.
Proof.
  intros Hf Hs Ho. apply one_line_dot in Ho. rewrite symbol_sentence. destruct (numeral_inv _ _ Hf) as (H1 & H2 & _). unfold cmd_add_symbol. cbn [pmatch]. rewrite (strip_app "add symbol ").
  rewrite (digits_app f (" " +:+ s) H2 eq_refl). destruct f as [|c f]; [done|]. rewrite (strip_app " "). destruct s as [|b s]; [done|]. rewrite Ho. rewrite (numeral_stoi _ _ Hf). by destruct (i <? 2 ^ 31).
Qed.
Lemma symbol_inv junk l : cmd_add_symbol junk l = Invalid \/
  exists f i s, numeral f i /\ s <> ""%string /\ one_line s /\ l = sentence ["add"; "symbol"; f; s] /\ cmd_add_symbol junk l = if i <? 2 ^ 31 then Calls (AddSymbol (mkSymbol i (name_from 8 s junk))) else Thrown.
Proof.
  destruct (pmatch [Lit "add symbol "; Num; Lit " "; Any] l) as [caps|] eqn:E; [|left; unfold cmd_add_symbol; by rewrite E]. right. cbn [pmatch] in E.
  destruct (strip "add symbol " l) as [r|] eqn:E1; [|done]. apply strip_inv in E1. subst l. destruct (digits r) as [d r1] eqn:E2. apply digits_inv in E2 as [-> Hd]. destruct d as [|c d]; [done|].
  destruct (strip " " r1) as [s|] eqn:E3; [|done]. apply strip_inv in E3. subst r1. destruct s as [|b s]; [done|]. destruct (all_chars dotb (String b s)) eqn:Ea; [|done]. clear E.
  exists (String c d), (stoi_from 0 (String c d)), (String b s). split_and!; [by apply numeral_of|done|by apply one_line_dot|by rewrite symbol_sentence|].
  rewrite <- symbol_sentence. apply symbol_ok; [by apply numeral_of|done|by apply one_line_dot].
Qed.
(** ** Lines *)
Lemma read_symbol junk f s : read_line junk (sentence ["add"; "symbol"; f; s]) = cmd_add_symbol junk (sentence ["add"; "symbol"; f; s]).
Proof. rewrite symbol_sentence. reflexivity. Qed.
Ltac known cmd H := rewrite (read_known _ _ _ _ _ cmd H); [|reflexivity|reflexivity].
Ltac plain_case cmd H := known cmd H; unfold cmd; rewrite (plain_ok _ _ _ _ _ _ _ eq_refl H eq_refl).
Lemma enters_read l a ns : enters l a ns -> forall junk,
  if moderateb ns then exists a', read_line junk l = Calls a' /\ enters l a' ns /\ same_call a a' else read_line junk l = Thrown.
Proof.
  assert (Hp : forall (f : list Z -> reply) junk l a ns, enters l a ns -> f ns = Calls a -> read_line junk l = (if moderateb ns then f ns else Thrown) -> if moderateb ns then exists a', read_line junk l = Calls a' /\ enters l a' ns /\ same_call a a' else read_line junk l = Thrown).
  { intros f junk l0 a0 ns0 He Hf Hr. destruct (moderateb ns0); [|done]. exists a0. rewrite Hr, Hf. split_and!; [done|done|by left]. }
  intros He junk. pose proof He as He0.
  destruct He as [| |l f i name n Hf Hn Ho Hc ->|l i H|l i H|l i H|l sd i s q H|l sd i s q sl H|l sd i s p q H|l sd i s p q H|l sd i s p q H|l sd i s p q H|l sd i s st q H|l sd i s st p q H|l sd i s st q d t H|l sd i s st p q d t H|l i q H|l i p q H|l i p q H|l i ni p q H|l i H].
  - exists EnableMatching. split_and!; [done|done|by left].
  - exists DisableMatching. split_and!; [done|done|by left].
  - unfold moderateb. cbn [forallb]. rewrite andb_true_r, read_symbol, (symbol_ok _ _ _ _ Hf Hn Ho). destruct (i <? 2 ^ 31); [|done].
    eexists. split; [done|]. split; [|right; eauto]. econstructor; eauto. apply name_carries.
  - pose (f := fun ns => match ns with [i] => Calls (DeleteSymbol i) | _ => Invalid end). apply (Hp f); [done|done|]. known cmd_delete_symbol H. exact (plain_ok _ _ _ "delete" ["symbol"]%string _ _ eq_refl H eq_refl).
  - pose (f := fun ns => match ns with [i] => Calls (AddOrderBook (mkSymbol i 0)) | _ => Invalid end). apply (Hp f); [done|done|]. known cmd_add_book H. exact (plain_ok _ _ _ "add" ["book"]%string _ _ eq_refl H eq_refl).
  - pose (f := fun ns => match ns with [i] => Calls (DeleteOrderBook i) | _ => Invalid end). apply (Hp f); [done|done|]. known cmd_delete_book H. exact (plain_ok _ _ _ "delete" ["book"]%string _ _ eq_refl H eq_refl).
  - pose (f := fun ns => match ns with [i; s; q] => Calls (AddOrder (MarketOrder i s sd q MAX64)) | _ => Invalid end). apply (Hp f); [done|done|].
    destruct sd; (known cmd_add_market H; exact (order_ok _ _ _ "add" ["market"]%string _ _ _ eq_refl H eq_refl)).
  - pose (f := fun ns => match ns with [i; s; q; sl] => Calls (AddOrder (MarketOrder i s sd q sl)) | _ => Invalid end). apply (Hp f); [done|done|].
    destruct sd; (known cmd_add_slippage H; exact (order_ok _ _ _ "add" ["slippage"; "market"]%string _ _ _ eq_refl H eq_refl)).
  - pose (f := fun ns => match ns with [i; s; p; q] => Calls (AddOrder (LimitOrder i s sd p q GTC MAX64)) | _ => Invalid end). apply (Hp f); [done|done|].
    destruct sd; (known cmd_add_limit H; exact (order_ok _ _ _ "add" ["limit"]%string _ _ _ eq_refl H eq_refl)).
  - pose (f := fun ns => match ns with [i; s; p; q] => Calls (AddOrder (LimitOrder i s sd p q IOC MAX64)) | _ => Invalid end). apply (Hp f); [done|done|].
    destruct sd; (known cmd_add_ioc H; exact (order_ok _ _ _ "add" ["ioc"; "limit"]%string _ _ _ eq_refl H eq_refl)).
  - pose (f := fun ns => match ns with [i; s; p; q] => Calls (AddOrder (LimitOrder i s sd p q FOK MAX64)) | _ => Invalid end). apply (Hp f); [done|done|].
    destruct sd; (known cmd_add_fok H; exact (order_ok _ _ _ "add" ["fok"; "limit"]%string _ _ _ eq_refl H eq_refl)).
  - pose (f := fun ns => match ns with [i; s; p; q] => Calls (AddOrder (LimitOrder i s sd p q AON MAX64)) | _ => Invalid end). apply (Hp f); [done|done|].
    destruct sd; (known cmd_add_aon H; exact (order_ok _ _ _ "add" ["aon"; "limit"]%string _ _ _ eq_refl H eq_refl)).
  - pose (f := fun ns => match ns with [i; s; st; q] => Calls (AddOrder (StopOrder i s sd st q GTC MAX64)) | _ => Invalid end). apply (Hp f); [done|done|].
    destruct sd; (known cmd_add_stop H; exact (order_ok _ _ _ "add" ["stop"]%string _ _ _ eq_refl H eq_refl)).
  - pose (f := fun ns => match ns with [i; s; st; p; q] => Calls (AddOrder (StopLimitOrder i s sd st p q GTC MAX64)) | _ => Invalid end). apply (Hp f); [done|done|].
    destruct sd; (known cmd_add_stop_limit H; exact (order_ok _ _ _ "add" ["stop-limit"]%string _ _ _ eq_refl H eq_refl)).
  - pose (f := fun ns => match ns with [i; s; st; q; d; t] => Calls (AddOrder (TrailingStopOrder i s sd st q d t GTC MAX64)) | _ => Invalid end). apply (Hp f); [done|done|].
    destruct sd; (known cmd_add_trailing H; exact (order_ok _ _ _ "add" ["trailing"; "stop"]%string _ _ _ eq_refl H eq_refl)).
  - pose (f := fun ns => match ns with [i; s; st; p; q; d; t] => Calls (AddOrder (TrailingStopLimitOrder i s sd st p q d t GTC MAX64)) | _ => Invalid end). apply (Hp f); [done|done|].
    destruct sd; (known cmd_add_trailing_limit H; exact (order_ok _ _ _ "add" ["trailing"; "stop-limit"]%string _ _ _ eq_refl H eq_refl)).
  - pose (f := fun ns => match ns with [i; q] => Calls (ReduceOrder i q) | _ => Invalid end). apply (Hp f); [done|done|]. known cmd_reduce H. exact (plain_ok _ _ _ "reduce" ["order"]%string _ _ eq_refl H eq_refl).
  - pose (f := fun ns => match ns with [i; p; q] => Calls (ModifyOrder i p q) | _ => Invalid end). apply (Hp f); [done|done|]. known cmd_modify H. exact (plain_ok _ _ _ "modify" ["order"]%string _ _ eq_refl H eq_refl).
  - pose (f := fun ns => match ns with [i; p; q] => Calls (MitigateOrder i p q) | _ => Invalid end). apply (Hp f); [done|done|]. known cmd_mitigate H. exact (plain_ok _ _ _ "mitigate" ["order"]%string _ _ eq_refl H eq_refl).
  - pose (f := fun ns => match ns with [i; ni; p; q] => Calls (ReplaceOrder i ni p q) | _ => Invalid end). apply (Hp f); [done|done|]. known cmd_replace H. exact (plain_ok _ _ _ "replace" ["order"]%string _ _ eq_refl H eq_refl).
  - pose (f := fun ns => match ns with [i] => Calls (DeleteOrder i) | _ => Invalid end). apply (Hp f); [done|done|]. known cmd_delete H. exact (plain_ok _ _ _ "delete" ["order"]%string _ _ eq_refl H eq_refl).
Qed.
(** ** What is read was written *)
Lemma eqb_false_ne (a b : string) : String.eqb a b = false -> a <> b.
Proof. intros H ->. by rewrite String.eqb_refl in H. Qed.
Lemma plain_enters name n f w ws l (F : list Z -> op) : sentence (w :: ws) = name ->
  (forall ns, List.length ns = n -> says l (w :: ws) ns -> enters l (F ns) ns /\ f ns = Calls (F ns)) ->
  plain_cmd name n f l = Invalid \/ exists a ns, enters l a ns /\ plain_cmd name n f l = if moderateb ns then Calls a else Thrown.
Proof.
  intros Hw HF. destruct (plain_inv name n f w ws l Hw) as [->|(ns & Hs & Hn & ->)]; [by left|]. right. destruct (HF ns Hn Hs) as [He Hf]. exists (F ns), ns. by rewrite Hf.
Qed.
Lemma order_enters name n f w ws l (F : oside -> list Z -> op) : sentence (w :: ws) = name ->
  (forall sd ns, List.length ns = n -> says l (w :: ws ++ [side_word sd]) ns -> enters l (F sd ns) ns /\ f sd ns = Calls (F sd ns)) ->
  order_cmd name n f l = Invalid \/ exists a ns, enters l a ns /\ order_cmd name n f l = if moderateb ns then Calls a else Thrown.
Proof.
  intros Hw HF. destruct (order_inv name n f w ws l Hw) as [->|(sd & ns & Hs & Hn & ->)]; [by left|]. right. destruct (HF sd ns Hn Hs) as [He Hf]. exists (F sd ns), ns. by rewrite Hf.
Qed.
Definition entered (l : string) (r : reply) : Prop := exists a ns, enters l a ns /\ r = if moderateb ns then Calls a else Thrown.
Ltac spread ns := repeat (destruct ns as [|? ns]; try discriminate).
Ltac plain_back w ws F := apply (plain_enters _ _ _ w ws _ F); [reflexivity|intros ns Hn Hs; spread ns; split; [constructor; exact Hs|reflexivity]].
Ltac order_back w ws F := apply (order_enters _ _ _ w ws _ F); [reflexivity|intros sd ns Hn Hs; spread ns; split; [constructor; exact Hs|reflexivity]].
Lemma cmd_back junk k f l : In (k, f) (dispatch junk) -> f l = Invalid \/ entered l (f l).
Proof.
  unfold entered. intros H. cbn [dispatch In] in H.
  repeat (destruct H as [H|H]; [injection H as <- <-|]); [..|done].
  - destruct (symbol_inv junk l) as [->|(g & i & s & Hf & Hs & Ho & -> & Hc)]; [by left|]. right. exists (AddSymbol (mkSymbol i (name_from 8 s junk))), [i]. split.
    + econstructor; eauto. apply name_carries.
    + rewrite Hc. unfold moderateb. cbn [forallb]. by rewrite andb_true_r.
  - plain_back "delete"%string ["symbol"]%string (fun ns => match ns with [i] => DeleteSymbol i | _ => Match end).
  - plain_back "add"%string ["book"]%string (fun ns => match ns with [i] => AddOrderBook (mkSymbol i 0) | _ => Match end).
  - plain_back "delete"%string ["book"]%string (fun ns => match ns with [i] => DeleteOrderBook i | _ => Match end).
  - order_back "add"%string ["market"]%string (fun sd ns => match ns with [i; s; q] => AddOrder (MarketOrder i s sd q MAX64) | _ => Match end).
  - order_back "add"%string ["slippage"; "market"]%string (fun sd ns => match ns with [i; s; q; sl] => AddOrder (MarketOrder i s sd q sl) | _ => Match end).
  - order_back "add"%string ["limit"]%string (fun sd ns => match ns with [i; s; p; q] => AddOrder (LimitOrder i s sd p q GTC MAX64) | _ => Match end).
  - order_back "add"%string ["ioc"; "limit"]%string (fun sd ns => match ns with [i; s; p; q] => AddOrder (LimitOrder i s sd p q IOC MAX64) | _ => Match end).
  - order_back "add"%string ["fok"; "limit"]%string (fun sd ns => match ns with [i; s; p; q] => AddOrder (LimitOrder i s sd p q FOK MAX64) | _ => Match end).
  - order_back "add"%string ["aon"; "limit"]%string (fun sd ns => match ns with [i; s; p; q] => AddOrder (LimitOrder i s sd p q AON MAX64) | _ => Match end).
  - order_back "add"%string ["stop-limit"]%string (fun sd ns => match ns with [i; s; st; p; q] => AddOrder (StopLimitOrder i s sd st p q GTC MAX64) | _ => Match end).
  - order_back "add"%string ["stop"]%string (fun sd ns => match ns with [i; s; st; q] => AddOrder (StopOrder i s sd st q GTC MAX64) | _ => Match end).
  - order_back "add"%string ["trailing"; "stop-limit"]%string (fun sd ns => match ns with [i; s; st; p; q; d; t] => AddOrder (TrailingStopLimitOrder i s sd st p q d t GTC MAX64) | _ => Match end).
  - order_back "add"%string ["trailing"; "stop"]%string (fun sd ns => match ns with [i; s; st; q; d; t] => AddOrder (TrailingStopOrder i s sd st q d t GTC MAX64) | _ => Match end).
  - plain_back "reduce"%string ["order"]%string (fun ns => match ns with [i; q] => ReduceOrder i q | _ => Match end).
  - plain_back "modify"%string ["order"]%string (fun ns => match ns with [i; p; q] => ModifyOrder i p q | _ => Match end).
  - plain_back "mitigate"%string ["order"]%string (fun ns => match ns with [i; p; q] => MitigateOrder i p q | _ => Match end).
  - plain_back "replace"%string ["order"]%string (fun ns => match ns with [i; ni; p; q] => ReplaceOrder i ni p q | _ => Match end).
  - plain_back "delete"%string ["order"]%string (fun ns => match ns with [i] => DeleteOrder i | _ => Match end).
Qed.
Inductive reads (junk l : string) : Prop :=
| reads_quiet : read_line junk l = Quiet -> aside l -> reads junk l
| reads_quit : read_line junk l = Quit -> farewell l -> reads junk l
| reads_entered : entered l (read_line junk l) -> reads junk l
| reads_wrong : read_line junk l = Invalid \/ read_line junk l = Unknown -> ~ aside l -> ~ farewell l -> (forall a ns, ~ enters l a ns) -> reads junk l.
Lemma aside_quiet junk l : aside l -> read_line junk l = Quiet.
Proof. intros [-> |[-> |[r ->]]]; done. Qed.
Lemma farewell_quit junk l : farewell l -> read_line junk l = Quit.
Proof. intros [-> | ->]; done. Qed.
Lemma read_cases junk l : reads junk l.
Proof.
  assert (Hw : read_line junk l = Invalid \/ read_line junk l = Unknown -> reads junk l).
  { intros H. apply reads_wrong; [done|..].
    - intros Ha. rewrite (aside_quiet junk l Ha) in H. by destruct H.
    - intros Ha. rewrite (farewell_quit junk l Ha) in H. by destruct H.
    - intros a ns He. pose proof (enters_read l a ns He junk) as Hr. destruct (moderateb ns); [destruct Hr as (a' & Hr & _)|]; rewrite Hr in H; by destruct H. }
  destruct (String.eqb_spec l "help") as [->|N1]; [apply reads_quiet; [done|by left]|].
  destruct (String.eqb_spec l "exit") as [->|N2]; [apply reads_quit; [done|by left]|].
  destruct (String.eqb_spec l "quit") as [->|N3]; [apply reads_quit; [done|by right]|].
  destruct (strip "#" l) as [r|] eqn:N4; [apply strip_inv in N4; subst l; apply reads_quiet; [done|by right; right; exists r]|].
  destruct (String.eqb_spec l "") as [->|N5]; [apply reads_quiet; [done|by right; left]|].
  destruct (String.eqb_spec l "enable matching") as [->|N6]; [apply reads_entered; exists EnableMatching, []; by split; [constructor|]|].
  destruct (String.eqb_spec l "disable matching") as [->|N7]; [apply reads_entered; exists DisableMatching, []; by split; [constructor|]|].
  assert (Hr : read_line junk l = first_cmd (dispatch junk) l).
  { unfold read_line. apply String.eqb_neq in N1, N2, N3, N5, N6, N7. by rewrite N1, N2, N3, N4, N5, N6, N7. }
  destruct (first_inv (dispatch junk) l) as [Hf|(k & f & Hin & Hf)]; [apply Hw; right; by rewrite Hr|].
  destruct (cmd_back junk k f l Hin) as [Hi|He]; [apply Hw; left; by rewrite Hr, Hf|]. apply reads_entered. by rewrite Hr, Hf.
Qed.
