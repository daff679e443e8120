(** * PropsExample.v -- the market manager example, from bytes to text: C68. *)
From Coq Require Import ZifyBool String Ascii.
From stdpp Require Import fin_maps.
From Verif Require Import Types Book Engine Manager Factory BookInv Api StateInv Reach Calls Witness PropsState PropsBasic PropsFill PropsOpen Itch ItchSpec PropsItch Feed Fast PropsFast Drive PropsFeed PropsItchFeed Print PropsPrint ItchPrint PropsItchPrint Example Spec Spec2 Spec3 Spec10 Spec11 Spec19 Spec23 Spec24.
Open Scope Z_scope. Open Scope list_scope.

(** ** Where the messages of the decoder come from *)
Definition from_bytes (bh : bool) (m : message) : Prop :=
  m_struct m = "UnknownMessage"%string \/
  exists t p bs, parser_of t = Some p /\ m_struct m = p_struct p /\ Forall is_byte bs /\ reads bh (p_reads p) bs = Ok (m_fields m).
Definition good (bh : bool) (d : Itch.dec) : Prop := Forall is_byte (d_cache d) /\ Forall (from_bytes bh) (d_log d).

Lemma process_from bh acc m log ok log' : Forall is_byte m -> Forall (from_bytes bh) log -> process_message bh acc m log = Ok (ok, log') -> Forall (from_bytes bh) log'.
Proof.
  intros Hm Hl H. unfold process_message in H. destruct m as [|t m]; [by injection H as _ <-|].
  destruct (parser_of t) as [p|] eqn:Ep.
  - unfold parse_with in H. destruct (negb _); [by injection H as _ <-|]. destruct (reads bh (p_reads p) (t :: m)) as [fs| |] eqn:Er; cbn [rbind] in H; try done.
    injection H as _ <-. apply Forall_app. split; [done|]. apply Forall_singleton. right. by exists t, p, (t :: m).
  - unfold parse_unknown in H. injection H as _ <-. apply Forall_app. split; [done|]. apply Forall_singleton. by left.
Qed.
Lemma get_bytes_byte n bs x : Forall is_byte bs -> get_bytes n bs = Ok x -> Forall is_byte x.
Proof. unfold get_bytes. destruct (length bs <? n)%nat; [done|]. intros H [= <-]. by apply Forall_take. Qed.
Lemma body_good bh acc data d r : Forall is_byte data -> good bh d -> proc_body bh acc data d = Ok r ->
  match r with inl (_, d') => good bh d' | inr (data', d') => Forall is_byte data' /\ good bh d' end.
Proof.
  intros Hb [Hc Hl] H. unfold proc_body in H. destruct d as [n c log]. cbn [d_size d_cache d_log] in *. destruct c as [|c0 c].
  - destruct (length data <? n)%nat; [by injection H as <-|]. destruct (get_bytes n data) as [m| |] eqn:Em; cbn [rbind] in H; try done.
    destruct (process_message bh acc m log) as [[ok log']| |] eqn:Ep; cbn [rbind] in H; try done. pose proof (process_from _ _ _ _ _ _ (get_bytes_byte _ _ _ Hb Em) Hl Ep) as Hl'.
    destruct ok; injection H as <-; [split; [by apply Forall_drop|]|]; split; try done; constructor.
  - remember (c0 :: c) as cc eqn:Ecc. clear Ecc. set (tl := if (n <? length cc)%nat then length data else _) in *. clearbody tl.
    assert (Hcc : Forall is_byte (cc ++ take tl data)) by (apply Forall_app; split; [done|by apply Forall_take]). assert (Hd : Forall is_byte (drop tl data)) by (by apply Forall_drop).
    destruct (length (cc ++ take tl data) <? n)%nat; [by injection H as <-|]. destruct (get_bytes n (cc ++ take tl data)) as [m| |] eqn:Em; cbn [rbind] in H; try done.
    destruct (process_message bh acc m log) as [[ok log']| |] eqn:Ep; cbn [rbind] in H; try done. pose proof (process_from _ _ _ _ _ _ (get_bytes_byte _ _ _ Hcc Em) Hl Ep) as Hl'.
    destruct ok; injection H as <-; [split; [done|]|]; split; try done; constructor.
Qed.
Lemma loop_good bh acc fuel : forall data d ok d', Forall is_byte data -> good bh d -> proc_loop fuel bh acc data d = Ok (ok, d') -> good bh d'.
Proof.
  induction fuel as [|fuel IH]; intros data d ok d' Hb Hg H; [done|]. cbn [proc_loop] in H. destruct data as [|b data]; [by injection H as _ <-|].
  destruct (proc_iter bh acc (b :: data) d) as [r| |] eqn:E; cbn [rbind] in H; try done.
  assert (Hr : match r with inl (_, d') => good bh d' | inr (data', d') => Forall is_byte data' /\ good bh d' end).
  { unfold proc_iter in E. destruct (d_size d =? 0)%nat; [|by eapply body_good]. destruct Hg as [Hc Hl]. destruct (_ || _).
    - injection E as <-. apply Forall_cons in Hb as [Hb Hb']. split; [done|]. split; [|done]. apply Forall_app. split; [done|by apply Forall_singleton].
    - destruct (d_cache d) as [|c0 c] eqn:Ec.
      + destruct (get_bytes 2 (b :: data)) as [x| |] eqn:Ex; cbn [rbind] in E; try done. assert (Hd : Forall is_byte (drop 2 (b :: data))) by (by apply Forall_drop).
        cbn [d_size] in E. destruct (Z.to_nat (be x) =? 0)%nat; [injection E as <-; split; [done|split; [by apply Forall_nil_2|done]]|]. eapply body_good; [exact Hd| |exact E]. split; [by apply Forall_nil_2|done].
      + destruct (get_bytes 2 (c0 :: c)) as [x| |] eqn:Ex; cbn [rbind] in E; try done.
        cbn [d_size] in E. destruct (Z.to_nat (be x) =? 0)%nat; [injection E as <-; split; [done|split; [by apply Forall_nil_2|done]]|]. eapply body_good; [exact Hb| |exact E]. split; [by apply Forall_nil_2|done]. }
  destruct r as [[ok1 d1]|[data1 d1]]; [by injection H as _ <-|]. eapply IH; [| |exact H]; apply Hr.
Qed.
Lemma blocks_good bh blocks : forall d, Forall (Forall is_byte) blocks -> good bh d -> dec_reach bh d -> exists d', run_blocks bh blocks d = Ok d' /\ good bh d'.
Proof.
  induction blocks as [|b bs IH]; intros d Hb Hg Hr; [by exists d|]. apply Forall_cons in Hb as [Hb Hbs]. cbn [run_blocks].
  destruct (C41_stream_in_bounds bh (fun _ => true) b d Hr Hb) as (ok & d1 & E). rewrite E. cbn [rbind].
  apply IH; [done|by eapply loop_good|by eapply dr_process].
Qed.

(** ** The calls made for a message *)
Definition fits (r : rd) (v : value) : Prop := match r, v with RBE n, VNum x => 0 <= x < 256 ^ Z.of_nat n | RBE _, _ => False | _, _ => True end.
Lemma reads_fit bh rs : forall bs fs, Forall is_byte bs -> reads bh rs bs = Ok fs -> Forall2 (fun r f => fst f = fst r /\ fits (snd r) (snd f)) rs fs.
Proof.
  induction rs as [|[f r] rs IH]; intros bs fs Hb H; [by injection H as <-|]. cbn [reads] in H.
  destruct (read bh r bs) as [[v bs']| |] eqn:Er; cbn [rbind] in H; try done. destruct (reads bh rs bs') as [vs| |] eqn:Es; cbn [rbind] in H; try done.
  injection H as <-. assert (Hx : Forall is_byte bs' /\ fits r v).
  { unfold read in Er. destruct r as [|n| |n].
    - destruct (get_bytes 1 bs) as [x| |]; cbn [rbind] in Er; try done. injection Er as <- <-. split; [by apply Forall_drop|done].
    - destruct (get_bytes n bs) as [x| |] eqn:Ex; cbn [rbind] in Er; try done. injection Er as <- <-. split; [by apply Forall_drop|]. cbn [fits].
      pose proof (be_range x (get_bytes_byte _ _ _ Hb Ex)) as Hr. unfold get_bytes in Ex. destruct (length bs <? n)%nat eqn:El; [done|]. injection Ex as <-.
      rewrite take_length_le in Hr; [done|]. apply Nat.ltb_ge in El. lia.
    - destruct (read_timestamp bh bs) as [x| |]; cbn [rbind] in Er; try done. injection Er as <- <-. split; [by apply Forall_drop|done].
    - destruct (get_bytes n bs) as [x| |]; cbn [rbind] in Er; try done. injection Er as <- <-. split; [by apply Forall_drop|done]. }
  destruct Hx as [Hbs' Hv]. constructor; [done|]. by eapply IH.
Qed.
(** At most what a call brings in. *)
Definition most (a : op) : Z := match a with AddOrder o | ReplaceWith _ o => o_leaves o | ModifyOrder _ _ q | MitigateOrder _ _ q | ReplaceOrder _ _ _ q => q | _ => 0 end.
(** A call with fields of the width they have in the stream. *)
Definition narrow (a : op) : Prop :=
  match a with
  | AddSymbol sy | AddOrderBook sy => 0 <= sy_id sy < 65536
  | AddOrder o => exists id sym sd p q, o = LimitOrder id sym sd p q GTC MAX64 /\ 0 <= id < TWO64 /\ 0 <= sym < 65536 /\ 0 <= p < TWO32 /\ 0 <= q < TWO32
  | ReduceOrder i q | ExecuteOrder i q => 0 <= i < TWO64 /\ 0 <= q < TWO32
  | ExecuteOrderAt i p q => 0 <= i < TWO64 /\ 0 <= p < TWO32 /\ 0 <= q < TWO32
  | DeleteOrder i => 0 <= i < TWO64
  | ReplaceOrder i ni p q => 0 <= i < TWO64 /\ 0 <= ni < TWO64 /\ 0 <= p < TWO32 /\ 0 <= q < TWO32
  | _ => False
  end.
Lemma num_fits rs l f n : Forall2 (fun r x => fst x = fst r /\ fits (snd r) (snd x)) rs l -> List.find (fun x => String.eqb (fst x) f) rs = Some (f, RBE n) ->
  0 <= num f l < 256 ^ Z.of_nat n.
Proof.
  unfold num, field. induction 1 as [|[f0 r] [f1 v] rs l [Hf Hv] _ IH]; intros H; [done|]. cbn [List.find fst snd] in *. subst f1. destruct (f0 =? f)%string eqn:E; [|by apply IH].
  injection H as _ ->. cbn. by destruct v.
Qed.
Lemma handler_narrow bh m : from_bytes bh m -> Forall narrow (handler_calls m) /\ 0 <= sumZ (map most (handler_calls m)) < TWO32.
Proof.
  intros [E|(t & p & bs & Ht & E & Hb & Hr)].
  { unfold handler_calls. rewrite E. split; [constructor|done]. }
  pose proof (reads_fit _ _ _ _ Hb Hr) as Hf. clear Hr Hb bs. destruct m as [st l]. cbn [m_struct m_fields] in *. subst st. revert p Ht Hf.
  intros p Ht. revert l. apply (parser_of_cases (fun _ p => forall l, Forall2 (fun r f => fst f = fst r /\ fits (snd r) (snd f)) (p_reads p) l ->
    Forall narrow (handler_calls (mkMsg (p_struct p) l)) /\ 0 <= sumZ (map most (handler_calls (mkMsg (p_struct p) l))) < TWO32) t p); [..|exact Ht]; clear t p Ht.
  all: intros l Hl; try (split; [by constructor|done]).
  all: pose proof (fun f n => num_fits _ _ f n Hl) as N; clear Hl.
  - pose proof (N "StockLocate"%string 2%nat eq_refl) as H1. cbn in H1. unfold handler_calls. cbn -[num be]. split; [|done]. repeat (apply Forall_cons; split; [cbn; lia|]). constructor.
  - pose proof (N "StockLocate"%string 2%nat eq_refl) as H1. pose proof (N "OrderReferenceNumber"%string 8%nat eq_refl) as H2. pose proof (N "Price"%string 4%nat eq_refl) as H3. pose proof (N "Shares"%string 4%nat eq_refl) as H4.
    cbn in H1, H2, H3, H4. unfold handler_calls. cbn -[num is_b LimitOrder]. split; [|cbn; unfold TWO32; lia]. apply Forall_singleton. eexists _, _, _, _, _. split; [done|]. unfold TWO64, TWO32. lia.
  - pose proof (N "StockLocate"%string 2%nat eq_refl) as H1. pose proof (N "OrderReferenceNumber"%string 8%nat eq_refl) as H2. pose proof (N "Price"%string 4%nat eq_refl) as H3. pose proof (N "Shares"%string 4%nat eq_refl) as H4.
    cbn in H1, H2, H3, H4. unfold handler_calls. cbn -[num is_b LimitOrder]. split; [|cbn; unfold TWO32; lia]. apply Forall_singleton. eexists _, _, _, _, _. split; [done|]. unfold TWO64, TWO32. lia.
  - pose proof (N "OrderReferenceNumber"%string 8%nat eq_refl) as H1. pose proof (N "ExecutedShares"%string 4%nat eq_refl) as H2. cbn in H1, H2. unfold handler_calls. cbn -[num]. split; [|done].
    apply Forall_singleton. cbn -[num]. unfold TWO64, TWO32. lia.
  - pose proof (N "OrderReferenceNumber"%string 8%nat eq_refl) as H1. pose proof (N "ExecutedShares"%string 4%nat eq_refl) as H2. pose proof (N "ExecutionPrice"%string 4%nat eq_refl) as H3. cbn in H1, H2, H3. unfold handler_calls. cbn -[num]. split; [|done].
    apply Forall_singleton. cbn -[num]. unfold TWO64, TWO32. lia.
  - pose proof (N "OrderReferenceNumber"%string 8%nat eq_refl) as H1. pose proof (N "CanceledShares"%string 4%nat eq_refl) as H2. cbn in H1, H2. unfold handler_calls. cbn -[num]. split; [|done].
    apply Forall_singleton. cbn -[num]. unfold TWO64, TWO32. lia.
  - pose proof (N "OrderReferenceNumber"%string 8%nat eq_refl) as H1. cbn in H1. unfold handler_calls. cbn -[num]. split; [|done].
    apply Forall_singleton. cbn -[num]. unfold TWO64, TWO32. lia.
  - pose proof (N "OriginalOrderReferenceNumber"%string 8%nat eq_refl) as H1. pose proof (N "NewOrderReferenceNumber"%string 8%nat eq_refl) as H2. pose proof (N "Price"%string 4%nat eq_refl) as H3. pose proof (N "Shares"%string 4%nat eq_refl) as H4.
    cbn in H1, H2, H3, H4. unfold handler_calls. cbn -[num]. split; [|cbn -[num]; unfold TWO32; lia].
    apply Forall_singleton. cbn -[num]. unfold TWO64, TWO32. lia.
Qed.

(** ** The calls succeed *)
Lemma exq_nonneg s a s' er evs : reach s -> op_ok s a -> call s a s' er evs -> 0 <= exq evs.
Proof.
  intros Hr Hop Hc. unfold exq, sum_qty. assert (H : Forall (fun x => 0 <= snd x) (execs evs)).
  { apply Forall_forall. intros [[o p] q] Hx. pose proof (C23_leaves _ _ _ _ _ _ _ _ Hr Hop Hc Hx). cbn. lia. }
  induction H as [|x l Hx _ IH]; [done|]. cbn in *. lia.
Qed.
Lemma call_total s a s' er evs : reach s -> op_ok s a -> call s a s' er evs -> total (st_ords s') <= total (st_ords s) + most a.
Proof.
  intros Hr Hop Hc. pose proof (exq_nonneg _ _ _ _ _ Hr Hop Hc) as Hn. pose proof (reach_inv _ Hr) as Hinv.
  pose proof (C67_call s a s' er evs _ _ Hr Hop Hc (open_total s Hinv) (open_total s' (reach_inv _ (reach_step _ _ _ _ Hr Hop (proj1 Hc))))) as H. unfold exq in *.
  assert (Hof : forall i, 0 <= open_of s i).
  { intros i. unfold open_of. rewrite get_order_inv by done. destruct (st_ords s !! i) as [o|] eqn:E; [|done]. pose proof (lo_leaves _ _ (mo_live _ (iv_map _ Hinv) _ _ E)). lia. }
  assert (Hch : change s a <= most a /\ (0 <= most a)).
  { clear -Hof Hop. destruct a; cbn [change most op_ok] in *; unfold order_range, u64_range in *; try lia; try (specialize (Hof i); lia). }
  unfold brings in H. destruct (decide _); lia.
Qed.
Lemma total_but s i : inv s -> total (delete i (st_ords s)) <= total (st_ords s).
Proof.
  intros Hinv. destruct (st_ords s !! i) as [o|] eqn:E; [|by rewrite delete_notin]. rewrite (total_delete _ _ _ E).
  pose proof (lo_leaves _ _ (mo_live _ (iv_map _ Hinv) _ _ E)). lia.
Qed.
Lemma narrow_most a : narrow a -> 0 <= most a.
Proof. destruct a; cbn; try lia. intros (id & sym & sd & p & q & -> & H). cbn. lia. Qed.
Lemma narrow_ok s a : inv s -> narrow a -> total (st_ords s) + most a < TWO64 -> op_ok s a.
Proof.
  intros Hinv Hn Ht. destruct a; cbn [narrow op_ok] in *; try done; unfold u64_range, TWO64, TWO32, MAX64 in *; try lia.
  - destruct Hn as (id & sym & sd & p & q & -> & H). split; [|exact Ht]. unfold order_range, u64_range, i64_range, MAX64, TWO64, TWO63, TWO32 in *. cbn. repeat split; try lia; try done.
  - pose proof (total_but s i Hinv). cbn [most] in Ht. lia.
Qed.
Lemma narrow_run ops : Forall narrow ops -> forall s, reach s -> total (st_ords s) + sumZ (map most ops) < TWO64 ->
  exists s', run s ops = Ok s' /\ reach s' /\ total (st_ords s') <= total (st_ords s) + sumZ (map most ops).
Proof.
  induction 1 as [|a ops Ha Hops IH]; intros s Hr Ht; [exists s; split; [done|]; split; [done|]; change (sumZ (map most [])) with 0; lia|].
  change (sumZ (map most (a :: ops))) with (most a + sumZ (map most ops)) in *. pose proof (narrow_most a Ha) as Hb.
  assert (Hnn : 0 <= sumZ (map most ops)). { clear -Hops. induction Hops as [|b ops Hb _ IH]; [done|]. pose proof (narrow_most b Hb).
    change (sumZ (map most (b :: ops))) with (most b + sumZ (map most ops)). lia. }
  pose proof (reach_inv _ Hr) as Hinv. assert (Hop : op_ok s a) by (apply narrow_ok; [done|done|lia]).
  destruct (call_exists s a Hinv Hop) as (s1 & er & evs & Hc). pose proof (call_total _ _ _ _ _ Hr Hop Hc) as Ht1.
  destruct (IH s1 (reach_step _ _ _ _ Hr Hop (proj1 Hc)) ltac:(lia)) as (s2 & E2 & Hr2 & Ht2). exists s2. split; [|split; [done|lia]].
  cbn [run]. rewrite (proj1 Hc). exact E2.
Qed.
Lemma sumZ_app a b : sumZ (a ++ b) = sumZ a + sumZ b.
Proof. induction a as [|x a IH]; [done|]. change (sumZ ((x :: a) ++ b)) with (x + sumZ (a ++ b)). change (sumZ (x :: a)) with (x + sumZ a). lia. Qed.
Lemma calls_narrow bh l : Forall (from_bytes bh) l -> Forall narrow (flat_map handler_calls l) /\ 0 <= sumZ (map most (flat_map handler_calls l)) <= Z.of_nat (length l) * (TWO32 - 1).
Proof.
  induction 1 as [|m l Hm _ [IH1 IH2]]; [split; [constructor|done]|]. destruct (handler_narrow bh m Hm) as [H1 H2]. cbn [flat_map]. split; [by apply Forall_app|].
  rewrite map_app, sumZ_app. cbn [length]. rewrite Nat2Z.inj_succ. unfold TWO32 in *. lia.
Qed.

(** ** C68: no input makes the example leave defined behaviour *)
(** Whatever bytes arrive, cut into blocks in whatever way: decoding ends, and if it has delivered no more than 2^32 messages, all their calls
    return and leave a state of the manager that is one of those all other theorems are about. *)
Theorem C68_any_bytes bh blocks : Forall (Forall is_byte) blocks ->
  exists d, run_blocks bh blocks new_dec = Ok d /\ (Z.of_nat (length (d_log d)) <= TWO32 -> exists s, market_example bh blocks = Ok s /\ reach s).
Proof.
  intros Hb. destruct (blocks_good bh blocks new_dec Hb) as (d & E & [_ Hg]); [split; constructor|constructor|]. exists d. split; [done|]. intros Hlen.
  destruct (calls_narrow bh _ Hg) as [Hn Ht]. destruct (narrow_run _ Hn init reach_init) as (s & Er & Hr & _).
  { change (total (st_ords init)) with (total ∅). rewrite total_empty. unfold TWO64, TWO32 in *. lia. }
  exists s. split; [|done]. unfold market_example. rewrite E. exact Er.
Qed.
Print Assumptions C68_any_bytes.

(** ** C68: what the example does with a stream *)
Lemma input_run bh blocks ms : input blocks ms -> exists s B, market_example bh blocks = Ok s /\ FM s B (track_all ∅ ms) /\ forall sym, FBook sym ∈ ms -> sym ∈ B.
Proof.
  intros (ks & tail & Hb & Hk & Ht & Hc & Hs & Hca). destruct (C40_stream bh (fun _ => true) blocks (map on_wire ks) tail Hb) as (ok & d & Hf & Hd); [|done|done|].
  { apply Forall_map. eapply Forall_impl; [done|]. apply on_wire_length. }
  rewrite (deliver_packets bh ks [] Hk) in Hd. injection Hd as <- Hlog. cbn in Hlog.
  destruct (says_calls ks ms Hk Hs) as (opss & Hdr & Eo). destruct (fm_run ms opss Hdr init [] ∅ fm_init Hca) as (s & Er & H). exists s, (books_all [] ms). split; [|split; [done|]].
  - unfold market_example. rewrite (run_feed bh blocks new_dec d Hf). cbn [rbind]. by rewrite <- Hlog, <- Eo.
  - intros sym Hsym. apply books_all_in. by right.
Qed.
(** The books show exactly the depth of the live orders the stream tells of. *)
Theorem C68_books bh blocks ms : input blocks ms -> exists s, market_example bh blocks = Ok s /\
  (forall sym, FBook sym ∈ ms -> get_book sym s <> None) /\
  (forall sym b sd, get_book sym s = Some b -> depth_of (track_all ∅ ms) sym sd (shows b sd)) /\
  (forall id, match get_order id s, track_all ∅ ms !! id with Some o, Some v => stands_for v o | None, None => True | _, _ => False end).
Proof.
  intros H. destruct (input_run bh blocks ms H) as (s & B & E & HF & HB). exists s. split; [done|]. split; [|split].
  - intros sym Hsym. by eapply (fm_books _ _ _ HF), HB.
  - intros sym b sd Hb. by eapply fm_shows.
  - apply (fm_same _ _ _ HF).
Qed.
Print Assumptions C68_books.
(** Whoever reads the output knows the books, whatever the input was: two inputs with the same output leave the same levels. *)
Theorem C68_text_levels wr bh bh' blocks blocks' d d' s s' t : clean wr ->
  Forall (Forall is_byte) blocks -> run_blocks bh blocks new_dec = Ok d -> Z.of_nat (length (d_log d)) <= TWO32 ->
  Forall (Forall is_byte) blocks' -> run_blocks bh' blocks' new_dec = Ok d' -> Z.of_nat (length (d_log d')) <= TWO32 ->
  market_example bh blocks = Ok s -> market_example bh' blocks' = Ok s' -> writes wr s t -> writes wr s' t -> same_levels s s'.
Proof.
  intros Hw Hb Hd Hl Hb' Hd' Hl' He He' (ns & H1 & Ha & Ht) (ns' & H1' & Ha' & Ht').
  destruct (C68_any_bytes bh blocks Hb) as (d1 & Hd1 & H). rewrite Hd in Hd1. injection Hd1 as <-. destruct (H Hl) as (s1 & E1 & Hr). rewrite He in E1. injection E1 as <-.
  destruct (C68_any_bytes bh' blocks' Hb') as (d1 & Hd1 & H'). rewrite Hd' in Hd1. injection Hd1 as <-. destruct (H' Hl') as (s1 & E1 & Hr'). rewrite He' in E1. injection E1 as <-.
  eapply (C63_levels wr s s' ns ns'); try done. by rewrite <- Ht, <- Ht'.
Qed.
Print Assumptions C68_text_levels.
(** ... and the live orders, if the inputs are streams: two streams with the same output tell of the same live orders. *)
Theorem C68_text_orders wr bh bh' blocks blocks' ms ms' s s' t : clean wr -> input blocks ms -> input blocks' ms' ->
  market_example bh blocks = Ok s -> market_example bh' blocks' = Ok s' -> writes wr s t -> writes wr s' t -> track_all ∅ ms = track_all ∅ ms'.
Proof.
  intros Hw Hi Hi' He He' (ns & H1 & Ha & Ht) (ns' & H1' & Ha' & Ht').
  destruct (input_run bh blocks ms Hi) as (s1 & B & E1 & HF & _). rewrite He in E1. injection E1 as <-.
  destruct (input_run bh' blocks' ms' Hi') as (s1 & B' & E1 & HF' & _). rewrite He' in E1. injection E1 as <-.
  assert (Hx : stdout wr ns = stdout wr ns') by (by rewrite <- Ht, <- Ht').
  pose proof (C63_orders wr s s' ns ns' (fm_fresh _ _ _ HF) (fm_fresh _ _ _ HF') Hw H1 H1' Ha Ha' Hx) as Ho.
  apply map_eq. intros i. specialize (Ho i). pose proof (fm_same _ _ _ HF i) as K. pose proof (fm_same _ _ _ HF' i) as K'.
  destruct (get_order i s) as [o|], (get_order i s') as [o'|]; cbn in Ho; try done; destruct (track_all ∅ ms !! i) as [v|], (track_all ∅ ms' !! i) as [v'|]; try done.
  f_equal. destruct K as (K1 & K2 & K3 & K4 & K5 & K6), K' as (K1' & K2' & K3' & K4' & K5' & K6'). injection Ho as F. unfold facts in *. destruct v, v'. cbn in *. congruence.
Qed.
Print Assumptions C68_text_orders.

(** The stream of [C55_example], cut in two with an unfinished packet at the end, meets [input]; order 12 is left with 250. *)
Definition cut_day : list (list Z) := [take 100 a_bytes; drop 100 a_bytes ++ [0; 19; 68]].
Example C68_example : input cut_day a_feed /\ (forall wr s, exists t, writes wr s t) /\ clean ex_name /\
  v_qty <$> track_all ∅ a_feed !! 12 = Some 250 /\ match market_example false cut_day with Ok s => length (st_log s) | _ => 0%nat end = 18%nat.
Proof.
  split; [|split; [|split; [|split; vm_compute; reflexivity]]].
  - destruct C55_example as (H1 & H2 & H3 & _ & H4 & H5 & _). exists a_day, [0; 19; 68]. split; [|split; [exact H1|split; [exact H5|split; [exact H4|split; [exact H2|exact H3]]]]].
    assert (Hx : forallb (fun l => forallb (fun x => (0 <=? x) && (x <? 256)) l) cut_day = true) by (vm_compute; reflexivity).
    apply Forall_forall. intros l Hl. rewrite forallb_forall in Hx. apply elem_of_list_In in Hl. specialize (Hx l Hl). rewrite forallb_forall in Hx.
    apply Forall_forall. intros x Hi. apply elem_of_list_In in Hi. specialize (Hx x Hi). unfold is_byte. lia.
  - intros wr s. pose (bk ev := match ev with EAddBook i | EUpdateBook i _ | EDeleteBook i => new_book (mkSymbol i 0) | _ => new_book (mkSymbol 0 0) end).
    eexists _, (map (fun ev => (ev, bk ev)) (st_log s)). split; [|split; [|reflexivity]].
    + rewrite map_map. apply map_id.
    + apply Forall_map, Forall_forall. intros ev _. by destruct ev.
  - intros n. apply free_ok. exact eq_refl.
Qed.
(** Rubbish: a message of a wrong size, then a sound one; the first is refused and the program goes on. *)
Example C68_example_rubbish : Forall (Forall is_byte) [[0; 3; 82; 1; 2]; [0; 2; 90; 255]] /\
  match run_blocks false [[0; 3; 82; 1; 2]; [0; 2; 90; 255]] new_dec with Ok d => (length (d_log d)) | _ => 9%nat end = 1%nat /\
  match market_example false [[0; 3; 82; 1; 2]; [0; 2; 90; 255]] with Ok s => length (st_log s) | _ => 9%nat end = 0%nat.
Proof. split; [|split; vm_compute; reflexivity]. unfold is_byte. repeat (apply Forall_cons; split); try apply Forall_nil_2; lia. Qed.
