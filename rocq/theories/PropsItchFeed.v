(** * PropsItchFeed.v -- from the bytes of an ITCH stream to the books: C55. *)
From Coq Require Import ZifyBool String Ascii.
From stdpp Require Import fin_maps relations.
From Verif Require Import Types Manager Factory Itch ItchSpec PropsItch Fast PropsFast Drive PropsFeed Feed Spec Spec10 Spec11.
Open Scope Z_scope.

Lemma field_in f v (l : list (string * value)) : NoDup (map fst l) -> (f, v) ∈ l -> field f l = Some v.
Proof.
  unfold field. induction l as [|[g w] l IH]; intros Hn Hin; [by apply elem_of_nil in Hin|]. cbn in *. apply NoDup_cons in Hn as [Hg Hn].
  apply elem_of_cons in Hin as [[= -> ->]|Hin]; [by rewrite String.eqb_refl|]. destruct (String.eqb_spec g f) as [->|Hne]; [|by apply IH].
  exfalso. apply Hg. apply elem_of_list_fmap. by exists (f, v).
Qed.
Lemma field_delivered f (l : list (string * value)) : field f (map (fun p => (fst p, delivered (fst p) (snd p))) l) = delivered f <$> field f l.
Proof. unfold field. induction l as [|[g w] l IH]; [done|]. cbn. destruct (String.eqb_spec g f) as [->|]; [done|apply IH]. Qed.
Lemma layout_names : Forall (fun l : layout => NoDup (map fst (snd l))) layouts.
Proof. apply (bool_decide_unpack _). vm_compute. exact I. Qed.
Lemma named_fst fs vs : length fs = length vs -> map fst (named fs vs) = map fst fs.
Proof. unfold named. revert vs. induction fs as [|f fs IH]; intros [|v vs] H; cbn in *; try done. f_equal. apply IH. lia. Qed.
Lemma packet_field k f v : packet_ok k -> (f, v) ∈ pk_fields k -> field f (delivered_fields (pk_layout k) (pk_values k)) = Some (delivered f v).
Proof.
  intros (Hl & Hw & _) Hin. unfold delivered_fields. rewrite field_delivered, (field_in f v); [done| |done].
  rewrite named_fst by (destruct Hw as [Hw _]; by eapply Forall2_length). pose proof (proj1 (Forall_forall _ _) layout_names _ Hl) as H. exact H.
Qed.
Lemma packet_num k f x : packet_ok k -> has k f x -> f <> "Timestamp"%string -> num f (delivered_fields (pk_layout k) (pk_values k)) = x.
Proof. intros Hk Hx Hf. unfold num. rewrite (packet_field k f _ Hk Hx). cbn. apply String.eqb_neq in Hf. by rewrite Hf. Qed.
Lemma packet_side k c : packet_ok k -> ("BuySellIndicator"%string, VText [c]) ∈ pk_fields k -> is_b (delivered_fields (pk_layout k) (pk_values k)) = (c =? 66).
Proof. intros Hk Hx. unfold is_b, text. rewrite (packet_field k _ _ Hk Hx). done. Qed.
Open Scope string_scope.
Lemma layout_struct : Forall (fun l : layout => let '(t, name, _) := l in
  (t = "R"%char -> name = "StockDirectoryMessage") /\ (t = "A"%char -> name = "AddOrderMessage") /\ (t = "F"%char -> name = "AddOrderMPIDMessage") /\
  (t = "E"%char -> name = "OrderExecutedMessage") /\ (t = "C"%char -> name = "OrderExecutedWithPriceMessage") /\ (t = "X"%char -> name = "OrderCancelMessage") /\
  (t = "D"%char -> name = "OrderDeleteMessage") /\ (t = "U"%char -> name = "OrderReplaceMessage") /\
  (about_book t = false -> forall fs, handler_calls (mkMsg name fs) = [] /\ forall s, fast_handle (mkMsg name fs) s = Ok s)) layouts.
Proof. unfold layouts. repeat (apply Forall_cons; split; [repeat split; try discriminate; intros; discriminate|]). by apply Forall_nil. Qed.
Definition callback (k : packet) : message := mkMsg (pk_name k) (delivered_fields (pk_layout k) (pk_values k)).
Lemma tells_drives k m : packet_ok k -> tells k m -> drives m (handler_calls (callback k)).
Proof.
  intros Hk Ht. pose proof (proj1 (Forall_forall _ _) layout_struct _ (proj1 Hk)) as (N1 & N2 & N3 & N4 & N5 & N6 & N7 & N8 & _).
  pose proof (fun f x H => packet_num k f x Hk H) as HN. unfold callback, handler_calls. cbn [m_struct m_fields].
  inversion Ht as [sym T H1|id sym p q T H1 H2 H3 H4 H5|id sym p q T H1 H2 H3 H4 H5|id q T H1 H2|id p q T H1 H2 H3|id q T H1 H2|id T H1|id nid p q T H1 H2 H3 H4]; subst m; cbn [drives].
  - rewrite (N1 T). cbn -[num text be]. rewrite (HN _ _ H1) by done. eauto.
  - assert (Hn : pk_name k = "AddOrderMessage" \/ pk_name k = "AddOrderMPIDMessage") by naive_solver.
    rewrite (HN _ _ H1), (HN _ _ H2), (HN _ _ H3), (HN _ _ H4), (packet_side k _ Hk H5) by done. by destruct Hn as [-> | ->].
  - assert (Hn : pk_name k = "AddOrderMessage" \/ pk_name k = "AddOrderMPIDMessage") by naive_solver.
    rewrite (HN _ _ H1), (HN _ _ H2), (HN _ _ H3), (HN _ _ H4), (packet_side k _ Hk H5) by done. by destruct Hn as [-> | ->].
  - rewrite (N4 T). cbn -[num]. by rewrite (HN _ _ H1), (HN _ _ H2).
  - rewrite (N5 T). cbn -[num]. by rewrite (HN _ _ H1), (HN _ _ H2), (HN _ _ H3).
  - rewrite (N6 T). cbn -[num]. by rewrite (HN _ _ H1), (HN _ _ H2).
  - rewrite (N7 T). cbn -[num]. by rewrite (HN _ _ H1).
  - rewrite (N8 T). cbn -[num]. by rewrite (HN _ _ H1), (HN _ _ H2), (HN _ _ H3), (HN _ _ H4).
Qed.
Lemma int32_small p : (0 < p < 2147483648)%Z -> int32 p = p.
Proof. intros H. unfold int32. by replace (p <? 2147483648)%Z with true by lia. Qed.
Lemma tells_fast k m T s : packet_ok k -> tells k m -> feed_ok N_ORDERS N_BOOKS 2147483648 TWO32 T m -> fast_handle (callback k) s = fast_step m s.
Proof.
  intros Hk Ht Hok. pose proof (proj1 (Forall_forall _ _) layout_struct _ (proj1 Hk)) as (N1 & N2 & N3 & N4 & N5 & N6 & N7 & N8 & _).
  pose proof (fun f x H => packet_num k f x Hk H) as HN. unfold callback, fast_handle. cbn [m_struct m_fields].
  inversion Ht as [sym Ty H1|id sym p q Ty H1 H2 H3 H4 H5|id sym p q Ty H1 H2 H3 H4 H5|id q Ty H1 H2|id p q Ty H1 H2 H3|id q Ty H1 H2|id Ty H1|id nid p q Ty H1 H2 H3 H4]; subst m; cbn [fast_step].
  - rewrite (N1 Ty). cbn -[num text be fast_add_book]. by rewrite (HN _ _ H1).
  - assert (Hn : pk_name k = "AddOrderMessage" \/ pk_name k = "AddOrderMPIDMessage") by naive_solver. destruct Hok as (_ & _ & _ & Hp & _).
    rewrite (HN _ _ H1), (HN _ _ H2), (HN _ _ H3), (HN _ _ H4), (packet_side k _ Hk H5), int32_small by done. by destruct Hn as [-> | ->].
  - assert (Hn : pk_name k = "AddOrderMessage" \/ pk_name k = "AddOrderMPIDMessage") by naive_solver. destruct Hok as (_ & _ & _ & Hp & _).
    rewrite (HN _ _ H1), (HN _ _ H2), (HN _ _ H3), (HN _ _ H4), (packet_side k _ Hk H5), int32_small by done. unfold neg32. replace (p =? -2147483648)%Z with false by lia. by destruct Hn as [-> | ->].
  - rewrite (N4 Ty). cbn -[num fast_reduce]. by rewrite (HN _ _ H1), (HN _ _ H2).
  - rewrite (N5 Ty). cbn -[num fast_reduce]. by rewrite (HN _ _ H1), (HN _ _ H3).
  - rewrite (N6 Ty). cbn -[num fast_reduce]. by rewrite (HN _ _ H1), (HN _ _ H2).
  - rewrite (N7 Ty). cbn -[num fast_delete]. by rewrite (HN _ _ H1).
  - destruct Hok as (v & _ & _ & Hp & _). rewrite (N8 Ty). cbn -[num fast_replace_to int32]. by rewrite (HN _ _ H1), (HN _ _ H2), (HN _ _ H3), (HN _ _ H4), int32_small by done.
Qed.
Close Scope string_scope.
(** ** The decoder calls back once for every packet *)
Lemma wire_nonempty k : packet_ok k -> on_wire k <> [].
Proof. intros (Hl & [Hw (vs' & E)] & _). unfold on_wire. rewrite E in *. inversion Hw as [|[f kd] v fs vs Hv Hr]; subst. done. Qed.
Lemma deliver_packets bh ks : forall log, Forall packet_ok ks -> deliver bh (fun _ => true) (map on_wire ks) log = Ok (true, log ++ map callback ks).
Proof.
  induction ks as [|k ks IH]; intros log Hk; cbn [map deliver]; [by rewrite app_nil_r|]. apply Forall_cons in Hk as [Hk Hks].
  pose proof (wire_nonempty k Hk) as Hne. destruct (on_wire k) as [|b bs] eqn:E; [done|]. destruct Hk as (Hl & Hw & _).
  unfold on_wire in E. rewrite <- E, (C42_decode_partial bh (fun _ => true) (pk_type k) (pk_name k) (pk_layout k) (pk_values k) log Hl Hw). cbn [rbind].
  rewrite IH by done. by rewrite <- app_assoc.
Qed.
Lemma wire_short : Forall (fun l : layout => (wire_size (snd l) <= 50)%nat) layouts.
Proof. apply (bool_decide_unpack _). vm_compute. exact I. Qed.
Lemma on_wire_length k : packet_ok k -> Z.of_nat (length (on_wire k)) <= 65535.
Proof.
  intros (Hl & [Hw _] & _). unfold on_wire. rewrite (encode_length _ _ Hw). pose proof (proj1 (Forall_forall _ _) wire_short _ Hl) as H. cbn [snd] in H. lia.
Qed.
Lemma says_calls ks ms : Forall packet_ok ks -> says ks ms -> exists opss, Forall2 drives ms opss /\ concat opss = flat_map handler_calls (map callback ks).
Proof.
  intros Hk Hs. induction Hs as [|k ks m ms Ha Ht Hs IH|k ks ms Ha Hs IH]; [by exists []| |]; apply Forall_cons in Hk as [Hk Hks]; destruct (IH Hks) as (opss & H1 & H2).
  - exists (handler_calls (callback k) :: opss). split; [constructor; [by apply tells_drives|done]|]. cbn. by rewrite H2.
  - exists opss. split; [done|]. cbn. rewrite H2. pose proof (proj1 (Forall_forall _ _) layout_struct _ (proj1 Hk)) as (_ & _ & _ & _ & _ & _ & _ & _ & N).
    destruct (N Ha (delivered_fields (pk_layout k) (pk_values k))) as [E _]. unfold callback at 2. by rewrite E.
Qed.
Lemma says_fast ks ms : Forall packet_ok ks -> says ks ms -> forall T s s', feeds_ok N_ORDERS N_BOOKS 2147483648 TWO32 T ms -> fast_run ms s = Ok s' -> fast_handle_all (map callback ks) s = Ok s'.
Proof.
  intros Hk Hs. induction Hs as [|k ks m ms Ha Ht Hs IH|k ks ms Ha Hs IH]; intros T s s' Hok E; [done| |]; apply Forall_cons in Hk as [Hk Hks]; cbn [map fast_handle_all].
  - destruct Hok as [Ho Hok]. rewrite (tells_fast k m T s Hk Ht Ho). cbn [fast_run] in E. destruct (fast_step m s) as [s1| |]; [|done|done]. cbn [rbind] in *. by eapply IH.
  - pose proof (proj1 (Forall_forall _ _) layout_struct _ (proj1 Hk)) as (_ & _ & _ & _ & _ & _ & _ & _ & N).
    destruct (N Ha (delivered_fields (pk_layout k) (pk_values k))) as [_ Ef]. unfold callback at 1. rewrite Ef. cbn [rbind]. by eapply IH.
Qed.

(** ** C55 *)
(** The bytes of a day of packets, cut into chunks anywhere, with an unfinished packet at the end:
    the decoder accepts them, and the calls the handler makes leave the market manager showing
    exactly the live orders. *)
Theorem C55_books bh chunks ks tail ms : Forall (Forall is_byte) chunks -> Forall packet_ok ks -> incomplete tail ->
  concat chunks = stream (map on_wire ks) ++ tail -> says ks ms -> carries_all [] ∅ ms ->
  exists d s, ItchSpec.feed bh (fun _ => true) chunks new_dec = Ok (true, d) /\ run init (flat_map handler_calls (d_log d)) = Ok s /\
    (forall sym, FBook sym ∈ ms -> get_book sym s <> None) /\
    (forall sym b sd, get_book sym s = Some b -> depth_of (track_all ∅ ms) sym sd (shows b sd)) /\
    (forall id, match get_order id s, track_all ∅ ms !! id with Some o, Some v => stands_for v o | None, None => True | _, _ => False end).
Proof.
  intros Hb Hk Ht Hc Hs Hca. destruct (C40_stream bh (fun _ => true) chunks (map on_wire ks) tail Hb) as (ok & d & Hf & Hd); [|done|done|].
  { apply Forall_map. eapply Forall_impl; [done|]. apply on_wire_length. }
  rewrite (deliver_packets bh ks [] Hk) in Hd. injection Hd as <- Hlog. cbn in Hlog.
  destruct (says_calls ks ms Hk Hs) as (opss & Hdr & Eo). destruct (C54_depth ms opss Hca Hdr) as (s & Er & H). exists d, s. split; [done|]. split; [|done].
  by rewrite <- Hlog, <- Eo.
Qed.
Print Assumptions C55_books.
(** The aggressive optimized manager, driven the same way. *)
Theorem C55_fast bh chunks ks tail ms : Forall (Forall is_byte) chunks -> Forall packet_ok ks -> incomplete tail ->
  concat chunks = stream (map on_wire ks) ++ tail -> says ks ms -> OKF ms ->
  exists d s, ItchSpec.feed bh (fun _ => true) chunks new_dec = Ok (true, d) /\ fast_handle_all (d_log d) fast_init = Ok s /\
    forall sym sd, depth_of (track_all ∅ ms) sym sd (fast_levels s sym sd).
Proof.
  intros Hb Hk Ht Hc Hs Hok. destruct (C40_stream bh (fun _ => true) chunks (map on_wire ks) tail Hb) as (ok & d & Hf & Hd); [|done|done|].
  { apply Forall_map. eapply Forall_impl; [done|]. apply on_wire_length. }
  rewrite (deliver_packets bh ks [] Hk) in Hd. injection Hd as <- Hlog. cbn in Hlog.
  destruct (C52_depth ms Hok) as (s & Er & H). exists d, s. split; [done|]. split; [|done]. rewrite <- Hlog. by eapply says_fast.
Qed.
Print Assumptions C55_fast.

(** Example: a stock, two orders, a trading action message (which says nothing about orders), a
    replacement, a partial execution, cut in the middle of a message, with an unfinished one after. *)
Definition hd (t l : Z) : list value := [VText [t]; VNum l; VNum 0; VNum 77].
Definition a_day : list packet :=
  match layouts with
  | _ :: R :: H :: _ :: _ :: _ :: _ :: _ :: A :: _ :: E :: _ :: _ :: _ :: U :: _ =>
      let pk (l : layout) vs := mkPacket (fst (fst l)) (snd (fst l)) (snd l) vs in
      [pk R (hd 82 7 ++ [VText [65;65;80;76;32;32;32;32]; VText [81]; VText [78]; VNum 100; VText [78]; VText [67]; VText [90;32]; VText [80]; VText [78]; VText [78]; VText [49]; VText [78]; VNum 1; VText [78]]);
       pk A (hd 65 7 ++ [VNum 10; VText [66]; VNum 500; VText [65;65;80;76;32;32;32;32]; VNum 1000000]);
       pk A (hd 65 7 ++ [VNum 11; VText [83]; VNum 300; VText [65;65;80;76;32;32;32;32]; VNum 1010000]);
       pk H (hd 72 7 ++ [VText [65;65;80;76;32;32;32;32]; VText [84]; VText [32]; VText [84;49;32;32]]);
       pk U (hd 85 7 ++ [VNum 10; VNum 12; VNum 400; VNum 1005000]);
       pk E (hd 69 7 ++ [VNum 12; VNum 150; VNum 4242])]
  | _ => []
  end.
Definition a_feed : list Feed.feed := [FBook 7; FAdd 10 7 BUY 1000000 500; FAdd 11 7 SELL 1010000 300; FReplace 10 12 1005000 400; FExecute 12 150].
Definition a_bytes : list Z := stream (map on_wire a_day).
Lemma a_day_ok : Forall packet_ok a_day.
Proof.
  assert (Hb : forall l, bool_decide (Forall is_byte l) = true -> Forall is_byte l) by (intros l; apply bool_decide_eq_true).
  unfold a_day, layouts. repeat (apply Forall_cons; split; [split; [|split]|]); try (by apply Forall_nil); try (cbn [pk_type pk_name pk_layout fst snd];
    first [by (repeat (first [apply elem_of_list_here|apply elem_of_list_further]))|idtac]).
  all: try (split; [|by eexists]; unfold hd, head; cbn [app]; repeat (constructor; [cbn; first [lia | split; [reflexivity|apply Hb; vm_compute; reflexivity]]|]); constructor).
  all: intros t Ht; apply elem_of_list_In in Ht; cbn in Ht; unfold chr; cbn; intuition (try discriminate); match goal with H : (_, VText ?a) = (_, VText ?b) |- _ => injection H as <- end; auto.
Qed.
Example C55_example : Forall packet_ok a_day /\ says a_day a_feed /\ carries_all [] ∅ a_feed /\ OKF a_feed /\
  concat [take 100 a_bytes; drop 100 a_bytes ++ [0; 19; 68]] = stream (map on_wire a_day) ++ [0; 19; 68] /\ incomplete [0; 19; 68] /\ length a_bytes = 214%nat.
Proof.
  split; [apply a_day_ok|]. split.
  { unfold a_day, layouts, a_feed. cbn [fst snd].
    apply says_one; [done|apply tells_book; [done|apply elem_of_list_In; vm_compute; tauto]|].
    apply says_one; [done|apply tells_buy; [by left| | | | |]; apply elem_of_list_In; vm_compute; tauto|].
    apply says_one; [done|apply tells_sell; [by left| | | | |]; apply elem_of_list_In; vm_compute; tauto|].
    apply says_none; [done|].
    apply says_one; [done|apply tells_replace; [done| | | |]; apply elem_of_list_In; vm_compute; tauto|].
    apply says_one; [done|apply tells_execute; [done| |]; apply elem_of_list_In; vm_compute; tauto|]. apply says_nil. }
  split; [apply carries_allb_ok; vm_compute; reflexivity|]. split; [apply feeds_okb_ok; vm_compute; reflexivity|].
  split; [|split; [right; vm_compute; reflexivity|vm_compute; reflexivity]].
  cbn [concat]. rewrite app_nil_r, app_assoc, take_drop. done.
Qed.
