(** * PropsItch.v -- C40-C44: the ITCH decoder. *)
From stdpp Require Import list.
From Verif Require Import Itch ItchSpec.
Open Scope Z_scope.
Open Scope list_scope.

Ltac nb := repeat match goal with
  | H : (_ <? _)%nat = true |- _ => apply Nat.ltb_lt in H
  | H : (_ <? _)%nat = false |- _ => apply Nat.ltb_ge in H
  | H : (_ =? _)%nat = true |- _ => apply Nat.eqb_eq in H
  | H : (_ =? _)%nat = false |- _ => apply Nat.eqb_neq in H
  end.

(** ** Big-endian numbers *)
Lemma foldl_be bs a : foldl (fun a b => a * 256 + b) a bs = a * 256 ^ Z.of_nat (length bs) + be bs.
Proof.
  revert a; induction bs as [|b bs IH]; intros a; [cbn; lia|].
  unfold be. cbn [foldl length]. rewrite IH, (IH (0 * 256 + b)).
  rewrite Nat2Z.inj_succ, Z.pow_succ_r by lia. lia.
Qed.
Lemma be_cons b bs : be (b :: bs) = b * 256 ^ Z.of_nat (length bs) + be bs.
Proof. unfold be at 1. cbn [foldl]. rewrite foldl_be. f_equal; lia. Qed.
Lemma be_range bs : Forall is_byte bs -> 0 <= be bs < 256 ^ Z.of_nat (length bs).
Proof.
  induction 1 as [|b bs Hb H IH]; [cbn; lia|].
  rewrite be_cons. cbn [length]. rewrite Nat2Z.inj_succ, Z.pow_succ_r by lia. unfold is_byte in Hb.
  split; [nia|]. nia.
Qed.
Lemma be_bytes_length n x : length (be_bytes n x) = n.
Proof. induction n; cbn; congruence. Qed.
Lemma be_bytes_byte n x : Forall is_byte (be_bytes n x).
Proof. induction n; cbn; constructor; [|done]. unfold is_byte. apply Z.mod_pos_bound; lia. Qed.
Lemma be_be_bytes n x : be (be_bytes n x) = x mod 256 ^ Z.of_nat n.
Proof.
  induction n as [|n IH]; [cbn; by rewrite Z.mod_1_r|].
  cbn [be_bytes]. rewrite be_cons, be_bytes_length, IH, Nat2Z.inj_succ, Z.pow_succ_r by lia.
  rewrite (Z.mul_comm 256), Z.rem_mul_r by lia. lia.
Qed.
Lemma be_be_bytes_small n x : 0 <= x < 256 ^ Z.of_nat n -> be (be_bytes n x) = x.
Proof. intros H. rewrite be_be_bytes. by apply Z.mod_small. Qed.

(** ** The parsers never read outside the message *)
Definition rd_width (r : rd) : nat := match r with RChar => 1 | RBE n | RStr n => n | RTs => 6 end.
Definition rd_need (rs : list (string * rd)) : nat := sum_list (map (fun x => rd_width (snd x)) rs).
Lemma get_bytes_ok n bs : (n <= length bs)%nat -> get_bytes n bs = Ok (take n bs).
Proof. intros H. unfold get_bytes. by rewrite (proj2 (Nat.ltb_ge _ _) H). Qed.
Lemma read_timestamp_ok bh bs : (3 <= length bs)%nat -> exists x, read_timestamp bh bs = Ok x /\ x = be (take 3 bs).
Proof.
  intros H. unfold read_timestamp. rewrite get_bytes_ok by lia. cbn [rbind].
  destruct bs as [|b0 [|b1 [|b2 bs]]]; cbn in H; try lia. cbn [take].
  eexists; split; [reflexivity|].
  destruct bh; unfold host_be, host_le, be; cbn [foldl foldr].
  all: change (take 0 bs) with ([] : list Z); cbn [foldl]; lia.
Qed.
Lemma read_ok bh r bs : (rd_width r <= length bs)%nat -> exists v, read bh r bs = Ok (v, drop (rd_width r) bs).
Proof.
  destruct r as [|n| |n]; cbn [rd_width read]; intros H; try (rewrite get_bytes_ok by lia; cbn [rbind]; eauto).
  destruct (read_timestamp_ok bh bs) as (x & -> & _); [lia|]. cbn [rbind]. eauto.
Qed.
Lemma reads_ok bh rs bs : (rd_need rs <= length bs)%nat -> exists vs, reads bh rs bs = Ok vs.
Proof.
  revert bs; induction rs as [|[f r] rs IH]; intros bs H; cbn [reads]; [eauto|].
  cbn [rd_need map snd sum_list sum_list_with] in H. unfold rd_need in IH.
  destruct (read_ok bh r bs) as (v & ->); [cbn in H; lia|]. cbn [rbind].
  destruct (IH (drop (rd_width r) bs)) as (vs & ->); [rewrite drop_length; cbn in H; lia|]. cbn [rbind]. eauto.
Qed.

Lemma parser_of_cases (P : Z -> parser -> Prop) t p :
  P (chr "S") p_system_event -> P (chr "R") p_stock_directory -> P (chr "H") p_stock_trading_action ->
  P (chr "Y") p_reg_sho -> P (chr "L") p_market_participant_position -> P (chr "V") p_mwcbdecline ->
  P (chr "W") p_mwcbstatus -> P (chr "K") p_ipoquoting -> P (chr "A") p_add_order -> P (chr "F") p_add_order_mpid ->
  P (chr "E") p_order_executed -> P (chr "C") p_order_executed_with_price -> P (chr "X") p_order_cancel ->
  P (chr "D") p_order_delete -> P (chr "U") p_order_replace -> P (chr "P") p_trade -> P (chr "Q") p_cross_trade ->
  P (chr "B") p_broken_trade -> P (chr "I") p_noii -> P (chr "N") p_rpii -> P (chr "J") p_luldauction_collar ->
  parser_of t = Some p -> P t p.
Proof.
  intros. match goal with H : parser_of t = _ |- _ => revert H end. unfold parser_of.
  repeat (match goal with |- (if ?x =? ?y then _ else _) = _ -> _ => destruct (Z.eqb_spec x y) as [->|] end;
    [intros [= <-]; assumption|]). discriminate.
Qed.
Lemma parser_need t p : parser_of t = Some p -> (rd_need (p_reads p) <= p_size p)%nat.
Proof. apply (parser_of_cases (fun _ p => (rd_need (p_reads p) <= p_size p)%nat)); cbn; lia. Qed.

Theorem C41_message_in_bounds bh acc buf log : exists r, process_message bh acc buf log = Ok r.
Proof.
  unfold process_message. destruct buf as [|t bs]; [eauto|].
  destruct (parser_of t) as [p|] eqn:E; [|cbn; eauto].
  unfold parse_with. destruct (length (t :: bs) =? p_size p)%nat eqn:El; cbn [negb]; [|eauto]. nb.
  destruct (reads_ok bh (p_reads p) (t :: bs)) as (vs & ->); [rewrite El; eapply parser_need; eauto|].
  cbn [rbind]. eauto.
Qed.

(** ** Framing *)
Definition small (m : list Z) : Prop := Z.of_nat (length m) <= 65535.
Lemma frame_length m : length (frame m) = (2 + length m)%nat.
Proof. unfold frame. by rewrite app_length, be_bytes_length. Qed.
Lemma frame_inj m m' r r' : small m -> small m' -> frame m ++ r = frame m' ++ r' -> m = m' /\ r = r'.
Proof.
  unfold small. intros Hm Hm' H. unfold frame in H. rewrite <- !app_assoc in H.
  apply app_inj_1 in H as [H1 H2]; [|by rewrite !be_bytes_length].
  assert (Hl : length m = length m').
  { assert (He : be (be_bytes 2 (Z.of_nat (length m))) = be (be_bytes 2 (Z.of_nat (length m')))) by (by rewrite H1).
    rewrite !be_be_bytes_small in He by (change (256 ^ Z.of_nat 2) with 65536; lia). lia. }
  by apply app_inj_1 in H2.
Qed.
Lemma stream_cons m ms : stream (m :: ms) = frame m ++ stream ms.
Proof. done. Qed.
Lemma stream_app ms ms' : stream (ms ++ ms') = stream ms ++ stream ms'.
Proof. unfold stream. by rewrite map_app, concat_app. Qed.
Lemma frame_incomplete m r tail : small m -> incomplete tail -> frame m ++ r = tail -> False.
Proof.
  intros Hm Hi <-. unfold small in Hm. destruct Hi as [H|H]; rewrite app_length, frame_length in H; [lia|].
  unfold frame in H. rewrite <- app_assoc, take_app_alt in H by (by rewrite be_bytes_length).
  rewrite be_be_bytes_small in H by (change (256 ^ Z.of_nat 2) with 65536; lia). lia.
Qed.
Lemma stream_prefix ms rest ms' tail :
  Forall small ms -> Forall small ms' -> incomplete tail -> stream ms ++ rest = stream ms' ++ tail ->
  exists ms2, ms' = ms ++ ms2 /\ rest = stream ms2 ++ tail.
Proof.
  intros H. revert ms'; induction H as [|m ms Hm Hms IH]; intros ms' Hs Ht E; [by exists ms'|].
  destruct Hs as [|m' ms' Hm' Hs].
  - exfalso. rewrite stream_cons, <- app_assoc in E. by eapply frame_incomplete in E.
  - rewrite !stream_cons, <- !app_assoc in E. apply frame_inj in E as [<- E]; [|done..].
    destruct (IH _ Hs Ht E) as (ms2 & -> & ->). by exists ms2.
Qed.

Lemma take2_bytes (bs : list Z) : Forall is_byte bs -> (2 <= length bs)%nat ->
  bs = be_bytes 2 (be (take 2 bs)) ++ drop 2 bs.
Proof.
  intros H Hl. destruct bs as [|a [|b bs]]; cbn in Hl; try lia. cbn [take drop].
  inversion H as [|a' l' Ha Hr]; subst. inversion Hr as [|b' l'' Hb Hr']; subst. unfold is_byte in *.
  cbn. rewrite Z.div_1_r. assert (E1 : (a * 256 + b) / 256 = a) by (rewrite Z.div_add_l by lia; rewrite Z.div_small; lia).
  assert (E2 : (a * 256 + b) mod 256 = b).
  { rewrite Z.add_comm, Z.mod_add by lia. apply Z.mod_small; lia. }
  change (take 0 bs) with ([] : list Z). change (drop 0 bs) with bs. cbn [foldl]. change (256 ^ Z.of_nat 1) with 256.
  change ((0 * 256 + a) * 256 + b) with (a * 256 + b).
  rewrite E1, E2, Z.mod_small by lia. done.
Qed.
(** Every byte string is a sequence of complete messages and an incomplete one. *)
Lemma framing_total bs : Forall is_byte bs -> exists ms tail, bs = stream ms ++ tail /\ Forall small ms /\ incomplete tail.
Proof.
  remember (length bs) as n eqn:E. revert bs E. induction n as [n IH] using lt_wf_ind. intros bs E Hb. subst n.
  destruct (decide (incomplete bs)) as [Hi|Hi]; [by exists [], bs|].
  unfold incomplete in Hi.
  assert (Hl : (2 <= length bs)%nat) by lia. assert (Hz : 2 + be (take 2 bs) <= Z.of_nat (length bs)) by lia.
  assert (Hr : 0 <= be (take 2 bs) < 65536).
  { pose proof (be_range (take 2 bs) (Forall_take _ _ _ Hb)) as H. rewrite take_length_le in H by done.
    change (256 ^ Z.of_nat 2) with 65536 in H. done. }
  set (k := Z.to_nat (be (take 2 bs))). set (m := take k (drop 2 bs)).
  assert (Hm : length m = k) by (unfold m; rewrite take_length_le; [done|rewrite drop_length; lia]).
  destruct (IH (length (drop k (drop 2 bs)))) with (bs := drop k (drop 2 bs)) as (ms & tail & E & Hs & Ht); [|done| |].
  - rewrite !drop_length. lia.
  - by apply Forall_drop, Forall_drop.
  - exists (m :: ms), tail. repeat split; [|constructor; [unfold small; lia|done]|done].
    rewrite stream_cons, <- app_assoc, <- E. unfold frame. rewrite Hm. unfold k. rewrite Z2Nat.id by lia.
    rewrite <- app_assoc. unfold m, k. rewrite take_drop. by apply take2_bytes.
Qed.

Lemma deliver_app bh acc ms ms' log log1 :
  deliver bh acc ms log = Ok (true, log1) -> deliver bh acc (ms ++ ms') log = deliver bh acc ms' log1.
Proof.
  revert log; induction ms as [|m ms IH]; intros log; cbn [app deliver]; [by intros [= ->]|].
  destruct m as [|t m]; [apply IH|].
  destruct (process_message bh acc (t :: m) log) as [[ok l]| |]; cbn [rbind]; try done.
  destruct ok; [apply IH|done].
Qed.
Lemma deliver_app_false bh acc ms ms' log log1 :
  deliver bh acc ms log = Ok (false, log1) -> deliver bh acc (ms ++ ms') log = Ok (false, log1).
Proof.
  revert log; induction ms as [|m ms IH]; intros log; cbn [app deliver]; [done|].
  destruct m as [|t m]; [apply IH|].
  destruct (process_message bh acc (t :: m) log) as [[ok l]| |]; cbn [rbind]; try done.
  destruct ok; [apply IH|done].
Qed.

(** ** The stream decoder *)
(** States between successful calls. *)
Definition dec_ok (d : dec) : Prop :=
  Forall is_byte (d_cache d) /\
  ((d_size d = 0 /\ length (d_cache d) <= 2)%nat \/ ((0 < length (d_cache d) < d_size d)%nat /\ Z.of_nat (d_size d) <= 65535)).
Definition pending (d : dec) : list Z :=
  if (d_size d =? 0)%nat then d_cache d else be_bytes 2 (Z.of_nat (d_size d)) ++ d_cache d.
Definition cost (data : list Z) (d : dec) : nat := (2 * length data + (if (length (d_cache d) =? 0)%nat then 0 else 1))%nat.

(** What the loop does to a stream. *)
Definition explains (bh : bool) (acc : list message -> bool) (data : list Z) (d : dec) (r : bool * dec) : Prop :=
  exists ms rest, Forall small ms /\ pending d ++ data = stream ms ++ rest /\
    deliver bh acc ms (d_log d) = Ok (fst r, d_log (snd r)) /\
    (fst r = true -> dec_ok (snd r) /\ rest = pending (snd r)).

Lemma body_step bh acc data d :
  Forall is_byte data -> Forall is_byte (d_cache d) -> data <> [] ->
  (length (d_cache d) < d_size d)%nat /\ Z.of_nat (d_size d) <= 65535 ->
  exists r, proc_body bh acc data d = Ok r /\
  match r with
  | inl x => explains bh acc data d x
  | inr (data', d') =>
      dec_ok d' /\ Forall is_byte data' /\ (length data' < length data)%nat /\
      (length (d_cache d') = 0%nat \/ data' = []) /\
      exists ms, Forall small ms /\ be_bytes 2 (Z.of_nat (d_size d)) ++ d_cache d ++ data = stream ms ++ pending d' ++ data' /\
        deliver bh acc ms (d_log d) = Ok (true, d_log d')
  end.
Proof.
  intros Hb Hc Hne Hn. unfold proc_body. destruct d as [n c log]. cbn [d_size d_cache d_log] in *.
  assert (Hbn : be (be_bytes 2 (Z.of_nat n)) = Z.of_nat n) by (apply be_be_bytes_small; change (256 ^ Z.of_nat 2) with 65536; lia).
  assert (Hfr : forall m, length m = n -> be_bytes 2 (Z.of_nat n) ++ m = frame m) by (intros m <-; done).
  assert (Hdel : forall m ok log', length m = n -> process_message bh acc m log = Ok (ok, log') ->
     deliver bh acc [m] log = Ok (ok, log')).
  { intros m ok log' Hm Hp. cbn [deliver]. destruct m as [|t m]; [cbn in Hm; lia|]. rewrite Hp. cbn [rbind]. by destruct ok. }
  assert (Hpos : (0 < length data)%nat) by (destruct data; cbn; [done|lia]).
  destruct c as [|c0 c].
  - destruct (length data <? n)%nat eqn:E; nb.
    + eexists; split; [reflexivity|]. cbn [d_cache d_size d_log].
      split; [split; [done|right; cbn [d_cache d_size]; lia]|].
      split; [done|]. split; [cbn; lia|]. split; [by right|].
      exists []. split; [done|]. split; [|done]. unfold pending. cbn [d_size d_cache stream map concat app].
      rewrite (proj2 (Nat.eqb_neq n 0)) by lia. by rewrite app_nil_r.
    + rewrite get_bytes_ok by lia. cbn [rbind].
      destruct (C41_message_in_bounds bh acc (take n data) log) as ([ok log'] & Hp). rewrite Hp. cbn [rbind].
      assert (Hm : length (take n data) = n) by (apply take_length_le; lia).
      destruct ok.
      * eexists; split; [reflexivity|]. cbn [d_cache d_size d_log].
        split; [split; [constructor|left; cbn; lia]|]. split; [by apply Forall_drop|].
        split; [rewrite drop_length; lia|]. split; [by left|].
        exists [take n data]. split; [constructor; [unfold small; lia|done]|].
        split; [|by apply Hdel]. unfold pending. cbn [d_size d_cache Nat.eqb app]. unfold stream. cbn [map concat].
        rewrite app_nil_r, <- Hfr by done. by rewrite <- app_assoc, take_drop.
      * eexists; split; [reflexivity|]. cbn. exists [take n data], (drop n data).
        split; [constructor; [unfold small; lia|done]|]. split; [|split; [by apply Hdel|done]].
        unfold pending. cbn [d_size d_cache]. rewrite (proj2 (Nat.eqb_neq n 0)) by lia. unfold stream. cbn [map concat].
        rewrite !app_nil_r, <- Hfr by done. by rewrite <- app_assoc, take_drop.
  - set (cc := c0 :: c) in *. rewrite (proj2 (Nat.ltb_ge n (length cc))) by lia.
    set (tl := Nat.min (n - length cc) (length data)).
    assert (Htl : (0 < tl <= length data)%nat) by (unfold tl; lia).
    assert (Hlen : length (cc ++ take tl data) = (length cc + tl)%nat) by (rewrite app_length, take_length_le; lia).
    assert (Hcb : Forall is_byte (cc ++ take tl data)) by (apply Forall_app; split; [done|by apply Forall_take]).
    destruct (length (cc ++ take tl data) <? n)%nat eqn:E; nb.
    + eexists; split; [reflexivity|]. cbn [d_cache d_size d_log].
      split; [split; [done|right; cbn [d_cache d_size]; rewrite Hlen in *; split; [|lia]; unfold cc in *; cbn [length] in *; lia]|].
      split; [by apply Forall_drop|]. split; [rewrite drop_length; lia|].
      split; [right; apply nil_length_inv; rewrite drop_length; unfold tl in *; lia|].
      exists []. split; [done|]. split; [|done]. unfold pending. cbn [d_size d_cache stream map concat app].
      rewrite (proj2 (Nat.eqb_neq n 0)) by lia. rewrite <- !app_assoc, take_drop. done.
    + assert (Hl : length (cc ++ take tl data) = n) by (unfold tl in *; lia).
      rewrite get_bytes_ok, take_ge by lia. cbn [rbind].
      destruct (C41_message_in_bounds bh acc (cc ++ take tl data) log) as ([ok log'] & Hp). rewrite Hp. cbn [rbind].
      destruct ok.
      * eexists; split; [reflexivity|]. cbn [d_cache d_size d_log].
        split; [split; [constructor|left; cbn; lia]|]. split; [by apply Forall_drop|].
        split; [rewrite drop_length; lia|]. split; [by left|].
        exists [cc ++ take tl data]. split; [constructor; [unfold small; lia|done]|].
        split; [|by apply Hdel]. unfold pending. cbn [d_size d_cache Nat.eqb app]. unfold stream. cbn [map concat].
        rewrite app_nil_r, <- Hfr by done. by rewrite <- !app_assoc, take_drop.
      * eexists; split; [reflexivity|]. cbn. exists [cc ++ take tl data], (drop tl data).
        split; [constructor; [unfold small; lia|done]|]. split; [|split; [by apply Hdel|done]].
        unfold pending. cbn [d_size d_cache]. rewrite (proj2 (Nat.eqb_neq n 0)) by lia. unfold stream. cbn [map concat].
        rewrite !app_nil_r, <- Hfr by done. by rewrite <- !app_assoc, take_drop.
Qed.

Lemma iter_step bh acc data d :
  Forall is_byte data -> dec_ok d -> data <> [] ->
  exists r, proc_iter bh acc data d = Ok r /\
  match r with
  | inl x => explains bh acc data d x
  | inr (data', d') =>
      dec_ok d' /\ Forall is_byte data' /\ (cost data' d' < cost data d)%nat /\
      exists ms, Forall small ms /\ pending d ++ data = stream ms ++ pending d' ++ data' /\
        deliver bh acc ms (d_log d) = Ok (true, d_log d')
  end.
Proof.
  intros Hb [Hc Hd] Hne. unfold proc_iter.
  assert (Hpos : (0 < length data)%nat) by (destruct data; cbn; [done|lia]).
  destruct (d_size d =? 0)%nat eqn:Es; nb.
  2:{ destruct Hd as [Hd|Hd]; [lia|]. destruct (body_step bh acc data d) as (r & -> & H); [done..|lia|].
      exists r; split; [done|]. destruct r as [x|[data' d']]; [done|].
      destruct H as (H1 & H2 & H3 & H4 & ms & H5 & H6 & H7).
      split; [done|]. split; [done|]. split.
      { unfold cost. destruct (length (d_cache d') =? 0)%nat; destruct (length (d_cache d) =? 0)%nat; lia. }
      exists ms. split; [done|]. split; [|done]. unfold pending at 1.
      rewrite (proj2 (Nat.eqb_neq (d_size d) 0)), <- app_assoc by done. done. }
  destruct Hd as [[_ Hl]|Hd]; [|lia].
  destruct d as [n c log]. cbn [d_size d_cache d_log] in *. subst n.
  destruct (((length c =? 0)%nat && (length data <? 3)%nat) || (length c =? 1)%nat) eqn:Ec.
  { destruct data as [|b data]; [done|]. eexists; split; [reflexivity|]. cbn beta iota.
    inversion Hb as [|b' l' Hb1 Hb2]; subst.
    assert (Hc1 : (length c <= 1)%nat).
    { apply orb_true_iff in Ec as [Ec|Ec]; [apply andb_true_iff in Ec as [Ec _]|]; nb; lia. }
    split; [split; [apply Forall_app; split; [done|by constructor]|left; cbn; rewrite app_length; cbn; lia]|].
    split; [done|]. split.
    { unfold cost. cbn [d_cache length]. destruct (length (c ++ [b]) =? 0)%nat; destruct (length c =? 0)%nat; lia. }
    exists []. split; [done|]. split; [|done]. unfold pending. cbn. by rewrite <- app_assoc. }
  apply orb_false_iff in Ec as [Ec1 Ec2]. nb.
  assert (Hx : exists x data' , (match c with
             | [] => do x <- get_bytes 2 data; Ok (x, drop 2 data, [])
             | _ => do x <- get_bytes 2 c; Ok (x, data, [])
             end) = Ok (x, data', ([] : list Z)) /\ length x = 2%nat /\ Forall is_byte x /\ c ++ data = x ++ data' /\
             (0 < length data')%nat /\ (cost data' (mkDec 0 [] log) < cost data (mkDec 0 c log))%nat /\ (length data' <= length data)%nat).
  { destruct c as [|c0 c].
    - cbn [length Nat.eqb andb] in Ec1. nb.
      rewrite get_bytes_ok by lia. cbn [rbind]. eexists _, _. split; [reflexivity|].
      split; [apply take_length_le; lia|]. split; [by apply Forall_take|]. split; [cbn; by rewrite take_drop|].
      unfold cost. cbn [d_cache length Nat.eqb]. rewrite drop_length. lia.
    - assert (Hl2 : length (c0 :: c) = 2%nat) by (cbn in *; lia). rewrite get_bytes_ok by lia. cbn [rbind].
      rewrite take_ge by lia. eexists _, _. split; [reflexivity|]. repeat (split; [done|]).
      unfold cost. cbn [d_cache length Nat.eqb]. lia. }
  destruct Hx as (x & data' & -> & Hx2 & Hxb & Hcat & Hdl & Hcost & Hle). cbn [rbind d_size].
  assert (Hdb : Forall is_byte data').
  { assert (H : Forall is_byte (x ++ data')) by (rewrite <- Hcat; by apply Forall_app). by apply Forall_app in H as [_ H]. }
  assert (Hbx : 0 <= be x < 65536).
  { pose proof (be_range x Hxb) as H. rewrite Hx2 in H. change (256 ^ Z.of_nat 2) with 65536 in H. done. }
  assert (Hxe : x = be_bytes 2 (be x)).
  { pose proof (take2_bytes x Hxb) as H. rewrite take_ge, drop_ge, app_nil_r in H by lia. apply H. lia. }
  assert (Hdone : pending (mkDec 0 c log) ++ data = x ++ data') by (unfold pending; cbn; done).
  destruct (Z.to_nat (be x) =? 0)%nat eqn:E0; nb.
  - eexists; split; [reflexivity|]. cbn beta iota. rewrite E0.
    split; [split; [constructor|left; cbn; lia]|]. split; [done|]. split; [done|].
    exists [[]]. split; [constructor; [unfold small; cbn; lia|done]|]. split; [|done].
    rewrite Hdone. unfold pending, stream, frame. cbn [d_size d_cache Nat.eqb map concat length app].
    rewrite !app_nil_r. rewrite Hxe at 1. replace (be x) with 0 by lia. done.
  - destruct (body_step bh acc data' (mkDec (Z.to_nat (be x)) [] log)) as (r & -> & H).
    { done. } { constructor. } { intros ->. cbn in Hdl. lia. } { cbn. lia. }
    exists r; split; [done|]. cbn [d_size d_cache d_log] in H. rewrite Z2Nat.id, <- Hxe in H by lia.
    destruct r as [[ok d']|[data'' d']].
    + destruct H as (ms & rest & H1 & H2 & H3 & H4). exists ms, rest. split; [done|]. split; [|done].
      rewrite Hdone, <- H2. unfold pending. cbn [d_size d_cache]. rewrite (proj2 (Nat.eqb_neq (Z.to_nat (be x)) 0)) by lia.
      rewrite Z2Nat.id, <- Hxe, app_nil_r by lia. done.
    + destruct H as (H1 & H2 & H3 & H4 & ms & H5 & H6 & H7).
      split; [done|]. split; [done|]. split.
      { unfold cost in *. cbn [d_cache length Nat.eqb] in Hcost.
        destruct (length (d_cache d') =? 0)%nat eqn:E1; destruct (length c =? 0)%nat eqn:E2; nb; lia. }
      exists ms. split; [done|]. split; [|done]. by rewrite Hdone.
Qed.

Lemma loop_step bh acc fuel data d :
  Forall is_byte data -> dec_ok d -> (cost data d < fuel)%nat ->
  exists r, proc_loop fuel bh acc data d = Ok r /\ explains bh acc data d r.
Proof.
  revert data d; induction fuel as [|fuel IH]; intros data d Hb Hd Hf; [lia|].
  cbn [proc_loop]. destruct data as [|b data].
  - eexists; split; [reflexivity|]. exists [], (pending d). cbn. rewrite app_nil_r. done.
  - destruct (iter_step bh acc (b :: data) d) as (r & -> & H); [done..|]. cbn [rbind].
    destruct r as [x|[data' d']]; [by exists x|].
    destruct H as (H1 & H2 & H3 & ms & H4 & H5 & H6).
    destruct (IH data' d') as ([ok d''] & -> & ms' & rest & G1 & G2 & G3 & G4); [done|done|lia|].
    eexists; split; [reflexivity|]. exists (ms ++ ms'), rest.
    split; [by apply Forall_app|]. split; [by rewrite H5, G2, stream_app, app_assoc|].
    split; [|done]. erewrite deliver_app by exact H6. done.
Qed.
Lemma process_step bh acc data d :
  Forall is_byte data -> dec_ok d -> exists r, process bh acc data d = Ok r /\ explains bh acc data d r.
Proof.
  intros Hb Hd. unfold process. apply loop_step; [done|done|]. unfold cost. destruct (length (d_cache d) =? 0)%nat; lia.
Qed.
Lemma feed_step bh acc chunks d :
  Forall (Forall is_byte) chunks -> dec_ok d ->
  exists r ms rest, feed bh acc chunks d = Ok r /\ Forall small ms /\ pending d ++ concat chunks = stream ms ++ rest /\
    deliver bh acc ms (d_log d) = Ok (fst r, d_log (snd r)) /\
    (fst r = true -> dec_ok (snd r) /\ rest = pending (snd r)).
Proof.
  intros H; revert d; induction H as [|c chunks Hc H IH]; intros d Hd; cbn [feed concat].
  - exists (true, d), [], (pending d). rewrite app_nil_r. done.
  - destruct (process_step bh acc c d Hc Hd) as ([ok d1] & -> & ms & rest & H1 & H2 & H3 & H4). cbn [rbind]. cbn [fst snd] in *.
    destruct ok.
    + destruct (H4 eq_refl) as [Hd1 ->]. destruct (IH d1 Hd1) as ([ok' d2] & ms2 & rest2 & E2 & K1 & K2 & K3 & K4).
      exists (ok', d2), (ms ++ ms2), rest2. split; [done|]. split; [by apply Forall_app|].
      split; [by rewrite app_assoc, H2, <- app_assoc, K2, stream_app, app_assoc|].
      split; [|done]. erewrite deliver_app by exact H3. done.
    + exists (false, d1), ms, (rest ++ concat chunks). split; [done|]. split; [done|].
      split; [by rewrite app_assoc, H2, app_assoc|]. split; [done|]. cbn. done.
Qed.
Lemma pending_tail d : dec_ok d -> exists ms tail, Forall small ms /\ incomplete tail /\ pending d = stream ms ++ tail /\
  Forall (fun m => m = []) ms.
Proof.
  intros [Hc Hd]. unfold pending. destruct d as [n c log]. cbn [d_size d_cache] in *.
  destruct (n =? 0)%nat eqn:E; nb.
  - destruct Hd as [[_ Hl]|Hd]; [|lia].
    destruct (decide (incomplete c)) as [Hi|Hi]; [by exists [], c|].
    unfold incomplete in Hi. assert (Hl2 : length c = 2%nat) by lia.
    pose proof (be_range c Hc) as Hr. rewrite take_ge in Hi by lia.
    assert (Hz : be c = 0) by lia. exists [[]], []. split; [constructor; [unfold small; cbn; lia|done]|].
    split; [left; cbn; lia|]. split; [|by constructor]. unfold stream, frame. cbn [map concat length app]. rewrite !app_nil_r.
    pose proof (take2_bytes c Hc) as H. rewrite take_ge, drop_ge, app_nil_r in H by lia. rewrite H, Hz by lia. done.
  - destruct Hd as [Hd|[Hd Hn]]; [lia|]. exists [], (be_bytes 2 (Z.of_nat n) ++ c). split; [done|]. split; [|done].
    right. rewrite app_length, be_bytes_length, take_app_alt by (by rewrite be_bytes_length).
    rewrite be_be_bytes_small by (change (256 ^ Z.of_nat 2) with 65536; lia). lia.
Qed.
Lemma deliver_nils bh acc ms log : Forall (fun m => m = []) ms -> deliver bh acc ms log = Ok (true, log).
Proof. induction 1 as [|m ms -> H IH]; [done|]. cbn. done. Qed.

(** C40: however the bytes of a stream arrive, the complete messages in it are processed one by one,
    in order, each with the callbacks and result of ProcessMessage, until one is refused. *)
Theorem C40_stream bh acc chunks ms tail :
  Forall (Forall is_byte) chunks -> Forall (fun m => Z.of_nat (length m) <= 65535) ms -> incomplete tail ->
  concat chunks = stream ms ++ tail ->
  exists ok d, feed bh acc chunks new_dec = Ok (ok, d) /\ deliver bh acc ms [] = Ok (ok, d_log d).
Proof.
  intros Hb Hs Ht E.
  destruct (feed_step bh acc chunks new_dec) as ([ok d] & ms1 & rest & Hf & H1 & H2 & H3 & H4); [done|split; [constructor|left; cbn; lia]|].
  exists ok, d. split; [done|]. change (pending new_dec) with ([] : list Z) in H2. cbn [app fst snd d_log new_dec] in *.
  rewrite E in H2. destruct ok.
  - destruct (H4 eq_refl) as [Hd ->]. destruct (pending_tail d Hd) as (mz & tl & K1 & K2 & K3 & K4).
    rewrite K3, app_assoc, <- stream_app in H2. symmetry in H2. apply stream_prefix in H2 as (ms2 & -> & E2); [|by apply Forall_app|done|done].
    assert (Hn : ms2 = []).
    { destruct ms2 as [|m ms2]; [done|]. exfalso. rewrite stream_cons, <- app_assoc in E2. symmetry in E2.
      eapply frame_incomplete in E2; [done| |done]. apply Forall_app in Hs as [_ Hs]. by inversion Hs. }
    subst ms2. rewrite app_nil_r. erewrite deliver_app by exact H3. by apply deliver_nils.
  - symmetry in H2. apply stream_prefix in H2 as (ms2 & -> & E2); [|done..]. by apply deliver_app_false.
Qed.
Theorem C40_chunking bh acc chunks1 chunks2 :
  Forall is_byte (concat chunks1) -> concat chunks1 = concat chunks2 ->
  exists ok d1 d2, feed bh acc chunks1 new_dec = Ok (ok, d1) /\ feed bh acc chunks2 new_dec = Ok (ok, d2) /\ d_log d1 = d_log d2.
Proof.
  intros Hb E. destruct (framing_total (concat chunks1) Hb) as (ms & tail & Hc & Hs & Ht).
  assert (Hf : forall cs, Forall is_byte (concat cs) -> Forall (Forall is_byte) cs).
  { induction cs as [|c cs IH]; intros H; [constructor|]. cbn in H. apply Forall_app in H as [H1 H2]. constructor; auto. }
  destruct (C40_stream bh acc chunks1 ms tail) as (ok & d1 & E1 & D1); [auto|done|done|done|].
  destruct (C40_stream bh acc chunks2 ms tail) as (ok2 & d2 & E2 & D2); [apply Hf; by rewrite <- E|done|done|by rewrite <- E|].
  rewrite D1 in D2. injection D2 as -> Hl. eauto 10.
Qed.

(** Any cut of a recorded stream, one byte at a time for instance: an AddOrder message in three
    chunks, cut in the middle of the size and of the body, between two small unknown messages. *)
Definition sample_add : list Z :=
  [65; 0;1; 0;2; 0;0;0;0;1;0; 0;0;0;0;0;0;0;9; 66; 0;0;0;100; 65;65;80;76;32;32;32;32; 0;1;226;64].
Definition sample_stream : list Z := stream [[122]; sample_add; []; [122; 1]] ++ [0].
Example C40_example :
  let acc := fun _ => true in
  exists d1 d2, feed false acc [sample_stream] new_dec = Ok (true, d1) /\
    feed false acc [take 4 sample_stream; take 9 (drop 4 sample_stream); drop 13 sample_stream] new_dec = Ok (true, d2) /\
    d_log d1 = d_log d2 /\ length (d_log d1) = 3%nat.
Proof. eexists _, _. vm_compute. done. Qed.

(** ** C41 for the stream decoder, whatever happened before *)
Definition dec_weak (d : dec) : Prop :=
  ((d_size d = 0 /\ length (d_cache d) <= 2) \/ (length (d_cache d) <= d_size d))%nat.
Lemma body_total bh acc data d :
  dec_weak d -> (0 < d_size d)%nat -> data <> [] ->
  exists r, proc_body bh acc data d = Ok r /\
  match r with
  | inl (_, d') => dec_weak d'
  | inr (data', d') => dec_weak d' /\ (cost data' d' < cost data d)%nat
  end.
Proof.
  intros Hw Hp Hne. unfold proc_body. destruct d as [n c log]. unfold dec_weak, cost in *. cbn [d_size d_cache d_log] in *.
  assert (Hpos : (0 < length data)%nat) by (destruct data; cbn; [done|lia]).
  destruct Hw as [Hw|Hw]; [lia|].
  destruct c as [|c0 c].
  - destruct (length data <? n)%nat eqn:E; nb.
    + eexists; split; [reflexivity|]. cbn [d_size d_cache]. split; [lia|]. cbn [length]. destruct (length data =? 0)%nat; cbn; lia.
    + rewrite get_bytes_ok by lia. cbn [rbind].
      destruct (C41_message_in_bounds bh acc (take n data) log) as ([ok log'] & ->). cbn [rbind].
      destruct ok; (eexists; split; [reflexivity|]); cbn [d_size d_cache length Nat.eqb].
      * split; [lia|]. rewrite drop_length. lia.
      * lia.
  - set (cc := c0 :: c) in *. rewrite (proj2 (Nat.ltb_ge n (length cc))) by lia.
    set (tl := Nat.min (n - length cc) (length data)).
    assert (Hlen : length (cc ++ take tl data) = (length cc + tl)%nat) by (rewrite app_length, take_length_le; lia).
    assert (Hcc : (length cc =? 0)%nat = false) by done. rewrite Hcc.
    destruct (length (cc ++ take tl data) <? n)%nat eqn:E; nb.
    + eexists; split; [reflexivity|]. cbn [d_size d_cache]. split; [lia|].
      rewrite drop_length, Hlen. unfold tl in *. destruct (length cc + Nat.min (n - length cc) (length data) =? 0)%nat; lia.
    + rewrite get_bytes_ok by lia. cbn [rbind].
      destruct (C41_message_in_bounds bh acc (take n (cc ++ take tl data)) log) as ([ok log'] & ->). cbn [rbind].
      destruct ok; (eexists; split; [reflexivity|]); cbn [d_size d_cache].
      * split; [cbn; lia|]. rewrite drop_length. cbn [length Nat.eqb]. lia.
      * rewrite Hlen. unfold tl in *. lia.
Qed.
Lemma loop_total bh acc fuel data d :
  dec_weak d -> (cost data d < fuel)%nat -> exists ok d', proc_loop fuel bh acc data d = Ok (ok, d') /\ dec_weak d'.
Proof.
  revert data d; induction fuel as [|fuel IH]; intros data d Hd Hf; [lia|].
  cbn [proc_loop]. destruct data as [|b data]; [by exists true, d|].
  assert (Hi : exists r, proc_iter bh acc (b :: data) d = Ok r /\
    match r with inl (_, d') => dec_weak d' | inr (data', d') => dec_weak d' /\ (cost data' d' < cost (b :: data) d)%nat end).
  { unfold proc_iter. destruct (d_size d =? 0)%nat eqn:Es; nb; [|by apply body_total; [|lia|]].
    assert (Hl : (length (d_cache d) <= 2)%nat) by (destruct Hd; lia).
    destruct d as [n c log]. cbn [d_size d_cache d_log] in *. subst n.
    destruct (((length c =? 0)%nat && (length (b :: data) <? 3)%nat) || (length c =? 1)%nat) eqn:Ec; cbn beta iota.
    { eexists; split; [reflexivity|]. cbn beta iota. unfold dec_weak, cost. cbn [d_size d_cache].
      rewrite app_length. cbn [length].
      assert (length c <= 1)%nat by (apply orb_true_iff in Ec as [Ec|Ec]; [apply andb_true_iff in Ec as [Ec _]|]; nb; lia).
      split; [lia|]. destruct (length c + 1 =? 0)%nat; destruct (length c =? 0)%nat; lia. }
    apply orb_false_iff in Ec as [Ec1 Ec2]. nb.
    assert (Hx : exists x data', (match c with
             | [] => do x <- get_bytes 2 (b :: data); Ok (x, drop 2 (b :: data), [])
             | _ => do x <- get_bytes 2 c; Ok (x, (b :: data), [])
             end) = Ok (x, data', ([] : list Z)) /\ (0 < length data')%nat /\ (2 * length data' < cost (b :: data) (mkDec 0 c log))%nat).
    { destruct c as [|c0 c].
      - cbn [length Nat.eqb andb] in Ec1. nb.
        rewrite get_bytes_ok by (cbn [length]; lia). cbn [rbind]. eexists _, _. split; [reflexivity|].
        unfold cost. cbn [d_cache length Nat.eqb]. rewrite drop_length. cbn [length] in *. lia.
      - assert (Hl2 : length (c0 :: c) = 2%nat) by (cbn in *; lia). rewrite get_bytes_ok by lia. cbn [rbind].
        eexists _, _. split; [reflexivity|]. unfold cost. cbn [d_cache length Nat.eqb]. lia. }
    destruct Hx as (x & data' & -> & Hdl & Hcost). cbn [rbind d_size].
    destruct (Z.to_nat (be x) =? 0)%nat eqn:E0; nb.
    - eexists; split; [reflexivity|]. cbn beta iota. rewrite E0. split; [unfold dec_weak; cbn; lia|]. unfold cost at 1. cbn [d_cache length Nat.eqb]. lia.
    - match goal with |- context [proc_body bh acc ?dd ?d0] => destruct (body_total bh acc dd d0) as (r & -> & H) end.
      { unfold dec_weak; cbn; lia. } { cbn [d_size]; lia. } { intros ->. cbn in Hdl. lia. }
      exists r; split; [done|]. destruct r as [[ok d']|[data'' d']]; [done|]. destruct H as [H1 H2]. split; [done|].
      unfold cost at 2 in H2. cbn [d_cache length Nat.eqb] in H2. lia. }
  destruct Hi as (r & -> & H). cbn [rbind]. destruct r as [[ok d']|[data' d']]; [eauto|].
  destruct H as [H1 H2]. apply IH; [done|lia].
Qed.
Lemma dec_reach_weak bh d : dec_reach bh d -> dec_weak d.
Proof.
  induction 1 as [|acc buf d ok d' H IH Hb E|d H IH]; [unfold dec_weak; cbn; lia| |unfold dec_weak; cbn; lia].
  destruct (loop_total bh acc (2 * length buf + 2) buf d IH) as (ok2 & d2 & E2 & H2); [unfold cost; destruct (length (d_cache d) =? 0)%nat; lia|].
  unfold process in E. rewrite E2 in E. by injection E as _ <-.
Qed.
(** C41: whatever was processed before (failed calls and resets included), Process terminates and
    reads nothing outside its buffer, its cache and the message handed to each parser. *)
Theorem C41_stream_in_bounds bh acc buf d :
  dec_reach bh d -> Forall is_byte buf -> exists ok d', process bh acc buf d = Ok (ok, d').
Proof.
  intros Hd _. destruct (loop_total bh acc (2 * length buf + 2) buf d (dec_reach_weak _ _ Hd)) as (ok & d' & E & _); [|by exists ok, d'].
  unfold cost; destruct (length (d_cache d) =? 0)%nat; lia.
Qed.
Example C41_example : exists d, dec_reach false d /\ d_size d = 36%nat /\ length (d_cache d) = 36%nat.
Proof.
  (* the AddOrder message arrives in two parts and the callback refuses it *)
  destruct (process false (fun _ => false) (take 9 (frame sample_add)) new_dec) as [[ok1 d1]| |] eqn:E1; [|vm_compute in E1; done..].
  destruct (process false (fun _ => false) (drop 9 (frame sample_add)) d1) as [[ok2 d2]| |] eqn:E2; [|vm_compute in E1; injection E1 as <- <-; vm_compute in E2; done..].
  exists d2. split.
  - eapply dr_process; [eapply dr_process; [apply dr_new| |exact E1]| |exact E2]; apply (bool_decide_unpack (Forall _ _)); vm_compute; exact Logic.I.
  - vm_compute in E1. injection E1 as <- <-. vm_compute in E2. injection E2 as <- <-. done.
Qed.

(** ** C43: sizes and types *)
Definition known (t : Z) : Prop := exists c name fs, (c, name, fs) ∈ layouts /\ t = chr c.
Lemma layouts_parsers : Forall (fun l : layout => let '(t, name, fs) := l in
  exists p, parser_of (chr t) = Some p /\ p_struct p = name /\ p_size p = wire_size fs) layouts.
Proof. unfold layouts. repeat (constructor; [eexists; split; [reflexivity|]; split; reflexivity|]). constructor. Qed.
Lemma parser_known t p : parser_of t = Some p -> known t.
Proof.
  apply (parser_of_cases (fun t _ => known t)); unfold known, layouts;
    (eexists _, _, _; split; [|reflexivity]; repeat first [apply elem_of_list_here | apply elem_of_list_further]).
Qed.

(** A message of a known type with another size is refused without any callback. *)
Theorem C43_wrong_size bh acc t name fs bs log :
  (t, name, fs) ∈ layouts -> length (chr t :: bs) <> wire_size fs ->
  process_message bh acc (chr t :: bs) log = Ok (false, log).
Proof.
  intros Hin Hl. destruct (proj1 (Forall_forall _ _) layouts_parsers _ Hin) as (p & Hp & Hn & Hs).
  unfold process_message. rewrite Hp. unfold parse_with. rewrite Hs.
  destruct (length (chr t :: bs) =? wire_size fs)%nat eqn:E; nb; [done|]. done.
Qed.
(** One with the right size makes exactly one callback, of the type's own kind, and its result is
    returned. *)
Theorem C43_right_size bh acc t name fs bs log :
  (t, name, fs) ∈ layouts -> length (chr t :: bs) = wire_size fs ->
  exists m, process_message bh acc (chr t :: bs) log = Ok (acc (log ++ [m]), log ++ [m]) /\ m_struct m = name.
Proof.
  intros Hin Hl. destruct (proj1 (Forall_forall _ _) layouts_parsers _ Hin) as (p & Hp & Hn & Hs).
  unfold process_message. rewrite Hp. unfold parse_with. rewrite Hs, Hl, Nat.eqb_refl. cbn [negb].
  destruct (reads_ok bh (p_reads p) (chr t :: bs)) as (vs & ->); [rewrite Hl, <- Hs; eapply parser_need; eauto|].
  cbn [rbind]. eexists; split; [reflexivity|done].
Qed.
(** Any other type is reported to the unknown-message callback, whatever its size; an empty message is
    refused. *)
Theorem C43_unknown bh acc t bs log :
  ~ known t -> let m := mkMsg "UnknownMessage" [("Type"%string, VText [t])] in
  process_message bh acc (t :: bs) log = Ok (acc (log ++ [m]), log ++ [m]).
Proof.
  intros H. unfold process_message. destruct (parser_of t) as [p|] eqn:E; [|done].
  exfalso. eauto using parser_known.
Qed.
Theorem C43_empty bh acc log : process_message bh acc [] log = Ok (false, log).
Proof. done. Qed.
Example C43_example : ~ known (chr "z") /\ known (chr "A").
Proof.
  split; [|eapply (parser_known _ p_add_order); reflexivity].
  intros (c & name & fs & Hin & E). destruct (proj1 (Forall_forall _ _) layouts_parsers _ Hin) as (p & Hp & _).
  rewrite <- E in Hp. vm_compute in Hp. done.
Qed.

(** ** C42: field values *)
Definition reader (f : string * fkind) : string * rd :=
  (fst f, match snd f with
          | Int n => if String.eqb (fst f) "Timestamp" then RTs else RBE n
          | Alpha n => if String.eqb (fst f) "Reason" || String.eqb (fst f) "Attribution" then RChar
                       else if (n =? 1)%nat then RChar else RStr n
          end).
Definition odd_field (f : string * fkind) : bool := String.eqb (fst f) "Reason" || String.eqb (fst f) "Attribution".
(** [Timestamp] has six bytes, [Reason] and [Attribution] come last and are not empty. *)
Fixpoint fields_fit (fs : list (string * fkind)) : bool :=
  match fs with
  | [] => true
  | f :: r => match snd f with
              | Int n => if String.eqb (fst f) "Timestamp" then (n =? 6)%nat else true
              | Alpha n => if odd_field f then (0 <? n)%nat && match r with [] => true | _ => false end else true
              end && fields_fit r
  end.
Lemma layouts_reads : Forall (fun l : layout => let '(t, name, fs) := l in
  (exists p, parser_of (chr t) = Some p /\ p_struct p = name /\ p_size p = wire_size fs /\ p_reads p = map reader fs) /\
  fields_fit fs = true) layouts.
Proof. unfold layouts. repeat (constructor; [split; [eexists; repeat split; reflexivity|reflexivity]|]). constructor. Qed.

Lemma encode_length fs vs : Forall2 (fun f v => wire_value (snd f) v) fs vs -> length (encode fs vs) = wire_size fs.
Proof.
  induction 1 as [|[f k] v fs vs Hv H IH]; [done|].
  cbn [encode]. rewrite app_length, IH. unfold wire_size. cbn [map snd sum_list sum_list_with].
  f_equal. destruct k as [n|n], v as [x|s]; cbn in Hv; try done; cbn [encode_value width].
  - apply be_bytes_length.
  - apply Hv.
Qed.
Lemma be_take3 x : 0 <= x < 256 ^ 6 -> be (take 3 (be_bytes 6 x)) = x / 2 ^ 24.
Proof.
  intros H. change (take 3 (be_bytes 6 x)) with [(x / 256 ^ Z.of_nat 5) mod 256; (x / 256 ^ Z.of_nat 4) mod 256; (x / 256 ^ Z.of_nat 3) mod 256].
  assert (E : [(x / 256 ^ Z.of_nat 5) mod 256; (x / 256 ^ Z.of_nat 4) mod 256; (x / 256 ^ Z.of_nat 3) mod 256] = be_bytes 3 (x / 2 ^ 24)).
  { cbn [be_bytes]. rewrite !Z.div_div by lia. done. }
  rewrite E. apply be_be_bytes_small. change (256 ^ Z.of_nat 3) with (2 ^ 24). split; [apply Z.div_pos; lia|].
  apply Z.div_lt_upper_bound; [lia|]. change (2 ^ 24 * 2 ^ 24) with (256 ^ 6). lia.
Qed.
Lemma reads_encode bh fs vs :
  Forall2 (fun f v => wire_value (snd f) v) fs vs -> fields_fit fs = true ->
  reads bh (map reader fs) (encode fs vs) = Ok (delivered_fields fs vs).
Proof.
  induction 1 as [|[f k] v fs vs Hv H IH]; intros Hf; [done|].
  cbn [map encode]. cbn [fields_fit fst snd] in Hf. apply andb_true_iff in Hf as [Hf1 Hf2].
  unfold reader at 1. cbn [fst snd reads].
  unfold delivered_fields, named in *. cbn [map zip fst snd]. unfold odd_field in Hf1. cbn [fst] in Hf1.
  cbn [snd] in Hv. destruct k as [n|n], v as [x|s]; cbn [wire_value] in Hv; try done; cbn [encode_value width delivered].
  - destruct (String.eqb f "Timestamp") eqn:Et.
    + apply Nat.eqb_eq in Hf1. subst n. cbn [read].
      destruct (read_timestamp_ok bh (be_bytes 6 x ++ encode fs vs)) as (y & -> & ->); [rewrite app_length, be_bytes_length; lia|].
      cbn [rbind]. rewrite drop_app_alt by (by rewrite be_bytes_length). rewrite (IH Hf2). cbn [rbind].
      rewrite take_app_le by (rewrite be_bytes_length; lia). rewrite be_take3 by done. done.
    + cbn [read]. rewrite get_bytes_ok by (rewrite app_length, be_bytes_length; lia). cbn [rbind].
      rewrite take_app_alt, drop_app_alt by (by rewrite be_bytes_length). rewrite (IH Hf2). cbn [rbind].
      rewrite be_be_bytes_small by done. done.
  - destruct Hv as [Hl Hs]. destruct (String.eqb f "Reason" || String.eqb f "Attribution") eqn:Eo.
    + apply andb_true_iff in Hf1 as [Hn Hr]. destruct fs; [|done]. inversion H; subst. nb.
      cbn [read encode]. rewrite app_nil_r, get_bytes_ok by lia. done.
    + destruct (n =? 1)%nat eqn:En; nb; cbn [read].
      * subst n. rewrite get_bytes_ok by (rewrite app_length; lia). cbn [rbind].
        rewrite take_app_alt, drop_app_alt by lia. rewrite (IH Hf2). done.
      * rewrite get_bytes_ok by (rewrite app_length; lia). cbn [rbind].
        rewrite take_app_alt, drop_app_alt by lia. rewrite (IH Hf2). done.
Qed.

(** Every message of every type makes one callback of its own kind, and its result is returned; every
    field except Timestamp, Reason and Attribution has the value on the wire. *)
Theorem C42_decode_partial bh acc t name fs vs log :
  (t, name, fs) ∈ layouts -> wire_message t fs vs ->
  let m := mkMsg name (delivered_fields fs vs) in
  process_message bh acc (encode fs vs) log = Ok (acc (log ++ [m]), log ++ [m]).
Proof.
  intros Hin [Hv (vs' & ->)]. destruct (proj1 (Forall_forall _ _) layouts_reads _ Hin) as [(p & Hp & Hn & Hs & Hr) Hf].
  cbn zeta. pose proof (encode_length _ _ Hv) as Hl.
  inversion Hv as [|f v fs0 vs0 Hk Hv']; subst. destruct f as [f k].
  unfold process_message. cbn [encode encode_value app]. rewrite Hp. unfold parse_with.
  cbn [encode encode_value app] in Hl. rewrite Hs, Hl, Nat.eqb_refl. cbn [negb].
  rewrite Hr. pose proof (reads_encode bh _ _ Hv Hf) as E. cbn [encode encode_value app] in E. rewrite E. done.
Qed.
(** Exact for the fields that are not cut. *)
Theorem C42_exact bh acc t name fs vs log i f v :
  (t, name, fs) ∈ layouts -> wire_message t fs vs ->
  named fs vs !! i = Some (f, v) -> f <> "Timestamp"%string -> f <> "Reason"%string -> f <> "Attribution"%string ->
  exists m, process_message bh acc (encode fs vs) log = Ok (acc (log ++ [m]), log ++ [m]) /\
    m_struct m = name /\ m_fields m !! i = Some (f, v).
Proof.
  intros Hin Hw Hi H1 H2 H3. eexists. split; [by apply (C42_decode_partial bh acc t name fs vs)|]. split; [done|].
  cbn [m_fields]. unfold delivered_fields. rewrite list_lookup_fmap, Hi. cbn. do 2 f_equal.
  unfold delivered. apply String.eqb_neq in H1, H2, H3. rewrite H1, H2, H3. by destruct v.
Qed.
(** A timestamp that is not 0 never arrives: only bits 24-47 are kept. *)
Theorem C42_timestamp_refuted bh acc t name fs vs log x :
  (t, name, fs) ∈ layouts -> wire_message t fs vs -> ("Timestamp"%string, VNum x) ∈ named fs vs -> x <> 0 ->
  exists m, process_message bh acc (encode fs vs) log = Ok (acc (log ++ [m]), log ++ [m]) /\
    ("Timestamp"%string, VNum (x / 2 ^ 24)) ∈ m_fields m /\ x / 2 ^ 24 <> x.
Proof.
  intros Hin Hw Hx Hn. eexists. split; [by apply (C42_decode_partial bh acc t name fs vs)|]. split.
  - cbn [m_fields]. unfold delivered_fields. apply elem_of_list_fmap. exists ("Timestamp"%string, VNum x). done.
  - intros E. pose proof (Z_div_mod_eq_full x (2 ^ 24)) as D. pose proof (Z.mod_pos_bound x (2 ^ 24)) as M. rewrite E in D.
    assert (0 <= x); [|change (2 ^ 24) with 16777216 in *; lia].
    destruct Hw as [Hw _]. clear -Hw Hx. unfold named in Hx. induction Hw as [|[g k] v fs vs Hv H IH]; [by inversion Hx|].
    cbn in Hx. apply elem_of_cons in Hx as [Hx|Hx]; [|by apply IH]. injection Hx as _ <-. destruct k; cbn in Hv; [lia|done].
Qed.
(** Example: an AddOrder message at 34200.000000001 s after midnight. *)
Definition sample_values : list value :=
  [VText [65]; VNum 1; VNum 2; VNum 34200000000001; VNum 9; VText [66]; VNum 100; VText [65;65;80;76;32;32;32;32]; VNum 123456].
Example C42_example :
  exists fs, ("A"%char, "AddOrderMessage"%string, fs) ∈ layouts /\ wire_message "A"%char fs sample_values /\
    process_message false (fun _ => true) (encode fs sample_values) [] =
      Ok (true, [mkMsg "AddOrderMessage" (named fs
        [VText [65]; VNum 1; VNum 2; VNum 2038478; VNum 9; VText [66]; VNum 100; VText [65;65;80;76;32;32;32;32]; VNum 123456])]).
Proof.
  eexists. split; [unfold layouts; do 8 apply elem_of_list_further; apply elem_of_list_here|].
  split; [|vm_compute; reflexivity].
  split; [|by eexists]. unfold sample_values, head. cbn [app].
  assert (Hb : forall l, bool_decide (Forall is_byte l) = true -> Forall is_byte l) by (intros l; apply bool_decide_eq_true).
  repeat (constructor; [cbn; first [lia | split; [reflexivity|apply Hb; vm_compute; reflexivity]]|]). constructor.
Qed.

(** ** C44: reset *)
(** After Reset() the decoder does with any further input what a new one would, callback by callback. *)
Lemma process_message_prefix bh acc acc' pre buf log :
  (forall l, acc' l = acc (pre ++ l)) ->
  process_message bh acc buf (pre ++ log) =
    match process_message bh acc' buf log with Ok (ok, l) => Ok (ok, pre ++ l) | Undef => Undef | Fuel => Fuel end.
Proof.
  intros H. unfold process_message, parse_with, parse_unknown. destruct buf as [|t bs]; [done|].
  destruct (parser_of t) as [p|].
  - destruct (negb _); [done|]. destruct (reads _ _ _); cbn [rbind]; [|done..]. by rewrite H, app_assoc.
  - by rewrite H, app_assoc.
Qed.
Definition shift (pre : list message) (d : dec) : dec := mkDec (d_size d) (d_cache d) (pre ++ d_log d).
Lemma body_prefix bh acc acc' pre data d :
  (forall l, acc' l = acc (pre ++ l)) ->
  proc_body bh acc data (shift pre d) =
    match proc_body bh acc' data d with
    | Ok (inl (ok, d)) => Ok (inl (ok, shift pre d))
    | Ok (inr (data, d)) => Ok (inr (data, shift pre d))
    | Undef => Undef | Fuel => Fuel
    end.
Proof.
  intros H. unfold proc_body, shift. destruct d as [n c log]. cbn [d_size d_cache d_log].
  destruct c as [|c0 c].
  - destruct (_ <? _)%nat; [done|]. destruct (get_bytes _ _); cbn [rbind]; [|done..].
    rewrite (process_message_prefix bh acc acc') by done. destruct (process_message _ _ _ _) as [[ok l]| |]; cbn [rbind]; [|done..].
    by destruct ok.
  - destruct (_ <? n)%nat; [done|]. destruct (get_bytes _ _); cbn [rbind]; [|done..].
    rewrite (process_message_prefix bh acc acc') by done. destruct (process_message _ _ _ _) as [[ok l]| |]; cbn [rbind]; [|done..].
    by destruct ok.
Qed.
Lemma iter_prefix bh acc acc' pre data d :
  (forall l, acc' l = acc (pre ++ l)) ->
  proc_iter bh acc data (shift pre d) =
    match proc_iter bh acc' data d with
    | Ok (inl (ok, d)) => Ok (inl (ok, shift pre d))
    | Ok (inr (data, d)) => Ok (inr (data, shift pre d))
    | Undef => Undef | Fuel => Fuel
    end.
Proof.
  intros H. unfold proc_iter. change (d_size (shift pre d)) with (d_size d). change (d_cache (shift pre d)) with (d_cache d).
  destruct (d_size d =? 0)%nat; [|by apply body_prefix].
  destruct (_ || _); [by destruct data|].
  match goal with |- rbind ?m _ = _ => destruct m as [[[x data1] c]| |] end; cbn [rbind]; [|done..]. cbn [d_size].
  destruct (Z.to_nat (be x) =? 0)%nat; [done|]. by apply (body_prefix bh acc acc' pre data1 (mkDec _ _ _)).
Qed.
Lemma loop_prefix bh acc acc' pre fuel data d :
  (forall l, acc' l = acc (pre ++ l)) ->
  proc_loop fuel bh acc data (shift pre d) =
    match proc_loop fuel bh acc' data d with Ok (ok, d) => Ok (ok, shift pre d) | Undef => Undef | Fuel => Fuel end.
Proof.
  intros H. revert data d; induction fuel as [|fuel IH]; intros data d; [done|]. cbn [proc_loop]. destruct data as [|b data]; [done|].
  rewrite (iter_prefix bh acc acc') by done. destruct (proc_iter _ _ _ _) as [[[ok d']|[data' d']]| |]; cbn [rbind]; [done|apply IH|done..].
Qed.
Lemma feed_prefix bh acc acc' pre chunks d :
  (forall l, acc' l = acc (pre ++ l)) ->
  feed bh acc chunks (shift pre d) =
    match feed bh acc' chunks d with Ok (ok, d) => Ok (ok, shift pre d) | Undef => Undef | Fuel => Fuel end.
Proof.
  intros H. revert d; induction chunks as [|c chunks IH]; intros d; [done|]. cbn [feed]. unfold process.
  rewrite (loop_prefix bh acc acc') by done. destruct (proc_loop _ _ _ _ _) as [[ok d']| |]; cbn [rbind]; [|done..].
  destruct ok; [apply IH|done].
Qed.
(** Whatever was processed before ([d]), after Reset() the results and callbacks for any further input
    are those of a new decoder ([acc'] is the handler from then on: its answers as a function of the
    callbacks made since). *)
Theorem C44_reset bh acc d chunks :
  dec_reach bh d -> Forall (Forall is_byte) chunks ->
  let acc' := fun l => acc (d_log d ++ l) in
  exists ok d1 d2, feed bh acc' chunks new_dec = Ok (ok, d1) /\ feed bh acc chunks (reset d) = Ok (ok, d2) /\
    d_log d2 = d_log d ++ d_log d1.
Proof.
  intros _ Hb acc'. assert (E : reset d = shift (d_log d) new_dec) by (unfold reset, shift; cbn; by rewrite app_nil_r).
  destruct (feed_step bh acc' chunks new_dec) as ([ok d1] & ms & rest & Hf & _); [done|split; [constructor|left; cbn; lia]|].
  exists ok, d1, (shift (d_log d) d1). split; [done|]. split; [|done].
  by rewrite E, (feed_prefix bh acc acc'), Hf.
Qed.
(** Without Reset() a refused message is not skipped: the decoder takes the bytes that follow for the
    refused message again. Here the handler refuses one message; the next, valid and acceptable one is then
    not seen. *)
Example C44_no_reset :
  let acc := fun l => negb (length l =? 1)%nat in
  exists d1 d2 d3, process false acc (frame [122]) new_dec = Ok (false, d1) /\
    process false acc (frame [123; 7]) d1 = Ok (true, d2) /\
    process false acc (frame [123; 7]) (reset d1) = Ok (true, d3) /\
    length (d_log d3) = 2%nat /\ d_log d2 <> d_log d3.
Proof. eexists _, _, _. split; [vm_compute; reflexivity|]. split; [vm_compute; reflexivity|]. split; [vm_compute; reflexivity|]. split; [reflexivity|vm_compute; congruence]. Qed.
