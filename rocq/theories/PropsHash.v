(** * PropsHash.v -- C39: the hash is a bijection on 64-bit values; Parse is injective on ASCII strings. *)
From Verif Require Import Types Hash.
Open Scope Z_scope.

Definition is64 (x : Z) : Prop := 0 <= x < 2 ^ 64.

Lemma log_bound x n : 0 <= n -> 0 <= x < 2 ^ n -> forall i, n <= i -> Z.testbit x i = false.
Proof.
  intros Hn Hx i Hi. destruct (decide (x = 0)) as [->|]; [apply Z.testbit_0_l|].
  apply Z.bits_above_log2; [lia|]. apply Z.log2_lt_pow2; [lia|]. eapply Z.lt_le_trans; [apply Hx|]. apply Z.pow_le_mono_r; lia.
Qed.
Lemma below x n : 0 <= n -> 0 <= x -> (forall i, n <= i -> Z.testbit x i = false) -> x < 2 ^ n.
Proof.
  intros Hn Hx H. destruct (decide (x < 2 ^ n)) as [|Hc]; [done|]. exfalso.
  assert (Hp : 0 < x) by lia. pose proof (H (Z.log2 x)) as Hb. rewrite Z.bit_log2 in Hb by lia.
  assert (n <= Z.log2 x); [|by specialize (Hb ltac:(lia))]. apply Z.log2_le_pow2; lia.
Qed.
Lemma xs33_64 x : is64 x -> is64 (xs33 x).
Proof.
  unfold is64, xs33. intros H. assert (Hnn : 0 <= Z.lxor x (Z.shiftr x 33)).
  { apply Z.lxor_nonneg. split; intros _; [apply Z.shiftr_nonneg|]; lia. }
  split; [done|]. apply below; [lia|done|]. intros i Hi.
  rewrite Z.lxor_spec, Z.shiftr_spec by lia. rewrite !(log_bound x 64) by lia. done.
Qed.
(** Shifting by more than half the width: applying it twice gives the value back. *)
Lemma xs33_inv x : is64 x -> xs33 (xs33 x) = x.
Proof.
  intros H. unfold xs33. apply Z.bits_inj'. intros i Hi.
  rewrite Z.lxor_spec, Z.shiftr_spec, !Z.lxor_spec, !Z.shiftr_spec by lia.
  rewrite (log_bound x 64 ltac:(lia) H (i + 33 + 33)) by lia. by destruct (Z.testbit x i), (Z.testbit x (i + 33)).
Qed.
Lemma u64_64 x : is64 (u64 x).
Proof. unfold is64, u64. apply Z.mod_pos_bound. reflexivity. Qed.
Lemma mul_inv c d x : (c * d) mod TWO64 = 1 -> is64 x -> u64 (u64 (x * c) * d) = x.
Proof.
  intros H Hx. unfold u64, is64 in *. rewrite Z.mul_mod_idemp_l by done. rewrite <- Z.mul_assoc, <- Z.mul_mod_idemp_r by done.
  rewrite H, Z.mul_1_r. by apply Z.mod_small.
Qed.

(** The inverse of the hash. *)
Definition fast_unhash (y : Z) : Z :=
  xs33 (u64 (xs33 (u64 (xs33 y * 11291846944257947611)) * 5725274745694666757)).

Theorem C39_hash_bijective x :
  is64 x -> is64 (fast_hash x) /\ fast_unhash (fast_hash x) = x /\ is64 (fast_unhash x) /\ fast_hash (fast_unhash x) = x.
Proof.
  intros H. unfold fast_unhash, fast_hash. cbn zeta.
  split; [apply xs33_64, u64_64|]. split; [|split; [apply xs33_64, u64_64|]].
  - rewrite xs33_inv by apply u64_64. rewrite mul_inv by (reflexivity || by apply xs33_64, u64_64).
    rewrite xs33_inv by apply u64_64. rewrite mul_inv by (reflexivity || by apply xs33_64).
    by apply xs33_inv.
  - rewrite (xs33_inv (u64 _)) by apply u64_64. rewrite mul_inv by (reflexivity || by apply xs33_64, u64_64).
    rewrite (xs33_inv (u64 _)) by apply u64_64. rewrite mul_inv by (reflexivity || by apply xs33_64).
    by apply xs33_inv.
Qed.
(** Two different ids never have the same hash. *)
Theorem C39_hash_injective x y : 0 <= x < 2 ^ 64 -> 0 <= y < 2 ^ 64 -> fast_hash x = fast_hash y -> x = y.
Proof.
  intros Hx Hy E. destruct (C39_hash_bijective x Hx) as (_ & <- & _). destruct (C39_hash_bijective y Hy) as (_ & <- & _).
  by rewrite E.
Qed.
Example C39_hash_example : fast_hash 1 <> fast_hash 2 /\ fast_hash 1 = 12994781566227106604.
Proof. by vm_compute. Qed.

(** ** Parse *)
Definition is_char (signed : bool) (c : Z) : Prop := 0 <= c < 256 /\ (signed = true -> c < 128).
Lemma char64_id signed c : is_char signed c -> char64 signed c = c.
Proof. intros [H1 H2]. unfold char64. destruct signed; cbn; [|done]. destruct (128 <=? c) eqn:E; [|done]. apply Z.leb_le in E. specialize (H2 eq_refl). lia. Qed.
Lemma place_bits c i n : 0 <= c < 256 -> 0 <= i -> 0 <= n < 64 ->
  Z.testbit (u64 (Z.shiftl c (8 * i))) n = if (8 * i <=? n) && (n <? 8 * i + 8) then Z.testbit c (n - 8 * i) else false.
Proof.
  intros Hc Hi Hn. unfold u64. change TWO64 with (2 ^ 64). rewrite Z.mod_pow2_bits_low by lia. rewrite Z.shiftl_spec by lia.
  destruct (Z.leb_spec (8 * i) n); cbn [andb]; [|by apply Z.testbit_neg_r; lia].
  destruct (Z.ltb_spec n (8 * i + 8)); [done|]. apply (log_bound c 8); [lia|lia|lia].
Qed.
(** The bytes can be read back. *)
Lemma parse8_byte signed s i :
  length s = 8%nat -> Forall (is_char signed) s -> (i < 8)%nat ->
  (parse8 signed s / 2 ^ (8 * Z.of_nat i)) mod 2 ^ 8 = nth i s 0.
Proof.
  intros Hl Hs Hi. destruct s as [|b0 [|b1 [|b2 [|b3 [|b4 [|b5 [|b6 [|b7 [|]]]]]]]]]; try done.
  repeat match goal with H : Forall _ (_ :: _) |- _ => let H1 := fresh "Hc" in let H2 := fresh "Hr" in inversion H as [|? ? H1 H2]; clear H; subst end.
  unfold parse8. cbn [nth]. rewrite !char64_id by done.
  repeat match goal with H : is_char _ ?c |- _ => destruct H as [H _] end.
  do 8 (destruct i as [|i]; [cbn [nth];
    apply Z.bits_inj'; intros j Hj; destruct (Z.lt_ge_cases j 8) as [Hj8|Hj8];
    [rewrite Z.mod_pow2_bits_low, Z.div_pow2_bits by lia; rewrite !Z.lor_spec, Z.testbit_0_l; cbn [orb];
     rewrite !place_bits by lia; cbn [Z.of_nat Pos.of_succ_nat Pos.succ];
     repeat match goal with |- context [?a <=? ?b] => destruct (Z.leb_spec a b); try lia end; cbn [andb];
     repeat match goal with |- context [?a <? ?b] => destruct (Z.ltb_spec a b); try lia end; cbn [orb];
     rewrite ?orb_false_r; f_equal; lia
    |rewrite Z.mod_pow2_bits_high by lia; symmetry; apply (log_bound _ 8); lia]|]).
  lia.
Qed.
(** Different 8-character strings give different numbers, for all strings where [char] is unsigned and for all
    ASCII strings where it is signed. *)
Theorem C39_parse_injective_partial signed s t :
  length s = 8%nat -> length t = 8%nat -> Forall (is_char signed) s -> Forall (is_char signed) t ->
  parse8 signed s = parse8 signed t -> s = t.
Proof.
  intros Hs Ht Cs Ct E. apply (nth_ext _ _ 0 0); [congruence|]. intros i Hi.
  rewrite <- (parse8_byte signed s i), <- (parse8_byte signed t i) by (done || lia). by rewrite E.
Qed.
Example C39_parse_example : Forall (is_char true) [65;65;80;76;32;32;32;32] /\ parse8 true [65;65;80;76;32;32;32;32] = 2314885531559805249.
Proof. split; [|by vm_compute]. repeat (constructor; [split; [lia|intros _; lia]|]). constructor. Qed.
(** With a signed [char], as on x86, Parse is not injective on 8-byte strings: a byte above 127 sets all
    the bits above it. *)
Theorem C39_parse_refuted :
  exists s t, length s = 8%nat /\ length t = 8%nat /\ Forall (fun c => 0 <= c < 256) s /\ Forall (fun c => 0 <= c < 256) t /\
    s <> t /\ parse8 true s = parse8 true t.
Proof.
  exists [200; 65; 65; 65; 65; 65; 65; 65], [200; 66; 65; 65; 65; 65; 65; 65].
  split; [done|]. split; [done|]. split; [repeat (constructor; [lia|]); constructor|]. split; [repeat (constructor; [lia|]); constructor|].
  split; [discriminate|by vm_compute].
Qed.
