(** * Hash.v -- FastHash (include/trader/matching/fast_hash.inl), model and C39. *)
From Verif Require Import Types.
Open Scope Z_scope.

(** FastHash::operator(): fast_hash.inl:15-23, on 64-bit values. *)
Definition xs33 (x : Z) : Z := Z.lxor x (Z.shiftr x 33).
Definition fast_hash (x : Z) : Z :=
  let x := xs33 x in
  let x := u64 (x * 18397679294719823053) (* 0xFF51AFD7ED558CCD *) in
  let x := xs33 x in
  let x := u64 (x * 14181476777654086739) (* 0xC4CEB9FE1A85EC53 *) in
  xs33 x.

(** [(uint64_t)str[i]]: the value of a [char] converted to 64 bits.  Whether [char] is signed depends on the
    platform; a signed one is sign-extended.  [c]: the byte, 0..255. *)
Definition char64 (signed : bool) (c : Z) : Z := if signed && (128 <=? c) then u64 (c - 256) else c.
(** FastHash::Parse: fast_hash.inl:25-36. *)
Definition parse8 (signed : bool) (s : list Z) : Z :=
  let at_ (i : nat) := u64 (Z.shiftl (char64 signed (nth i s 0)) (8 * Z.of_nat i)) in
  Z.lor (Z.lor (Z.lor (Z.lor (Z.lor (Z.lor (Z.lor (Z.lor 0
    (at_ 0%nat)) (at_ 1%nat)) (at_ 2%nat)) (at_ 3%nat)) (at_ 4%nat)) (at_ 5%nat)) (at_ 6%nat)) (at_ 7%nat).
