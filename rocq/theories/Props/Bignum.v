(** C43: arithmetic on 256 bit numbers in 30 bit limbs. *)
From Coq Require Import Lia.
From Verif Require Import Base.Bytes Spec.Codecs Spec.Bignum Model.Bignum Model.Scalar Proof.BnMul Proof.BnIo Proof.BnSqrt Proof.BnProps Proof.ScalarProps.
Open Scope Z_scope.

(** Both moduli of the library are covered by the theorems below. *)
Theorem C43_moduli : modulus prime_limbs /\ modulus order_limbs /\ bn_val prime_limbs = 2^256 - 2^32 - 977 /\
  bn_val order_limbs = 0xFFFFFFFFFFFFFFFFFFFFFFFFFFFFFFFEBAAEDCE6AF48A03BBFD25E8CD0364141.
Proof. exact (conj prime_modulus (conj order_modulus (conj eq_refl order_val))). Qed.
Print Assumptions C43_moduli.

Theorem C43_read_write : forall l, bytes_ok l -> length l = 32%nat ->
  normalized (bn_read_be l) /\ bn_val (bn_read_be l) = be_val 256 l /\ bn_write_be (bn_read_be l) = l /\
  normalized (bn_read_le l) /\ bn_val (bn_read_le l) = le_val 256 l /\ bn_write_le (bn_read_le l) = l.
Proof. exact read_write. Qed.
Print Assumptions C43_read_write.
Example C43_read_write_case :
  bn_val (bn_read_be (be_bytes 32 (2^256 - 2^128 + 77))) = 2^256 - 2^128 + 77 /\
  bn_write_be (bn_read_be (be_bytes 32 (2^256 - 2^128 + 77))) = be_bytes 32 (2^256 - 2^128 + 77).
Proof. vm_compute. split; reflexivity. Qed.

(** [be_bytes 32] and [le_bytes 32] keep the value modulo 2^256. *)
Theorem C43_write : forall x, normalized x -> bn_write_be x = be_bytes 32 (bn_val x) /\ bn_write_le x = le_bytes 32 (bn_val x).
Proof. exact write_any. Qed.
Print Assumptions C43_write.

Theorem C43_from_integers : forall n, (0 <= n < 2^32 -> normalized (bn_read_uint32 n) /\ bn_val (bn_read_uint32 n) = n) /\
  (0 <= n < 2^64 -> normalized (bn_read_uint64 n) /\ bn_val (bn_read_uint64 n) = n).
Proof. exact from_ints. Qed.
Print Assumptions C43_from_integers.
Example C43_from_integers_case : bn_val (bn_read_uint64 (2^64 - 1)) = 2^64 - 1 /\ bn_val (bn_read_uint32 (2^32 - 1)) = 2^32 - 1.
Proof. vm_compute. split; reflexivity. Qed.

Theorem C43_compare : forall a b, normalized a -> normalized b ->
  bn_is_less a b = (bn_val a <? bn_val b) /\ bn_is_equal a b = (bn_val a =? bn_val b) /\ bn_is_zero a = (bn_val a =? 0) /\
  forall c : bool, bn_cmov c a b = if c then a else b.
Proof. exact compare. Qed.
Print Assumptions C43_compare.
Example C43_compare_case : bn_is_less order_limbs prime_limbs = true /\ bn_is_less prime_limbs order_limbs = false.
Proof. vm_compute. split; reflexivity. Qed.

Theorem C43_add_subtract : forall a b, normalized a -> normalized b ->
  (bn_val a + bn_val b < 2^270 -> normalized (bn_add a b) /\ bn_val (bn_add a b) = bn_val a + bn_val b) /\
  (bn_val b <= bn_val a -> normalized (bn_subtract a b) /\ bn_val (bn_subtract a b) = bn_val a - bn_val b).
Proof. exact add_sub. Qed.
Print Assumptions C43_add_subtract.
Example C43_add_subtract_case : bn_val (bn_subtract prime_limbs order_limbs) = bn_val prime_limbs - bn_val order_limbs /\
  bn_val (bn_add prime_limbs order_limbs) = bn_val prime_limbs + bn_val order_limbs.
Proof. vm_compute. split; reflexivity. Qed.

Theorem C43_small : forall a i m, modulus m -> normalized a -> bn_val a < 2^269 ->
  (0 <= i <= 2^32 - 2^30 -> normalized (bn_addi a i) /\ bn_val (bn_addi a i) = bn_val a + i) /\
  (0 <= i -> bn_subi_assert i m = true -> normalized (bn_subi a i m) /\ bn_val (bn_subi a i m) = bn_val a + bn_val m - i).
Proof. exact small_ops. Qed.
Print Assumptions C43_small.

Theorem C43_modular_add_subtract : forall a b m, modulus m -> normalized a -> normalized b ->
  (partly_reduced (bn_addmod a b m) m /\ bn_val (bn_addmod a b m) mod bn_val m = (bn_val a + bn_val b) mod bn_val m) /\
  (bn_val a < 2^269 -> bn_val b <= 2 * bn_val m ->
   normalized (bn_subtractmod a b m) /\ bn_val (bn_subtractmod a b m) = bn_val a + 2 * bn_val m - bn_val b /\
   bn_val (bn_subtractmod a b m) mod bn_val m = (bn_val a - bn_val b) mod bn_val m).
Proof. exact modular. Qed.
Print Assumptions C43_modular_add_subtract.
Example C43_modular_case : bn_val (bn_addmod order_limbs order_limbs prime_limbs) mod bn_val prime_limbs = (2 * bn_val order_limbs) mod bn_val prime_limbs.
Proof. vm_compute. reflexivity. Qed.

(** Any nine 32 bit words come down to less than twice the modulus; less than twice the modulus
    to less than the modulus. *)
Theorem C43_reduce : forall x m, modulus m ->
  (unnormalized x -> partly_reduced (bn_fast_mod x m) m /\ bn_val (bn_fast_mod x m) mod bn_val m = bn_val x mod bn_val m) /\
  (partly_reduced x m -> reduced (bn_mod x m) m /\ bn_val (bn_mod x m) = bn_val x mod bn_val m).
Proof. exact reduce. Qed.
Print Assumptions C43_reduce.
Example C43_reduce_case : bn_val (bn_mod (bn_fast_mod (repeat (2^32 - 1) 9) prime_limbs) prime_limbs) = bn_val (repeat (2^32 - 1) 9) mod bn_val prime_limbs.
Proof. vm_compute. reflexivity. Qed.

(** Products of numbers below 180 times the modulus; the assertions of the code hold. *)
Theorem C43_multiply : forall k x m, modulus m -> normalized k -> normalized x -> bn_val k < 180 * bn_val m -> bn_val x < 180 * bn_val m ->
  partly_reduced (bn_multiply k x m) m /\ bn_val (bn_multiply k x m) mod bn_val m = (bn_val k * bn_val x) mod bn_val m /\
  bn_multiply_assert k x m = true.
Proof. exact bn_multiply_180. Qed.
Print Assumptions C43_multiply.
Example C43_multiply_case :
  bn_val (bn_multiply (bn_read_uint64 (2^64 - 1)) order_limbs prime_limbs) mod bn_val prime_limbs = ((2^64 - 1) * bn_val order_limbs) mod bn_val prime_limbs.
Proof. vm_compute. reflexivity. Qed.

Theorem C43_multiply_small : forall x k m, normalized x -> modulus m -> 0 <= k <= 4 ->
  partly_reduced (bn_mult_k x k m) m /\ bn_val (bn_mult_k x k m) mod bn_val m = (k * bn_val x) mod bn_val m.
Proof. exact bn_mult_k_spec. Qed.
Print Assumptions C43_multiply_small.

Theorem C43_halve : forall x m, modulus m -> Z.odd (bn_val m) = true -> partly_reduced x m ->
  partly_reduced (bn_mult_half x m) m /\ (2 * bn_val (bn_mult_half x m)) mod bn_val m = bn_val x mod bn_val m.
Proof. exact half. Qed.
Print Assumptions C43_halve.
Example C43_halve_case : (2 * bn_val (bn_mult_half order_limbs prime_limbs)) mod bn_val prime_limbs = bn_val order_limbs.
Proof. vm_compute. reflexivity. Qed.

Theorem C43_shift : forall x, normalized x ->
  (bn_val x < 2^269 -> normalized (bn_lshift x) /\ bn_val (bn_lshift x) = 2 * bn_val x) /\
  normalized (bn_rshift x) /\ bn_val (bn_rshift x) = bn_val x / 2.
Proof. exact shifts. Qed.
Print Assumptions C43_shift.

(** The candidate square root of point decompression. *)
Theorem C43_sqrt_power : forall x m, modulus m -> partly_reduced x m ->
  reduced (bn_sqrt x m) m /\ bn_val (bn_sqrt x m) = (bn_val x ^ ((bn_val m + 1) / 4)) mod bn_val m.
Proof. exact bn_sqrt_spec. Qed.
Print Assumptions C43_sqrt_power.
