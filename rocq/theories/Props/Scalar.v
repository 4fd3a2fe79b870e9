(** C44: scalar operators. *)
From Coq Require Import Lia.
From Verif Require Import Base.Bytes Spec.Codecs Spec.Keys Spec.Scalar Model.Scalar Model.Keys Model.HD Proof.ScalarProps.
Open Scope Z_scope.

Theorem C44_add : forall a b, word256 a -> word256 b -> sc_add a b = scalar_of (number a + number b).
Proof. exact sc_add_spec. Qed.
Print Assumptions C44_add.
Theorem C44_subtract : forall a b, word256 a -> is_scalar b -> sc_sub a b = scalar_of (number a - number b).
Proof. exact sc_sub_spec. Qed.
Print Assumptions C44_subtract.
Theorem C44_multiply : forall a b, word256 a -> word256 b -> sc_mul a b = Ok (scalar_of (number a * number b)).
Proof. exact sc_mul_spec. Qed.
Print Assumptions C44_multiply.
Example C44_case : let a := be_bytes 32 (group_order - 5) in let b := be_bytes 32 (2^255 + 11) in
  is_scalar a /\ is_scalar b /\ sc_add a b = be_bytes 32 (2^255 + 6) /\ sc_sub b a = be_bytes 32 (2^255 + 16) /\
  sc_mul a b = Ok (be_bytes 32 ((- 5 * (2^255 + 11)) mod group_order)).
Proof.
  assert (W : forall v, word256 (be_bytes 32 v)) by exact scalar_word.
  split; [split; [apply W|vm_compute; reflexivity]|]. split; [split; [apply W|vm_compute; reflexivity]|].
  vm_compute. repeat split; reflexivity.
Qed.

Theorem C44_compare : forall a b, word256 a -> word256 b ->
  sc_less a b = (number a <? number b) /\ sc_eq a b = (number a =? number b) /\ sc_valid a = negb (number a =? 0).
Proof. exact (fun a b Ha Hb => conj (sc_less_spec a b Ha Hb) (conj (sc_eq_spec a b Ha Hb) (sc_valid_spec a Ha))). Qed.
Print Assumptions C44_compare.
Example C44_compare_case : sc_less (be_bytes 32 (2^200)) (be_bytes 32 (2^200 + 1)) = true /\ sc_less (be_bytes 32 (2^200)) (be_bytes 32 255) = false.
Proof. vm_compute. split; reflexivity. Qed.

(** Unary minus. Missing from the full statement: [a] zero, where it is false. *)
Theorem C44_negate_partial : forall a, is_scalar a -> number a <> 0 -> sc_neg a = scalar_of (- number a).
Proof. exact sc_neg_spec. Qed.
Print Assumptions C44_negate_partial.
(** The opposite of zero is the group order: not zero, not below the order, and reported valid. *)
Theorem C44_negate_zero_refuted : sc_neg (zeros 32) = be_bytes 32 group_order /\ sc_valid (sc_neg (zeros 32)) = true /\
  ~ is_scalar (sc_neg (zeros 32)) /\ sc_neg (zeros 32) <> scalar_of (- number (zeros 32)).
Proof. exact neg_zero. Qed.
Print Assumptions C44_negate_zero_refuted.

(** Adding a 32 bit integer: exactly when it is right, and what it gives otherwise. *)
Theorem C44_add_integer_exact : forall a i, word256 a -> 0 <= i < 2^32 ->
  sc_add_u32 a i = if number a mod 2^30 + i <? 2^32 then scalar_of (number a + i) else scalar_of (number a + i - 2^32).
Proof. exact addi_word. Qed.
Print Assumptions C44_add_integer_exact.
Theorem C44_add_integer_refuted : forall a i, word256 a -> 0 <= i < 2^32 -> 2^32 <= number a mod 2^30 + i ->
  sc_add_u32 a i = scalar_of (number a + i - 2^32) /\ sc_add_u32 a i <> scalar_of (number a + i).
Proof. exact add_u32_wrong. Qed.
Print Assumptions C44_add_integer_refuted.
Example C44_add_integer_case : sc_add_u32 (be_bytes 32 (2^30 - 1)) (2^32 - 1) = be_bytes 32 (2^30 - 2) /\
  sc_add_u32 (be_bytes 32 (2^30 - 1)) 7 = be_bytes 32 (2^30 + 6).
Proof. vm_compute. split; reflexivity. Qed.

(** Subtracting a 32 bit integer: an integer above the lowest limb of the order fails an assertion. *)
Theorem C44_subtract_integer_partial : forall a i, is_scalar a -> 0 <= i < 2^32 -> i <= 0x10364141 -> sc_sub_u32 a i = Ok (scalar_of (number a - i)).
Proof. exact sub_below_order. Qed.
Print Assumptions C44_subtract_integer_partial.
Theorem C44_subtract_integer_refuted : forall a i, is_scalar a -> 0x10364141 < i < 2^32 -> sc_sub_u32 a i = UB.
Proof. exact sub_above. Qed.
Print Assumptions C44_subtract_integer_refuted.
Example C44_subtract_integer_case : sc_sub_u32 (be_bytes 32 5) 7 = Ok (be_bytes 32 (group_order - 2)) /\ sc_sub_u32 (be_bytes 32 (2^200)) 300000000 = UB.
Proof. vm_compute. split; reflexivity. Qed.

(** The operators between a scalar variable and an integer (BitcoinCurve.h:148-155) convert the
    integer to a scalar first, and are right for all integers. *)
Theorem C44_integer_operands : forall a i, is_scalar a -> 0 <= i < 2^32 ->
  sc_add a (sc_of_u32 i) = scalar_of (number a + i) /\ sc_sub a (sc_of_u32 i) = scalar_of (number a - i) /\
  sc_mul a (sc_of_u32 i) = Ok (scalar_of (number a * i)).
Proof. exact add_sub_of_u32. Qed.
Print Assumptions C44_integer_operands.
Example C44_integer_operands_case : sc_sub (be_bytes 32 (2^200)) (sc_of_u32 300000000) = be_bytes 32 (2^200 - 300000000).
Proof. vm_compute. reflexivity. Qed.

(** The reduction of parsed secrets (C62) and the sum in child key derivation (C37, C63) were
    modelled on values; the limb level code computes the same bytes. *)
Theorem C44_value_models : forall a b, word256 a -> word256 b -> sc_reduce a = reduce_num a /\ sc_add a b = scalar_add a b.
Proof. exact (fun a b Ha Hb => conj (reduce_same a Ha) (add_same a b Ha Hb)). Qed.
Print Assumptions C44_value_models.
