(** C66: modular inverses and scalar division. *)
From Coq Require Import Lia Znumtheory.
From Verif Require Import Base.Bytes Spec.Codecs Spec.Keys Spec.Bignum Spec.Scalar Model.Bignum Model.Scalar Model.Inverse Proof.ScalarProps Proof.InvFinish Proof.InvProps.
Open Scope Z_scope.

(** For every odd modulus of the size the library works with and every number prime to it, however
    its limbs are normalized, the inverse is found, it is completely reduced and the product is one. *)
Theorem C66_inverse : forall x m, unnormalized x -> modulus m -> Z.odd (bn_val m) = true -> Z.gcd (bn_val x) (bn_val m) = 1 ->
  exists y, bn_inverse x m = Ok y /\ reduced y m /\ (bn_val x * bn_val y) mod bn_val m = 1.
Proof. exact bn_inverse_spec. Qed.
Print Assumptions C66_inverse.
Example C66_inverse_case : unnormalized (bn_read_uint32 7) /\ modulus prime_limbs /\ Z.odd (bn_val prime_limbs) = true /\
  Z.gcd (bn_val (bn_read_uint32 7)) (bn_val prime_limbs) = 1 /\
  (let! y := bn_inverse (bn_read_uint32 7) prime_limbs in Ok ((7 * bn_val y) mod bn_val prime_limbs)) = Ok 1.
Proof.
  split; [split; [reflexivity|repeat (constructor; [vm_compute; split; [discriminate|reflexivity]|]); constructor]|]. split; [exact prime_modulus|].
  vm_compute. repeat split; reflexivity.
Qed.

(** Dividing scalars. Missing from the full statement: a divisor that is zero modulo the order. *)
Theorem C66_divide_partial : forall a b, word256 a -> word256 b -> number b mod group_order <> 0 ->
  exists q, sc_div a b = Ok q /\ is_scalar q /\ (number q * number b) mod group_order = number a mod group_order.
Proof. exact sc_div_full. Qed.
Print Assumptions C66_divide_partial.
Theorem C66_divide_multiply : forall a b, is_scalar a -> word256 b -> number b mod group_order <> 0 ->
  exists q, sc_div a b = Ok q /\ sc_mul q b = Ok a.
Proof. exact sc_div_mul. Qed.
Print Assumptions C66_divide_multiply.
Example C66_divide_case : let a := be_bytes 32 12 in let b := be_bytes 32 5 in is_scalar a /\ word256 b /\ number b mod group_order <> 0 /\
  sc_div a b = Ok (be_bytes 32 ((4 * group_order + 12) / 5)) /\ sc_mul (be_bytes 32 ((4 * group_order + 12) / 5)) b = Ok a.
Proof.
  split; [split; [apply scalar_word|vm_compute; reflexivity]|]. split; [apply scalar_word|]. split; [vm_compute; discriminate|]. vm_compute. split; reflexivity.
Qed.

(** Dividing by a scalar that is zero modulo the order reads memory in front of an array, whatever is divided. *)
Theorem C66_divide_zero_refuted : forall a b, word256 b -> number b mod group_order = 0 -> sc_div a b = UB.
Proof. exact sc_div_zero. Qed.
Print Assumptions C66_divide_zero_refuted.
Example C66_zero_case : word256 (zeros 32) /\ number (zeros 32) mod group_order = 0 /\ word256 (be_bytes 32 group_order) /\ number (be_bytes 32 group_order) mod group_order = 0.
Proof.
  split; [split; [apply Forall_forall; intros d Hd; apply repeat_spec in Hd; subst; vm_compute; split; [discriminate|reflexivity]|reflexivity]|]. split; [vm_compute; reflexivity|].
  split; [apply scalar_word|]. vm_compute. reflexivity.
Qed.
