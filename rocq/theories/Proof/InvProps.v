(** Scalar division. *)
From Coq Require Import Lia Znumtheory.
From Verif Require Import Base.Bytes Base.BytesFacts Spec.Codecs Spec.Keys Spec.Bignum Spec.Scalar Model.Bignum Model.Scalar Model.Inverse
  Base.Primes Proof.IntVarint Proof.BnCore Proof.BnRed Proof.BnMul Proof.BnIo Proof.ScalarProps Proof.InvFinish.
Open Scope Z_scope.

Lemma order_odd : Z.odd (bn_val order_limbs) = true. Proof. vm_compute. reflexivity. Qed.
Lemma sc_div_spec : forall a b, word256 a -> word256 b -> Z.gcd (number b) group_order = 1 ->
  exists q, sc_div a b = Ok q /\ is_scalar q /\ (number q * number b) mod group_order = number a mod group_order.
Proof.
  intros a b Ha Hb G. destruct (read_word256 a Ha) as [Na Va], (read_word256 b Hb) as [Nb Vb]. unfold sc_div.
  destruct (bn_inverse_spec (bn_read_be b) order_limbs (norm_unnorm _ Nb) order_modulus order_odd) as (y & E & [Ny Ry] & My); [rewrite Vb, order_val; auto|].
  rewrite Vb, order_val in My. rewrite order_val in Ry. rewrite E. cbn [bind].
  pose proof (number_range a Ha). pose proof order_range.
  destruct (bn_multiply_180 y (bn_read_be a) order_limbs order_modulus Ny Na) as (P & M & A); try (rewrite ?Va, order_val; lia).
  rewrite A, write_mod by auto. rewrite order_val in M. rewrite M, Va. fold (scalar_of (bn_val y * number a)).
  exists (scalar_of (bn_val y * number a)). split; [reflexivity|]. destruct (scalar_of_scalar (bn_val y * number a)) as [S1 S2]. split; auto.
  rewrite S2, Z.mul_mod_idemp_l by lia. replace (bn_val y * number a * number b) with (number b * bn_val y * number a) by ring.
  rewrite <- Z.mul_mod_idemp_l, My, Z.mul_1_l by lia. reflexivity.
Qed.
Lemma sc_div_zero : forall a b, word256 b -> number b mod group_order = 0 -> sc_div a b = UB.
Proof.
  intros a b Hb G. destruct (read_word256 b Hb) as [Nb Vb]. unfold sc_div.
  rewrite bn_inverse_zero; [reflexivity|apply norm_unnorm; auto|exact order_modulus|exact order_odd|rewrite Vb, order_val; auto].
Qed.
Lemma group_order_prime : prime group_order.
Proof. exact prime_n256. Qed.
Lemma order_coprime : forall v, v mod group_order <> 0 -> Z.gcd v group_order = 1.
Proof.
  intros v H. rewrite Z.gcd_comm. apply Zgcd_1_rel_prime. apply prime_rel_prime; [exact group_order_prime|]. intros Q. apply H. apply Z.mod_divide; [pose proof order_range; lia|auto].
Qed.
Lemma sc_div_full : forall a b, word256 a -> word256 b -> number b mod group_order <> 0 ->
  exists q, sc_div a b = Ok q /\ is_scalar q /\ (number q * number b) mod group_order = number a mod group_order.
Proof. intros. apply sc_div_spec; auto. apply order_coprime. auto. Qed.
Lemma sc_div_mul : forall a b, is_scalar a -> word256 b -> number b mod group_order <> 0 ->
  exists q, sc_div a b = Ok q /\ sc_mul q b = Ok a.
Proof.
  intros a b [Ha La] Hb N. destruct (sc_div_full a b Ha Hb N) as (q & E & [Q1 Q2] & M). exists q. split; auto. rewrite sc_mul_spec by auto. f_equal.
  pose proof (number_range a Ha). apply number_inj; [apply scalar_word|auto|]. destruct (scalar_of_scalar (number q * number b)) as [_ ->]. rewrite M. apply Z.mod_small. lia.
Qed.
