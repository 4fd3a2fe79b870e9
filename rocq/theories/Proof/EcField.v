(** The operations on limbs modulo the field prime, as operations of the field. *)
From Coq Require Import Lia Znumtheory Field_theory.
From Verif Require Import Base.Bytes Base.BytesFacts Base.Fermat Base.Primes Base.Curve Spec.Bignum Spec.Point Spec.Curve Model.Bignum Model.Scalar Model.Inverse Model.Stream Model.Point
  Proof.BnCore Proof.BnRed Proof.BnMul Proof.BnIo Proof.InvFinish Proof.ScalarProps Proof.PointFacts Proof.CurveFacts.
Open Scope Z_scope.

Definition below (k : Z) (x : bn) : Prop := normalized x /\ bn_val x < k * P.
Definition v (x : bn) : Fp := toF (bn_val x).
Lemma below_wide : forall k x, below k x -> k <= 180 -> wide x.
Proof. intros k x [N V] K. pose proof P_range. split; [auto|]. nia. Qed.
Lemma below_le : forall j k x, below j x -> j <= k -> below k x.
Proof. intros j k x [N V] K. pose proof P_range. split; [auto|]. nia. Qed.
Lemma below_part : forall x, below 2 x <-> partly_reduced x prime_limbs.
Proof. intros x. unfold below, partly_reduced. rewrite prime_val. tauto. Qed.
Lemma P_odd_true : Z.odd P = true.
Proof. pose proof P_odd as H. rewrite Zodd_mod. apply Zeq_is_eq_bool. dlia. Qed.
Lemma p_norm : normalized prime_limbs.
Proof. apply prime_modulus. Qed.
Lemma below_small : forall k x, below k x -> k <= 2^13 -> 0 <= bn_val x < 2^269.
Proof. intros k x [N V] K. pose proof P_range. pose proof (norm_val x N). split; [lia|]. nia. Qed.

Lemma mulv : forall j k a b, below j a -> below k b -> j <= 180 -> k <= 180 -> exists r, bn_mul a b prime_limbs = Ok r /\ below 2 r /\ v r = Fmul (v a) (v b).
Proof.
  intros j k a b A B J K. destruct (bn_mul_ok a b (below_wide _ _ A J) (below_wide _ _ B K)) as (r & E & R & V). exists r. split; [auto|]. split; [apply below_part; auto|].
  unfold v. rewrite toF_mul. apply toF_eq. exact V.
Qed.
Lemma subv : forall j a b, below j a -> below 2 b -> j <= 1000 ->
  below (j + 2) (bn_subtractmod a b prime_limbs) /\ v (bn_subtractmod a b prime_limbs) = Fsub (v a) (v b) /\ 0 < bn_val (bn_subtractmod a b prime_limbs).
Proof.
  intros j a b A B J. destruct (bn_subtractmod_spec a b prime_limbs (proj1 A) (proj1 B) p_norm) as [N V]. rewrite prime_val in V.
  pose proof (below_small _ _ A ltac:(lia)). pose proof (norm_val b (proj1 B)). pose proof P_range. destruct A as [NA VA]. destruct B as [NB VB].
  rewrite Z.mod_small in V by lia. split; [split; [auto|lia]|]. split; [|lia]. unfold v. rewrite V, toF_sub. apply toF_eq.
  replace (bn_val a + 2 * P - bn_val b) with (bn_val a - bn_val b + 2 * P) by lia. apply Z.mod_add. lia.
Qed.
Lemma addv : forall i j a b, below i a -> below j b -> i <= 1000 -> j <= 1000 -> below (i + j) (bn_add a b) /\ v (bn_add a b) = Fadd (v a) (v b).
Proof.
  intros i j a b A B I J. destruct (bn_add_spec a b (proj1 A) (proj1 B)) as [N V]. pose proof (below_small _ _ A ltac:(lia)). pose proof (below_small _ _ B ltac:(lia)).
  rewrite Z.mod_small in V by lia. destruct A as [NA VA]. destruct B as [NB VB]. split; [split; [auto|lia]|]. unfold v. rewrite V, toF_add. reflexivity.
Qed.
Lemma fastv : forall x, normalized x -> below 2 (bn_fast_mod x prime_limbs) /\ v (bn_fast_mod x prime_limbs) = v x.
Proof.
  intros x N. destruct (bn_fast_mod_spec x prime_limbs (norm_unnorm x N) prime_modulus) as [A B]. split; [apply below_part; auto|]. apply toF_eq. rewrite <- prime_val. exact B.
Qed.
Lemma mult_kv : forall x k, normalized x -> 0 <= k <= 4 -> below 2 (bn_mult_k x k prime_limbs) /\ v (bn_mult_k x k prime_limbs) = Fmul (toF k) (v x).
Proof.
  intros x k N K. destruct (bn_mult_k_spec x k prime_limbs N prime_modulus K) as [A B]. split; [apply below_part; auto|]. unfold v. rewrite toF_mul. apply toF_eq. rewrite <- prime_val. exact B.
Qed.
Lemma addmodv : forall a b, normalized a -> normalized b -> below 2 (bn_addmod a b prime_limbs) /\ v (bn_addmod a b prime_limbs) = Fadd (v a) (v b).
Proof.
  intros a b A B. destruct (bn_addmod_spec a b prime_limbs A B prime_modulus) as [C D]. split; [apply below_part; auto|]. unfold v. rewrite toF_add. apply toF_eq. rewrite <- prime_val. exact D.
Qed.
Lemma halfv : forall j k x, below j x -> j + 1 <= 2 * k -> below k (bn_mult_half x prime_limbs) /\ Fadd (v (bn_mult_half x prime_limbs)) (v (bn_mult_half x prime_limbs)) = v x.
Proof.
  intros j k x [N V] K. pose proof P_range. destruct (bn_mult_half_spec x prime_limbs N prime_modulus) as [A B]; [rewrite prime_val; apply P_odd_true|]. rewrite prime_val in B.
  split.
  - split; [auto|]. destruct (Z.odd (bn_val x)); nia.
  - unfold v. rewrite toF_add. apply toF_eq. replace (_ + _) with (2 * bn_val (bn_mult_half x prime_limbs)) by lia. rewrite B. destruct (Z.odd (bn_val x)); [|f_equal; lia].
    rewrite <- (Z.mod_add (bn_val x) 1 P) by lia. f_equal; lia.
Qed.
Lemma lshiftv : forall j x, below j x -> j <= 1000 -> below (2 * j) (bn_lshift x) /\ v (bn_lshift x) = Fadd (v x) (v x).
Proof.
  intros j x B J. destruct (bn_lshift_spec x (proj1 B)) as [N V]. pose proof (below_small _ _ B ltac:(lia)). rewrite Z.mod_small in V by lia. destruct B as [NB VB].
  split; [split; [auto|lia]|]. unfold v. rewrite V, toF_add. f_equal; lia.
Qed.
Lemma modv : forall x, below 2 x -> below 1 (bn_mod x prime_limbs) /\ v (bn_mod x prime_limbs) = v x.
Proof.
  intros x [N V]. destruct (bn_mod_spec x prime_limbs N p_norm) as [A B]; [rewrite prime_val; auto|]. rewrite prime_val in B. pose proof (Z.mod_pos_bound (bn_val x) P P_pos).
  split; [split; [auto|lia]|]. unfold v. rewrite B. apply toF_eq. apply Z.mod_mod. lia.
Qed.
Lemma v_zero : forall x, v x = F0 <-> (P | bn_val x).
Proof.
  intros x. unfold v, F0. rewrite toF_eq. pose proof P_range. rewrite Z.mod_0_l by lia. apply Z.mod_divide. lia.
Qed.
Lemma invv : forall x, normalized x -> v x <> F0 -> exists r, bn_inverse x prime_limbs = Ok r /\ below 1 r /\ Fmul (v x) (v r) = F1.
Proof.
  intros x N Z. pose proof P_range.
  destruct (bn_inverse_spec x prime_limbs (norm_unnorm x N) prime_modulus) as (y & E & [NY R] & V); rewrite ?prime_val in *.
  - apply P_odd_true.
  - apply Zgcd_1_rel_prime. apply rel_prime_sym. apply prime_rel_prime; [exact field_prime_prime|]. intros D. apply Z, v_zero, D.
  - exists y. split; [auto|]. split; [split; [auto|lia]|]. unfold v. rewrite toF_mul. unfold F1. apply toF_eq. rewrite V, Z.mod_small by lia. reflexivity.
Qed.
Lemma inv_zero : forall x, normalized x -> v x = F0 -> bn_inverse x prime_limbs = UB.
Proof.
  intros x N Z. apply bn_inverse_zero; [apply norm_unnorm; auto|apply prime_modulus|rewrite prime_val; apply P_odd_true|]. rewrite prime_val. apply Z.mod_divide; [pose proof P_range; lia|]. apply v_zero; auto.
Qed.
Lemma subiv : forall x, below 2 x -> exists r, bn_subi_o x 0 prime_limbs = Ok r /\ below 3 r /\ v r = v x.
Proof.
  intros x B. pose proof P_range. apply below_part in B as B'. destruct (subi0 x B') as (r & E & [N _] & V). exists r. split; [auto|]. split; [split; [auto|destruct B; lia]|].
  unfold v. rewrite V. apply toF_eq. rewrite <- (Z.mod_add (bn_val x) 1 P) by lia. f_equal; lia.
Qed.
Lemma zerov : forall x, below 1 x -> (bn_is_zero x = true <-> v x = F0).
Proof.
  intros x [N V]. rewrite bn_is_zero_spec by auto. rewrite v_zero, Z.eqb_eq. pose proof (norm_val x N). split; [intros ->; apply Z.divide_0_r|].
  intros [q E]. pose proof P_pos. destruct (Z_le_gt_dec q 0); nia.
Qed.
Lemma val_v : forall x y, below 1 x -> below 1 y -> v x = v y -> bn_val x = bn_val y.
Proof.
  intros x y [NX VX] [NY VY] E. apply toF_eq in E. pose proof (norm_val x NX). pose proof (norm_val y NY). rewrite !Z.mod_small in E by lia. exact E.
Qed.
Lemma eqv : forall x y, below 1 x -> below 1 y -> (bn_is_equal x y = true <-> v x = v y).
Proof.
  intros x y A B. rewrite bn_is_equal_spec by (apply A || apply B). rewrite Z.eqb_eq. split; [intros E; unfold v; rewrite E; reflexivity|apply val_v; auto].
Qed.
Lemma fv_v : forall x, below 1 x -> fv (v x) = bn_val x.
Proof. intros x [N V]. unfold v. cbn [toF fv]. pose proof (norm_val x N). apply Z.mod_small. lia. Qed.
(** A positive multiple of the prime is brought down to the prime itself. *)
Lemma shiftr_top : forall x, normalized x -> Z.shiftr (limb x 8) 16 = bn_val x / 2^256.
Proof.
  intros x [L W]. destruct x as [|x0 [|x1 [|x2 [|x3 [|x4 [|x5 [|x6 [|x7 [|x8 [|]]]]]]]]]]; try discriminate. unfold limb. cbn [nth].
  assert (F : 0 <= x0 < 2^30 /\ 0 <= x1 < 2^30 /\ 0 <= x2 < 2^30 /\ 0 <= x3 < 2^30 /\ 0 <= x4 < 2^30 /\ 0 <= x5 < 2^30 /\ 0 <= x6 < 2^30 /\ 0 <= x7 < 2^30 /\ 0 <= x8 < 2^30).
  { repeat match goal with H : words_ok _ (_ :: _) |- _ => inversion H; clear H; subst | H : Forall _ (_ :: _) |- _ => inversion H; clear H; subst end. repeat split; lia. }
  clear W L. rewrite Z.shiftr_div_pow2 by lia. rewrite !bn_val_cons, bn_val_nil.
  set (lo := x0 + 2^30 * (x1 + 2^30 * (x2 + 2^30 * (x3 + 2^30 * (x4 + 2^30 * (x5 + 2^30 * (x6 + 2^30 * x7))))))).
  assert (K : 0 <= lo < 2^240) by (clear - F; destruct F as (A0 & A1 & A2 & A3 & A4 & A5 & A6 & A7 & _); subst lo; lia).
  replace (x0 + _) with (lo + 2^240 * x8) by (unfold lo; ring). clearbody lo.
  replace (2^256) with (2^240 * 2^16) by reflexivity. rewrite <- Z.div_div by lia. replace (lo + 2^240 * x8) with (lo + x8 * 2^240) by ring. rewrite Z.div_add by lia. rewrite (Z.div_small lo) by lia. reflexivity.
Qed.
Lemma fast_prime : forall x, normalized x -> 0 < bn_val x -> (bn_is_equal (bn_fast_mod x prime_limbs) prime_limbs = true <-> v x = F0).
Proof.
  intros x N L. destruct (bn_fast_mod_exact x prime_limbs (norm_unnorm x N) prime_modulus) as [NF VF]. rewrite bn_is_equal_spec by (auto; apply p_norm).
  rewrite VF, prime_val, shiftr_top, Z.eqb_eq, v_zero by auto. pose proof (norm_val x N). pose proof P_range. pose proof (Z.div_mod (bn_val x) (2^256) ltac:(lia)) as D.
  pose proof (Z.mod_pos_bound (bn_val x) (2^256) ltac:(lia)). set (c := bn_val x / 2^256) in *. assert (0 <= c < 2^14) by (unfold c; split; [apply Z.div_pos; lia|apply Z.div_lt_upper_bound; lia]).
  clearbody c. split.
  - intros E. exists (c + 1). lia.
  - intros [q E]. assert (q = c + 1); [|subst q; lia].
    assert (PD : 2^256 - P < 2^224) by lia. rewrite E in *. destruct (Z_le_gt_dec q c); [|destruct (Z_le_gt_dec (c + 2) q); [|lia]]; exfalso.
    + assert (q * P <= c * P) by nia. assert (q * P >= c * 2^256) by lia. destruct (Z.eq_dec c 0); nia.
    + assert ((c + 2) * P <= q * P) by nia. assert ((c + 2) * 2^224 < 2^239) by lia. assert ((c+2) * P > (c + 2) * 2^256 - (c + 2) * 2^224) by nia. lia.
Qed.
Lemma cmovv : forall c a b, normalized a -> normalized b -> bn_cmov c a b = if c then a else b.
Proof. intros. apply bn_cmov_spec; apply norm_unnorm; auto. Qed.
