(** Points and numbers as the functions of ecdsa.c pass them around. *)
From Coq Require Import Lia Znumtheory.
From Verif Require Import Base.Bytes Base.BytesFacts Spec.Bignum Spec.Codecs Spec.Keys Spec.Scalar Spec.Point Spec.Curve Spec.Schemes
  Model.Bignum Model.Scalar Model.Inverse Model.Stream Model.Point Model.EC Model.ECDSA
  Proof.IntVarint Proof.BnCore Proof.BnRed Proof.BnMul Proof.BnIo Proof.InvFinish Proof.ScalarProps Proof.PointFacts Proof.CurveFacts Proof.EcField Proof.EcPoint Proof.EcJac Proof.EcGroup
  Proof.EcRecode Proof.EcMult Proof.EcTable Proof.EcOrder.
Open Scope Z_scope.

(** ** Points in limbs *)
Lemma crep_some : forall (qx qy : bn) x y, crep (qx, qy) (Some (x, y)) -> normalized qx /\ normalized qy /\ bn_val qx = x /\ bn_val qy = y /\ on_curve x y.
Proof.
  intros qx qy x y [PA (BX & BY & VX & VY)]. cbn [fst snd] in *. pose proof PA as (RX & RY & _).
  split; [apply BX|]. split; [apply BY|].
  split; [|split; [|exact PA]]; (apply F_range_inj; [|assumption|assumption]).
  - destruct BX as [N V]. pose proof (norm_val _ N). lia.
  - destruct BY as [N V]. pose proof (norm_val _ N). lia.
Qed.
Lemma crep_none : forall q, crep q None -> q = cp_infinity.
Proof. intros q [_ H]. exact H. Qed.
Lemma crep_norm : forall q a, crep q a -> normalized (fst q) /\ normalized (snd q) /\ bn_val (fst q) < P /\ bn_val (snd q) < P.
Proof.
  intros [qx qy] [[x y]|] R.
  - destruct (crep_some _ _ _ _ R) as (A & B & C & D & O). cbn [fst snd]. rewrite C, D. destruct O as (X & Y & _). repeat split; try apply A; try apply B; lia.
  - apply crep_none in R. rewrite R. unfold cp_infinity. cbn [fst snd]. destruct zero_below as [N V]. rewrite Z.mul_1_l in V. auto.
Qed.
Lemma crep_intro : forall (qx qy : bn), normalized qx -> normalized qy -> on_curve (bn_val qx) (bn_val qy) -> crep (qx, qy) (Some (bn_val qx, bn_val qy)).
Proof. intros qx qy A B O. apply (crep_val (qx, qy)); auto. Qed.
Lemma zeros_coords : zeros 64 = coords 0 0. Proof. reflexivity. Qed.
Lemma cp_bytes_ok : forall q a, crep q a -> cp_bytes q = point_bytes a.
Proof.
  intros [qx qy] [[x y]|] R.
  - destruct (crep_some _ _ _ _ R) as (A & B & C & D & O). unfold cp_bytes. cbn [fst snd point_bytes]. rewrite !bn_write_be_spec, C, D by auto. reflexivity.
  - apply crep_none in R. rewrite R. reflexivity.
Qed.
Lemma random_F : forall z, random_below P z -> below 1 z /\ v z <> F0.
Proof.
  intros z [N V]. split; [split; [auto|lia]|]. rewrite v_zero. intros D. apply Z.divide_pos_le in D; lia.
Qed.
Lemma ec_mul_0 : forall a, ec_mul 0 a = None. Proof. reflexivity. Qed.

(** ** Multiplication by any number below the order *)
Lemma scalar_multiply_all : forall rz k, random_below P rz -> normalized k -> bn_val k < group_order ->
  exists r, scalar_multiply rz k = Ok r /\ crep r (ec_mul (bn_val k) gen).
Proof.
  intros rz k R N L. destruct (random_F rz R) as [B Z]. pose proof (norm_val k N). destruct (Z.eq_dec (bn_val k) 0) as [E|E].
  - exists cp_infinity. rewrite E, ec_mul_0. split; [|split; [exact I|reflexivity]]. unfold scalar_multiply.
    rewrite is_less_order by auto. cbn [negb]. cbv zeta. rewrite odd_low, bn_is_zero_spec, E by auto. reflexivity.
  - apply scalar_multiply_gen; auto. lia.
Qed.
Lemma point_multiply_all : forall rz k q a, random_below P rz -> normalized k -> bn_val k < group_order -> crep q a -> a <> None ->
  exists r, point_multiply rz k q = Ok r /\ crep r (ec_mul (bn_val k) a).
Proof.
  intros rz k q a R N L C NA. destruct (random_F rz R) as [B Z]. pose proof (norm_val k N). destruct (Z.eq_dec (bn_val k) 0) as [E|E].
  - exists cp_infinity. rewrite E, ec_mul_0. split; [|split; [exact I|reflexivity]]. unfold point_multiply.
    rewrite is_less_order by auto. cbn [negb]. cbv zeta. rewrite odd_low, bn_is_zero_spec, E by auto. reflexivity.
  - apply point_multiply_ok; auto; [apply C|apply point_order, C|lia].
Qed.
Lemma multiply_over : forall k, normalized k -> group_order <= bn_val k -> (forall rz, scalar_multiply rz k = UB) /\ (forall rz q, point_multiply rz k q = UB).
Proof.
  intros k N L. assert (E : bn_is_less k order_limbs = false).
  { rewrite bn_is_less_spec, order_val by (auto; apply order_modulus). apply Z.ltb_ge. auto. }
  split; intros; unfold scalar_multiply, point_multiply; rewrite E; reflexivity.
Qed.

(** ** Numbers modulo the order *)
Notation N := group_order.
Lemma order_norm : normalized order_limbs. Proof. apply order_modulus. Qed.
Lemma order_odd : Z.odd N = true. Proof. vm_compute. reflexivity. Qed.
Lemma mul_ord : forall k x, normalized k -> normalized x -> bn_val k < 2^256 -> bn_val x < 4 * N ->
  exists r, bn_mul k x order_limbs = Ok r /\ partly_reduced r order_limbs /\ bn_val r mod N = (bn_val k * bn_val x) mod N.
Proof.
  intros k x NK NX LK LX. pose proof order_range as OR. destruct (bn_multiply_spec k x order_limbs order_modulus NK NX) as (A & B & C).
  - rewrite order_val. pose proof (norm_val k NK). pose proof (norm_val x NX). nia.
  - unfold bn_mul. rewrite C. eexists. split; [reflexivity|]. rewrite <- order_val. auto.
Qed.
Lemma mod_ord : forall x, partly_reduced x order_limbs -> normalized (bn_mod x order_limbs) /\ bn_val (bn_mod x order_limbs) = bn_val x mod N.
Proof. intros x [A B]. rewrite <- order_val. apply bn_mod_spec; auto. apply order_norm. Qed.
Lemma part_ord : forall x, partly_reduced x order_limbs -> normalized x /\ 0 <= bn_val x < 2 * N.
Proof. intros x [A B]. rewrite order_val in B. pose proof (norm_val x A). split; [auto|lia]. Qed.
Lemma prime_gcd : forall x, x mod N <> 0 -> Z.gcd x N = 1.
Proof.
  intros x X. apply Zgcd_1_rel_prime. apply rel_prime_sym, prime_rel_prime; [exact order_prime|]. intros D. apply X. apply Z.mod_divide; [discriminate|auto].
Qed.
Lemma inv_ord : forall x, normalized x -> bn_val x mod N <> 0 -> exists y, bn_inverse x order_limbs = Ok y /\ normalized y /\ 0 < bn_val y < N /\ (bn_val x * bn_val y) mod N = 1.
Proof.
  intros x NX Z. destruct (bn_inverse_spec x order_limbs (norm_unnorm x NX) order_modulus) as (y & E & [NY R] & V); rewrite ?order_val in *.
  - exact order_odd.
  - apply prime_gcd. auto.
  - exists y. split; [auto|]. split; [auto|]. pose proof (norm_val y NY). split; [|auto].
    assert (bn_val y <> 0); [|lia]. intros K. rewrite K, Z.mul_0_r in V. discriminate.
Qed.
Lemma less_ord : forall x, normalized x -> bn_is_less x order_limbs = (bn_val x <? N).
Proof. intros x NX. rewrite bn_is_less_spec, order_val by (auto; apply order_norm). reflexivity. Qed.
Lemma half_ord : forall x, normalized x -> bn_val x < N -> bn_is_less order_half x = negb (bn_val x <=? N - bn_val x).
Proof.
  intros x NX L. assert (NH : normalized order_half) by (split; [reflexivity|repeat (constructor; [lia|]); constructor]).
  rewrite bn_is_less_spec by auto. assert (VH : 2 * bn_val order_half + 1 = N) by (vm_compute; reflexivity).
  destruct (Z.ltb_spec (bn_val order_half) (bn_val x)), (Z.leb_spec (bn_val x) (N - bn_val x)); cbn [negb]; auto; lia.
Qed.
Lemma inv_unique : forall a x y, (a * x) mod N = 1 -> (a * y) mod N = 1 -> x mod N = y mod N.
Proof.
  intros a x y A B. rewrite <- (Z.mul_1_r x), <- (Z.mul_1_l y), <- B at 1. rewrite Z.mul_mod_idemp_r by discriminate. replace (x * (a * y)) with (a * x * y) by ring.
  rewrite <- Z.mul_mod_idemp_l by discriminate. rewrite A. reflexivity.
Qed.
