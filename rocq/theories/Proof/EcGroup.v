(** Limb operations as operations of the group of points; multiples by integers of either sign. *)
From Coq Require Import Lia Znumtheory Field Field_theory.
From Verif Require Import Base.Bytes Base.BytesFacts Base.Curve Spec.Bignum Spec.Point Spec.Curve Model.Bignum Model.Scalar Model.Inverse Model.Stream Model.Point Model.EC
  Proof.BnCore Proof.BnRed Proof.BnMul Proof.BnIo Proof.ScalarProps Proof.PointFacts Proof.CurveFacts Proof.EcField Proof.EcPoint Proof.EcJac.
Open Scope Z_scope.

(** ** [conditional_negate] *)
Lemma negate_submod : forall a p t, length a = length p -> negate_loop a p true t = submod_loop (map (fun _ => 0) a) a p t.
Proof.
  intros a. induction a as [|x a IH]; intros [|q p] t L; try discriminate; [reflexivity|]. cbn [negate_loop submod_loop map].
  assert (E : u32 (t + u32 (u32 (1073741823 + u32 (2 * q)) - x)) = u32 (t + (1073741823 + 0 + 2 * q - x))).
  { unfold u32. rewrite (Zplus_mod t), Z.mod_mod, <- Zplus_mod by lia. rewrite (Zplus_mod 1073741823), Z.mod_mod, <- Zplus_mod by lia.
    rewrite (Zplus_mod t), (Zminus_mod ((1073741823 + 2 * q) mod 2^32)), Z.mod_mod, <- Zminus_mod, <- Zplus_mod by lia. f_equal; lia. }
  rewrite E. cbn [length] in L. rewrite IH by lia. reflexivity.
Qed.
Lemma negate_id : forall a p t, length a = length p -> negate_loop a p false t = a.
Proof. intros a. induction a as [|x a IH]; intros [|q p] t L; try discriminate; [reflexivity|]. cbn [negate_loop length] in *. rewrite IH by lia. reflexivity. Qed.
Lemma zeros9 : forall a : bn, length a = 9%nat -> map (fun _ => 0) a = bn_zero.
Proof. intros a L. destruct a as [|x0 [|x1 [|x2 [|x3 [|x4 [|x5 [|x6 [|x7 [|x8 [|]]]]]]]]]]; try discriminate. reflexivity. Qed.
Lemma top_small : forall x, below 2 x -> (limb x 8 <? 131072) = true.
Proof.
  intros x [N V]. pose proof (shiftr_top x N) as S. pose proof P_range as PR. apply Z.ltb_lt. pose proof (norm_val x N).
  assert (bn_val x / 2^256 < 2) by (apply Z.div_lt_upper_bound; lia). rewrite <- S in H0. rewrite Z.shiftr_div_pow2 in H0 by lia. clear - H0. dlia.
Qed.
Lemma cond_neg_ok : forall c a, below 2 a -> (c = true -> v a <> F0) ->
  exists r, conditional_negate c a prime_limbs = Ok r /\ below 2 r /\ v r = if c then (- v a)%F else v a.
Proof.
  intros c a B Z. pose proof (proj1 (proj1 B)) as L. unfold conditional_negate. rewrite top_small by auto. cbv zeta. destruct c.
  - rewrite negate_submod by (rewrite L; reflexivity). rewrite zeros9 by auto. fold (bn_subtractmod bn_zero a prime_limbs).
    destruct (subv 1 bn_zero a zero_below B ltac:(lia)) as (B1 & V1 & _). specialize (Z eq_refl).
    assert (B2 : below 2 (bn_subtractmod bn_zero a prime_limbs)).
    { destruct (bn_subtractmod_spec bn_zero a prime_limbs (proj1 zero_below) (proj1 B) p_norm) as [N V]. split; [auto|]. rewrite prime_val in V.
      change (bn_val bn_zero) with 0 in V. pose proof P_range. pose proof (norm_val a (proj1 B)). destruct B as [_ VB]. rewrite Z.mod_small in V by lia. rewrite V.
      assert (bn_val a <> 0); [|lia]. intros K. apply Z. apply v_zero. rewrite K. apply Z.divide_0_r. }
    rewrite top_small by auto. eexists. split; [reflexivity|]. split; [auto|]. rewrite V1. unfold v at 1. change (bn_val bn_zero) with 0. fold F0. ring.
  - rewrite negate_id by (rewrite L; reflexivity). rewrite top_small by auto. exists a. auto.
Qed.

(** ** The same over the points of the specification *)
Definition crep (q : cpoint) (a : point) : Prop := is_point a /\ cprep q (toP a).
Definition jprep (j : jpoint) (a : point) : Prop := is_point a /\ jrep j (toP a).
Lemma jprep_ne : forall j a, jprep j a -> a <> None.
Proof. intros [[x y] z] a [_ J] ->. exact J. Qed.
Lemma toP_none : forall a, toP a = Inf -> a = None.
Proof. intros [[x y]|] E; [discriminate|reflexivity]. Qed.
Lemma crep_add : forall q r a b, crep q a -> crep r b -> exists s, point_add q r = Ok s /\ crep s (ec_add a b).
Proof.
  intros q r a b [PA A] [PB B]. destruct (add_ok q r _ _ A B (good_toP _ PA) (good_toP _ PB)) as (s & E & S). exists s. split; [auto|].
  split; [apply ec_add_point; auto|]. rewrite add_toP by auto. exact S.
Qed.
Lemma crep_double : forall q a, crep q a -> exists s, point_double q = Ok s /\ crep s (ec_add a a).
Proof.
  intros q a [PA A]. destruct (double_ok q _ A (good_toP _ PA)) as (s & E & S). exists s. split; [auto|].
  split; [apply ec_add_point; auto|]. rewrite add_toP by auto. exact S.
Qed.
Lemma jprep_of : forall z q a, below 1 z -> v z <> F0 -> crep q a -> a <> None -> exists j, curve_to_jacobian z q = Ok j /\ jprep j a.
Proof.
  intros z q [[x y]|] BZ NZ [PA A] N; [|contradiction]. cbn [toP] in A. destruct (to_jacobian_ok z q _ _ BZ NZ A) as (j & E & J). exists j. split; [auto|]. split; auto.
Qed.
Lemma crep_of : forall j a, jprep j a -> exists q, jacobian_to_curve j = Ok q /\ crep q a.
Proof.
  intros j [[x y]|] [PA A]; [|destruct j as [[? ?] ?]; contradiction]. cbn [toP] in A. destruct (from_jacobian_ok j _ _ A) as (q & E & Q). exists q. split; [auto|]. split; auto.
Qed.
Lemma jprep_add : forall q j a b, crep q a -> jprep j b -> a <> None -> ec_add a b <> None -> exists j', point_jacobian_add q j = Ok j' /\ jprep j' (ec_add a b).
Proof.
  intros q j [[x1 y1]|] [[x2 y2]|] [PA A] [PB B] NA NS; [|destruct j as [[? ?] ?]; contradiction|contradiction|contradiction].
  assert (NF : addF (toP (Some (x1, y1))) (toP (Some (x2, y2))) <> Inf) by (rewrite <- add_toP by auto; intros K; apply NS, toP_none; exact K).
  cbn [toP] in *. destruct (jadd_ok q j _ _ _ _ A B (good_toP _ PA) (good_toP _ PB) NF) as (j' & E & J). exists j'. split; [auto|].
  split; [apply ec_add_point; auto|]. rewrite add_toP by auto. exact J.
Qed.
Lemma jprep_double : forall j a, jprep j a -> exists j', point_jacobian_double j = Ok j' /\ jprep j' (ec_add a a).
Proof.
  intros j [[x y]|] [PA A]; [|destruct j as [[? ?] ?]; contradiction]. cbn [toP] in A. destruct (jdouble_ok j _ _ A (good_toP _ PA)) as (j' & E & J).
  exists j'. split; [auto|]. split; [apply ec_add_point; auto|]. rewrite add_toP by auto. exact J.
Qed.
Lemma jprep_neg_z : forall c x y z a, jprep (x, y, z) a -> exists r, conditional_negate c z prime_limbs = Ok r /\ jprep (x, y, r) (if c then ec_neg a else a).
Proof.
  intros c x y z [[X Y]|] [PA A]; [|contradiction]. cbn [toP jrep] in A. destruct A as (BX & BY & BZ & NZ & EX & EY).
  destruct (cond_neg_ok c z BZ ltac:(auto)) as (r & E & BR & VR). exists r. split; [auto|]. destruct c; [|split; [auto|]; cbn [toP jrep]; rewrite VR; tauto].
  split; [apply ec_neg_point; auto|]. rewrite neg_toP. cbn [toP ptneg jrep]. rewrite VR. split; [auto|]. split; [auto|]. split; [auto|]. split.
  { intros K. apply NZ. transitivity (- - v z)%F; [ring|]. rewrite K. ring. }
  rewrite EX, EY. split; ring.
Qed.
Lemma jprep_neg_y : forall c x y z a, jprep (x, y, z) a -> exists r, conditional_negate c y prime_limbs = Ok r /\ jprep (x, r, z) (if c then ec_neg a else a).
Proof.
  intros c x y z [[X Y]|] [PA A]; [|contradiction]. cbn [toP jrep] in A. destruct A as (BX & BY & BZ & NZ & EX & EY).
  assert (NY : v y <> F0). { rewrite EY. repeat apply F_mul_ne; auto. exact (F_odd _ _ (good_toP _ PA)). }
  destruct (cond_neg_ok c y BY ltac:(auto)) as (r & E & BR & VR). exists r. split; [auto|]. destruct c; [|split; [auto|]; cbn [toP jrep]; rewrite VR; tauto].
  split; [apply ec_neg_point; auto|]. rewrite neg_toP. cbn [toP ptneg jrep]. rewrite VR. split; [auto|]. split; [auto|]. split; [auto|]. split; [auto|].
  rewrite EX, EY. split; ring.
Qed.

(** ** Integer multiples *)
Definition smul (k : Z) (a : point) : point := if k <? 0 then ec_neg (ec_mul (- k) a) else ec_mul k a.
Lemma smul_nonneg : forall k a, 0 <= k -> smul k a = ec_mul k a.
Proof. intros k a K. unfold smul. destruct (k <? 0) eqn:E; [apply Z.ltb_lt in E; lia|reflexivity]. Qed.
Lemma smul_point : forall k a, is_point a -> is_point (smul k a).
Proof. intros k a A. unfold smul. destruct (k <? 0); [apply ec_neg_point|]; apply ec_mul_point; auto. Qed.
Local Hint Resolve smul_point ec_neg_point ec_add_point : core.
Lemma smul_1 : forall a, smul 1 a = a.
Proof. intros a. rewrite smul_nonneg by lia. apply ec_mul_1. Qed.
Lemma smul_0 : forall a, smul 0 a = None.
Proof. reflexivity. Qed.
Lemma ec_add_cancel : forall a b, is_point a -> is_point b -> ec_add (ec_neg a) (ec_add a b) = b.
Proof. intros a b A B. rewrite <- ec_add_assoc, (ec_add_comm (ec_neg a)), ec_add_neg by auto. reflexivity. Qed.
Lemma smul_opp : forall k a, is_point a -> smul (- k) a = ec_neg (smul k a).
Proof.
  intros k a A. unfold smul. destruct (k <? 0) eqn:E, (- k <? 0) eqn:E'; try apply Z.ltb_lt in E; try apply Z.ltb_lt in E'; try apply Z.ltb_ge in E; try apply Z.ltb_ge in E'; try lia.
  - rewrite ec_neg_neg; [reflexivity|]. apply ec_mul_point; auto.
  - rewrite Z.opp_involutive. reflexivity.
  - assert (k = 0) as -> by lia. reflexivity.
Qed.
Lemma smul_succ : forall k a, is_point a -> smul (k + 1) a = ec_add a (smul k a).
Proof.
  intros k a A. destruct (Z_le_gt_dec 0 k); [rewrite !smul_nonneg by lia; apply ec_mul_succ; lia|].
  replace k with (- (- k)) at 2 by lia. rewrite smul_opp by auto. replace (k + 1) with (- (- k - 1)) by lia. rewrite smul_opp by auto.
  rewrite (smul_nonneg (- k)) by lia. rewrite (smul_nonneg (- k - 1)) by lia.
  pose proof (ec_mul_succ (- k - 1) a ltac:(lia)) as S. replace (- k - 1 + 1) with (- k) in S by lia. rewrite S. rewrite ec_neg_add by (auto; apply ec_mul_point; auto).
  rewrite <- (ec_neg_neg a A) at 2. symmetry. apply ec_add_cancel; auto. apply ec_neg_point, ec_mul_point; auto.
Qed.
Lemma smul_pred : forall k a, is_point a -> smul (k - 1) a = ec_add (ec_neg a) (smul k a).
Proof. intros k a A. replace k with (k - 1 + 1) at 2 by lia. rewrite smul_succ by auto. rewrite ec_add_cancel; auto. Qed.
Lemma smul_add : forall j k a, is_point a -> smul (j + k) a = ec_add (smul j a) (smul k a).
Proof.
  intros j k a A. revert j. apply Z.peano_ind; [reflexivity| |].
  - intros j IH. rewrite <- Z.add_1_r. replace (j + 1 + k) with (j + k + 1) by ring. rewrite !smul_succ, IH, ec_add_assoc; auto.
  - intros j IH. rewrite <- Z.sub_1_r. replace (j - 1 + k) with (j + k - 1) by ring. rewrite !smul_pred, IH, ec_add_assoc; auto.
Qed.
Lemma smul_none : forall k, smul k None = None.
Proof. intros k. unfold smul. destruct (k <? 0); rewrite ec_mul_none; reflexivity. Qed.
Lemma ec_neg_none : ec_neg None = None.
Proof. reflexivity. Qed.
Lemma ec_neg_is_none : forall a, ec_neg a = None -> a = None.
Proof. intros [[x y]|]; [discriminate|reflexivity]. Qed.
Lemma smul_smul : forall j k a, is_point a -> smul (j * k) a = smul j (smul k a).
Proof.
  intros j k a A. revert j. apply Z.peano_ind; [reflexivity| |].
  - intros j IH. rewrite <- Z.add_1_r, Z.mul_add_distr_r, Z.mul_1_l, smul_add, IH, smul_succ by auto. apply ec_add_comm; auto.
  - intros j IH. rewrite <- Z.sub_1_r, Z.mul_sub_distr_r, Z.mul_1_l. unfold Z.sub. rewrite smul_add, smul_opp, IH by auto. fold (j - 1). rewrite smul_pred by auto. apply ec_add_comm; auto.
Qed.
Lemma smul_distr : forall k a b, is_point a -> is_point b -> smul k (ec_add a b) = ec_add (smul k a) (smul k b).
Proof.
  intros k a b A B. unfold smul. destruct (k <? 0) eqn:E; [apply Z.ltb_lt in E|apply Z.ltb_ge in E]; rewrite ec_mul_distr by (auto; lia); [|reflexivity].
  apply ec_neg_add; apply ec_mul_point; auto.
Qed.
(** Points killed by a prime [n]. *)
Lemma smul_mod : forall n k a, is_point a -> 0 < n -> smul n a = None -> smul (k mod n) a = smul k a.
Proof.
  intros n k a A N E. rewrite (Z.div_mod k n) at 2 by lia. rewrite smul_add, (Z.mul_comm n), smul_smul, E, smul_none by auto. reflexivity.
Qed.
Lemma smul_order : forall n k a, is_point a -> prime n -> smul n a = None -> smul k a = None -> a = None \/ (n | k).
Proof.
  intros n k a A PN E K. destruct (Zdivide_dec n k) as [D|D]; [auto|left]. apply prime_rel_prime with (a := k) in PN; [|auto].
  destruct (rel_prime_bezout _ _ PN) as [u w B]. rewrite <- (smul_1 a), <- B, smul_add, !smul_smul, E, K, !smul_none by auto. reflexivity.
Qed.
