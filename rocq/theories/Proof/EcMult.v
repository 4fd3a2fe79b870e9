(** Multiplying a point by a number. *)
From Coq Require Import Lia Znumtheory.
From Verif Require Import Base.Bytes Base.BytesFacts Spec.Bignum Spec.Keys Spec.Point Spec.Curve Model.Bignum Model.Scalar Model.Inverse Model.Stream Model.Point Model.CurveTable Model.EC
  Proof.BnCore Proof.BnRed Proof.BnIo Proof.ScalarProps Proof.PointFacts Proof.CurveFacts Proof.EcField Proof.EcGroup Proof.EcRecode Base.Primes.
Open Scope Z_scope.
Local Hint Resolve smul_point ec_neg_point ec_add_point : core.

Definition sgn (neg : bool) : Z := if neg then -1 else 1.
Lemma sgn_digit : forall w, 0 <= w < 32 -> sgn (window_neg w) * digit w = 2 * Z.of_nat (window_idx w) + 1.
Proof. intros w W. destruct (digit_ok w W) as (_ & E & N & _). rewrite E, N. unfold sgn. destruct (digit w <? 0) eqn:D; [apply Z.ltb_lt in D|apply Z.ltb_ge in D]; lia. Qed.
Lemma smul_sgn : forall (c : bool) k a, is_point a -> (if c then ec_neg (smul k a) else smul k a) = smul (sgn c * k) a.
Proof. intros c k a A. destruct c; unfold sgn; [rewrite <- smul_opp by auto; f_equal; lia|f_equal; lia]. Qed.
Lemma order_prime : prime group_order. Proof. exact prime_n256. Qed.

Section Mult.
Variable a : point.
Hypothesis A : is_point a.
Hypothesis NA : a <> None.
Hypothesis ORD : smul group_order a = None.
Lemma smul_ne : forall k, ~ (group_order | k) -> smul k a <> None.
Proof. intros k D K. destruct (smul_order _ _ _ A order_prime ORD K); contradiction. Qed.

(** The table holds the odd multiples of m times the point. *)
Definition odd_table (m : Z) (t : list cpoint) : Prop := forall j : nat, (j < 8)%nat -> exists q, nth_error t j = Some q /\ crep q (smul (m * (2 * Z.of_nat j + 1)) a).
Lemma table_get : forall m t w, odd_table m t -> 0 <= w < 32 -> exists q, aget_pt t (window_idx w) = Ok q /\ crep q (smul (sgn (window_neg w) * (m * digit w)) a).
Proof.
  intros m t w T W. destruct (digit_ok w W) as (L & _). destruct (T _ L) as (q & E & Q). exists q. unfold aget_pt. rewrite E. split; [reflexivity|].
  replace (sgn (window_neg w) * (m * digit w)) with (m * (sgn (window_neg w) * digit w)) by ring. rewrite sgn_digit by auto. exact Q.
Qed.
Lemma odd_multiples_ok : forall n last twice m, crep last (smul m a) -> crep twice (smul 2 a) ->
  exists l, odd_multiples n last twice = Ok l /\ length l = n /\ forall j, (j < n)%nat -> exists q, nth_error l j = Some q /\ crep q (smul (m + 2 * Z.of_nat j + 2) a).
Proof.
  induction n as [|n IH]; intros last twice m L T; cbn [odd_multiples]; [exists []; split; [reflexivity|]; split; [reflexivity|lia]|].
  destruct (crep_add _ _ _ _ L T) as (s & E & S). step E. rewrite <- smul_add in S by auto. destruct (IH s twice (m + 2) S T) as (l & E2 & LL & H). step E2.
  exists (s :: l). split; [reflexivity|]. split; [cbn [length]; lia|]. intros [|j] J; cbn [nth_error].
  - exists s. split; [reflexivity|]. replace (m + 2 * Z.of_nat 0 + 2) with (m + 2) by lia. exact S.
  - destruct (H j ltac:(lia)) as (q & Q1 & Q2). exists q. split; [auto|]. replace (m + 2 * Z.of_nat (Datatypes.S j) + 2) with (m + 2 + 2 * Z.of_nat j + 2) by lia. exact Q2.
Qed.
Lemma point_table_ok : forall q, crep q a -> exists t, point_table q = Ok t /\ odd_table 1 t.
Proof.
  intros q Q. unfold point_table. destruct (crep_double _ _ Q) as (s & E & S). step E.
  replace (ec_add a a) with (smul 2 a) in S by (rewrite smul_nonneg by lia; apply ec_mul_2).
  destruct (odd_multiples_ok 7 q s 1) as (l & E2 & L & H); [rewrite smul_1; auto|auto|]. step E2. exists (q :: l). split; [reflexivity|].
  intros [|j] J; cbn [nth_error].
  - exists q. split; [reflexivity|]. change (1 * (2 * Z.of_nat 0 + 1)) with 1. rewrite smul_1. exact Q.
  - destruct (H j ltac:(lia)) as (r & R1 & R2). exists r. split; [auto|]. replace (1 * (2 * Z.of_nat (Datatypes.S j) + 1)) with (1 + 2 * Z.of_nat j + 2) by lia. exact R2.
Qed.
Lemma digit_ndiv : forall w m, 0 <= w < 32 -> 0 < m -> m * 16 <= 2^256 -> ~ (group_order | sgn (window_neg w) * (m * digit w)).
Proof.
  intros w m W M1 M2. replace (sgn (window_neg w) * (m * digit w)) with (m * (sgn (window_neg w) * digit w)) by ring. rewrite sgn_digit by auto. destruct (digit_ok w W) as (L & _).
  assert (2^255 + 2^254 + 2^253 + 2^252 < group_order) by (vm_compute; auto). set (i := window_idx w) in *. clearbody i. apply small_ndiv; nia.
Qed.

Definition jmul (j : jpoint) (k : Z) : Prop := jprep j (smul k a).
Lemma jmul_double : forall j k, jmul j k -> exists j', point_jacobian_double j = Ok j' /\ jmul j' (2 * k).
Proof.
  intros j k J. destruct (jprep_double _ _ J) as (j' & E & J'). exists j'. split; [auto|]. unfold jmul. replace (2 * k) with (k + k) by lia. rewrite smul_add by auto. exact J'.
Qed.
Lemma jmul_add : forall q j h k, crep q (smul h a) -> jmul j k -> ~ (group_order | h) -> ~ (group_order | h + k) -> exists j', point_jacobian_add q j = Ok j' /\ jmul j' (h + k).
Proof.
  intros q j h k Q J H HK. destruct (jprep_add q j _ _ Q J (smul_ne _ H)) as (j' & E & J'); [rewrite <- smul_add by auto; apply smul_ne; auto|].
  exists j'. split; [auto|]. unfold jmul. rewrite smul_add by auto. exact J'.
Qed.
Lemma jmul_neg_z : forall c x y z k, jmul (x, y, z) k -> exists r, conditional_negate c z prime_limbs = Ok r /\ jmul (x, y, r) (sgn c * k).
Proof. intros c x y z k J. destruct (jprep_neg_z c _ _ _ _ J) as (r & E & R). exists r. split; [auto|]. rewrite smul_sgn in R by auto. exact R. Qed.
Lemma jmul_neg_y : forall c x y z k, jmul (x, y, z) k -> exists r, conditional_negate c y prime_limbs = Ok r /\ jmul (x, r, z) (sgn c * k).
Proof. intros c x y z k J. destruct (jprep_neg_y c _ _ _ _ J) as (r & E & R). exists r. split; [auto|]. rewrite smul_sgn in R by auto. exact R. Qed.

Lemma sgn_xor : forall b c, sgn (xorb b c) * sgn b = sgn c.
Proof. intros [] []; reflexivity. Qed.
Lemma sgn_ndiv : forall c k, ~ (group_order | k) -> ~ (group_order | sgn c * k).
Proof. intros [] k H; unfold sgn; intros [q E]; apply H; [exists (- q)|exists q]; lia. Qed.
Lemma pow16_2 : forall n, 0 <= n -> 16 ^ n = 2 ^ (4 * n).
Proof. intros n N. rewrite Z.pow_mul_r by lia. reflexivity. Qed.
Lemma multiply_loop_ok : forall k x t, 0 < k < group_order -> normalized x -> bn_val x = odd_scalar k -> odd_table 1 t ->
  forall n idx s neg j, 30 * idx + s = 4 * Z.of_nat n -> 0 <= s < 30 -> 0 <= idx -> (n <= 63)%nat -> jmul j (sgn neg * top_sum (odd_scalar k) (Z.of_nat n)) ->
  exists j' neg', multiply_loop n x t idx s neg j = Ok (j', neg') /\ jmul j' (sgn neg' * top_sum (odd_scalar k) 0).
Proof.
  intros k x t K N V T. destruct (odd_scalar_range k ltac:(lia)) as [AR AO]. induction n as [|n IH]; intros idx s neg j P S I L J; cbn [multiply_loop]; [exists j, neg; split; auto|].
  destruct (jmul_double _ _ J) as (j1 & E1 & J1). step E1. destruct (jmul_double _ _ J1) as (j2 & E2 & J2). step E2.
  destruct (jmul_double _ _ J2) as (j3 & E3 & J3). step E3. destruct (jmul_double _ _ J3) as (j4 & E4 & J4). step E4.
  assert (LX : len x = 9) by (unfold len; rewrite (proj1 N); reflexivity).
  assert (G : forall i, 0 <= i < 9 -> aget x i = Ok (limb x (Z.to_nat i))).
  { intros i H. unfold aget. rewrite LX, (proj2 (Z.leb_le 0 i)), (proj2 (Z.ltb_lt i 9)) by lia. reflexivity. }
  rewrite (G idx) by lia. rewrite bind_Ok. cbv beta zeta.
  set (w := (odd_scalar k / 16 ^ Z.of_nat n) mod 32).
  assert (W : exists bits idx' s', (if s - 4 <? 0 then let! abits := aget x (idx - 1) in Ok (Z.lor (u32 (Z.shiftl (limb x (Z.to_nat idx)) (- (s - 4)))) (Z.shiftr abits (s - 4 + 30)), idx - 1, s - 4 + 30)
      else Ok (Z.shiftr (limb x (Z.to_nat idx)) (s - 4), idx, s - 4)) = Ok (bits, idx', s') /\ Z.land bits 31 = w /\ 30 * idx' + s' = 4 * Z.of_nat n /\ 0 <= s' < 30 /\ 0 <= idx').
  { unfold w. rewrite pow16_2 by lia. destruct (s - 4 <? 0) eqn:C; [apply Z.ltb_lt in C|apply Z.ltb_ge in C].
    - rewrite (G (idx - 1)) by lia. rewrite bind_Ok. cbv beta. eexists _, _, _. split; [reflexivity|]. split; [|lia].
      replace (Z.to_nat idx) with (Datatypes.S (Z.to_nat (idx - 1))) by lia. replace (- (s - 4)) with (30 - (s - 4 + 30)) by lia. rewrite window_high by (auto; lia). rewrite V. do 3 f_equal. lia.
    - eexists _, _, _. split; [reflexivity|]. split; [|lia]. rewrite window_low by (auto; lia). rewrite V. do 3 f_equal. lia. }
  destruct W as (bits & idx' & s' & EW & WW & P' & S' & I'). step EW. rewrite WW.
  assert (WR : 0 <= w < 32) by (apply Z.mod_pos_bound; lia). destruct j4 as [[x4 y4] z4].
  destruct (jmul_neg_z (xorb neg (window_neg w)) _ _ _ _ J4) as (z5 & E5 & J5). step E5.
  destruct (table_get 1 t w T WR) as (q & E6 & Q). step E6.
  pose proof (top_step (odd_scalar k) (Z.of_nat n) ltac:(lia) ltac:(lia)) as TS. fold w in TS. replace (Z.of_nat n + 1) with (Z.of_nat (Datatypes.S n)) in TS by lia.
  assert (SUM : sgn (window_neg w) * (1 * digit w) + sgn (xorb neg (window_neg w)) * (2 * (2 * (2 * (2 * (sgn neg * top_sum (odd_scalar k) (Z.of_nat (Datatypes.S n))))))) = sgn (window_neg w) * top_sum (odd_scalar k) (Z.of_nat n)).
  { rewrite TS, <- (sgn_xor neg (window_neg w)). ring. }
  destruct (jmul_add q _ _ _ Q J5) as (j6 & E7 & J6); [apply digit_ndiv; auto; lia|rewrite SUM; apply sgn_ndiv, top_ndiv; lia|]. step E7. rewrite SUM in J6.
  apply (IH idx' s' (window_neg w) j6); auto; lia.
Qed.
Lemma is_less_order : forall k, normalized k -> bn_val k < group_order -> bn_is_less k order_limbs = true.
Proof. intros k N V. rewrite bn_is_less_spec by (auto; apply order_modulus). rewrite order_val. apply Z.ltb_lt; auto. Qed.
Lemma odd_low : forall k, normalized k -> bn_val k < group_order -> (Z.land (limb (make_odd k) 0) 1 =? 0) = false.
Proof.
  intros k N V. destruct (make_odd_ok k N V) as [NX VX]. rewrite land1, (limb0_mod _ 2 NX ltac:(lia) div_two), VX. pose proof (norm_val k N). destruct (odd_scalar_range (bn_val k)) as [_ ->]; [lia|reflexivity].
Qed.
Lemma top_final : forall k, 0 < k < group_order -> top_sum (odd_scalar k) 0 mod group_order = k.
Proof.
  intros k K. unfold top_sum. rewrite apart_0 by (apply odd_scalar_range; lia). change (16 ^ (64 - 0)) with (2^256). unfold odd_scalar. destruct (k mod 2 =? 0).
  - replace (2 ^ 256 + k - group_order - 2 ^ 256) with (k + (-1) * group_order) by lia. rewrite Z.mod_add by lia. apply Z.mod_small; lia.
  - replace (2 ^ 256 + k - 0 - 2 ^ 256) with k by lia. apply Z.mod_small; lia.
Qed.
Lemma low_final : forall k, 0 < k < group_order -> low_sum (odd_scalar k) 64 mod group_order = k.
Proof.
  intros k K. rewrite <- (top_final k K) at 2. f_equal. destruct (odd_scalar_range k ltac:(lia)). unfold low_sum, top_sum. rewrite apart_64, apart_0 by (auto; lia). change (16 ^ 64) with (2^256). change (16 ^ (64 - 0)) with (2^256). lia.
Qed.
Lemma order_pos : 0 < group_order. Proof. pose proof order_limits. lia. Qed.
Lemma point_multiply_ok : forall rz k q, below 1 rz -> v rz <> F0 -> normalized k -> 0 < bn_val k < group_order -> crep q a ->
  exists r, point_multiply rz k q = Ok r /\ crep r (ec_mul (bn_val k) a).
Proof.
  intros rz k q BZ NZ N K Q. unfold point_multiply. rewrite is_less_order by (auto; lia). cbn [negb]. cbv zeta. rewrite odd_low by (auto; lia).
  assert (ZK : bn_is_zero k = false) by (rewrite bn_is_zero_spec by auto; apply Z.eqb_neq; lia). rewrite ZK.
  destruct (make_odd_ok k N ltac:(lia)) as [NX VX]. destruct (odd_scalar_range (bn_val k) ltac:(lia)) as [AR AO].
  destruct (point_table_ok q Q) as (t & E1 & T). step E1.
  assert (G : aget (make_odd k) 8 = Ok (limb (make_odd k) 8)) by (unfold aget, len; rewrite (proj1 NX); reflexivity). step G. cbv zeta.
  pose proof (window_low (make_odd k) 8 12 NX ltac:(lia)) as WL. change (30 * Z.of_nat 8 + 12) with 252 in WL. rewrite VX in WL.
  assert (TOP : 0 <= odd_scalar (bn_val k) / 2^252 < 32) by (split; [apply Z.div_pos; lia|apply Z.div_lt_upper_bound; lia]).
  assert (SH : Z.shiftr (limb (make_odd k) 8) 12 = odd_scalar (bn_val k) / 16 ^ 63).
  { change (16 ^ 63) with (2^252). rewrite <- (Z.mod_small _ _ TOP), <- WL, land31m. symmetry. apply Z.mod_small.
    rewrite Z.shiftr_div_pow2 by lia. destruct (limb_div 8 (make_odd k) NX) as [r E]. rewrite VX in E. 
    assert (L9 : limb (make_odd k) 9 = 0) by (unfold limb; apply nth_overflow; rewrite (proj1 NX); lia). rewrite L9 in E. change (B ^ Z.of_nat 8) with (2^240) in E.
    assert (odd_scalar (bn_val k) / 2^240 < 2^17) by (apply Z.div_lt_upper_bound; lia). assert (0 <= odd_scalar (bn_val k) / 2^240) by (apply Z.div_pos; lia).
    pose proof (limb_range (make_odd k) 8 NX). assert (r = 0) by lia. subst r. rewrite E in *. clear - H H0 H1. dlia. }
  rewrite SH. set (w := odd_scalar (bn_val k) / 16 ^ 63) in *. assert (WR : 0 <= w < 32) by exact TOP.
  destruct (table_get 1 t w T WR) as (q1 & E2 & Q1). step E2.
  assert (J0 : sgn (window_neg w) * (1 * digit w) = sgn (window_neg w) * top_sum (odd_scalar (bn_val k)) (Z.of_nat 63)).
  { f_equal. change (Z.of_nat 63) with 63. rewrite (top_step _ 63) by lia. fold w. rewrite (Z.mod_small w) by lia. unfold top_sum at 1. rewrite apart_64 by lia. change (16 ^ (64 - (63 + 1))) with 1. lia. }
  destruct (jprep_of rz q1 _ BZ NZ Q1) as (j & E3 & J); [apply smul_ne, digit_ndiv; auto; lia|]. step E3. rewrite J0 in J.
  destruct (multiply_loop_ok (bn_val k) (make_odd k) t K NX VX T 63 8 12 (window_neg w) j) as (j2 & neg2 & E4 & J2); auto; try lia. step E4.
  destruct j2 as [[x2 y2] z2]. destruct (jmul_neg_z neg2 _ _ _ _ J2) as (z3 & E5 & J3). step E5.
  destruct (crep_of _ _ J3) as (r & E6 & R). exists r. split; [auto|].
  replace (sgn neg2 * (sgn neg2 * top_sum (odd_scalar (bn_val k)) 0)) with (top_sum (odd_scalar (bn_val k)) 0) in R by (unfold sgn; destruct neg2; lia).
  rewrite <- (smul_mod group_order) in R by (auto using order_pos). rewrite top_final in R by auto. rewrite smul_nonneg in R by lia. exact R.
Qed.

(** ** With a table of the multiples of a fixed point *)
Definition row_ok (i : Z) (row : list cpoint) : Prop := odd_table (16 ^ i) row.
Lemma neg_low : forall w, 0 <= w < 32 -> (Z.land (Z.land (if window_neg w then Z.lxor w 4294967295 else w) 15) 1 =? 0) = xorb (w mod 2 =? 0) (window_neg w).
Proof.
  intros w W.
  assert (C : forallb (fun n => let w := Z.of_nat n in Bool.eqb (Z.land (Z.land (if window_neg w then Z.lxor w 4294967295 else w) 15) 1 =? 0) (xorb (w mod 2 =? 0) (window_neg w))) (seq 0 32) = true) by (vm_compute; reflexivity).
  rewrite forallb_forall in C. specialize (C (Z.to_nat w) ltac:(apply in_seq; lia)). cbv zeta in C. rewrite Z2Nat.id in C by lia. apply Bool.eqb_prop in C. exact C.
Qed.
Lemma neg_next : forall x, 0 <= x -> window_neg (x mod 32) = ((x / 16) mod 2 =? 0).
Proof.
  intros x X. unfold window_neg. rewrite Z.shiftr_div_pow2 by lia. change (2^4) with 16. f_equal. dlia.
Qed.
Lemma scalar_loop_ok : forall k, 0 < k < group_order -> forall rows i x j, 0 <= i -> i + len rows <= 63 -> (forall m : nat, (m < length rows)%nat -> row_ok (i + 1 + Z.of_nat m) (nth m rows [])) ->
  normalized x -> bn_val x = odd_scalar k / 16 ^ i -> jmul j (sgn (window_neg (bn_val x mod 32)) * low_sum (odd_scalar k) (i + 1)) ->
  exists j' x', scalar_loop rows x j = Ok (j', x') /\ normalized x' /\ bn_val x' = odd_scalar k / 16 ^ (i + len rows) /\
    jmul j' (sgn (window_neg (bn_val x' mod 32)) * low_sum (odd_scalar k) (i + len rows + 1)).
Proof.
  intros k K. destruct (odd_scalar_range k ltac:(lia)) as [AR AO].
  induction rows as [|row rows IH]; intros i x j I L R N V J; cbn [scalar_loop]. { exists j, x. change (len (@nil (list cpoint))) with 0. rewrite !Z.add_0_r. auto. }
  assert (LR : len (row :: rows) = 1 + len rows) by (unfold len; cbn [length]; lia). assert (LN : 0 <= len rows) by (unfold len; lia).
  destruct (shift4_ok x N) as [N2 V2]. assert (V3 : bn_val (shift4 x) = odd_scalar k / 16 ^ (i + 1)) by (rewrite V2, V, <- div16_succ by lia; reflexivity).
  cbv zeta. rewrite land31m, (limb0_mod _ 32 N2 ltac:(lia) div_32). set (w := bn_val (shift4 x) mod 32) in *. assert (WR : 0 <= w < 32) by (apply Z.mod_pos_bound; lia).
  destruct j as [[x0 y0] z0]. rewrite neg_low by auto.
  assert (PREV : window_neg (bn_val x mod 32) = (w mod 2 =? 0)).
  { rewrite neg_next by (pose proof (norm_val x N); lia). rewrite <- V2. f_equal. unfold w. symmetry. rewrite <- (Znumtheory.Zmod_div_mod 2 32); [reflexivity|lia|lia|exists 16; lia]. }
  rewrite PREV in J. destruct (jmul_neg_y (xorb (w mod 2 =? 0) (window_neg w)) _ _ _ _ J) as (y1 & E1 & J1). step E1.
  pose proof (R O ltac:(cbn [length]; lia)) as RO. cbn [nth] in RO. replace (i + 1 + Z.of_nat 0) with (i + 1) in RO by lia.
  destruct (table_get _ _ w RO WR) as (q & E2 & Q). step E2.
  pose proof (low_step (odd_scalar k) (i + 1) ltac:(lia) ltac:(lia)) as TS. rewrite <- V3 in TS. fold w in TS.
  assert (SUM : sgn (window_neg w) * (16 ^ (i + 1) * digit w) + sgn (xorb (w mod 2 =? 0) (window_neg w)) * (sgn (w mod 2 =? 0) * low_sum (odd_scalar k) (i + 1)) = sgn (window_neg w) * low_sum (odd_scalar k) (i + 1 + 1)).
  { rewrite TS, <- (sgn_xor (w mod 2 =? 0) (window_neg w)). ring. }
  assert (P16 : 16 ^ (i + 1) * 16 <= 2^256). { replace (16 ^ (i + 1) * 16) with (16 ^ (i + 2)) by (replace (i + 2) with (i + 1 + 1) by lia; rewrite (Z.pow_add_r 16 (i + 1)) by lia; reflexivity). change (2^256) with (16^64). apply Z.pow_le_mono_r; lia. }
  destruct (jmul_add q _ _ _ Q J1) as (j2 & E3 & J2); [apply digit_ndiv; auto; apply pow16_pos; lia|rewrite SUM; apply sgn_ndiv, low_ndiv; lia|]. step E3. rewrite SUM in J2.
  destruct (IH (i + 1) (shift4 x) j2) as (j' & x' & E4 & N4 & V4 & J4); auto; try lia.
  { intros m M. replace (i + 1 + 1 + Z.of_nat m) with (i + 1 + Z.of_nat (Datatypes.S m)) by lia. apply (R (Datatypes.S m)). cbn [length]. lia. }
  exists j', x'. rewrite LR. replace (i + (1 + len rows)) with (i + 1 + len rows) by lia. auto.
Qed.
End Mult.

Lemma scalar_multiply_ok : forall a, is_point a -> a <> None -> smul group_order a = None -> length cp_table = 64%nat -> (forall i : nat, (i < 64)%nat -> row_ok a (Z.of_nat i) (nth i cp_table [])) ->
  forall rz k, below 1 rz -> v rz <> F0 -> normalized k -> 0 < bn_val k < group_order -> exists r, scalar_multiply rz k = Ok r /\ crep r (ec_mul (bn_val k) a).
Proof.
  intros a A NA ORD LT RT rz k BZ NZ N K. unfold scalar_multiply. rewrite is_less_order by (auto; lia). cbn [negb]. cbv zeta. rewrite odd_low by (auto; lia).
  assert (ZK : bn_is_zero k = false) by (rewrite bn_is_zero_spec by auto; apply Z.eqb_neq; lia). rewrite ZK.
  destruct (make_odd_ok k N ltac:(lia)) as [NX VX]. destruct (odd_scalar_range (bn_val k) ltac:(lia)) as [AR AO].
  rewrite land31m, (limb0_mod _ 32 NX ltac:(lia) div_32). set (w := bn_val (make_odd k) mod 32) in *. assert (WR : 0 <= w < 32) by (apply Z.mod_pos_bound; lia).
  pose proof (RT O ltac:(lia)) as R0. destruct (table_get a _ _ w R0 WR) as (q & E1 & Q). step E1.
  destruct (jprep_of rz q _ BZ NZ Q) as (j & E2 & J); [apply (smul_ne a A NA ORD), digit_ndiv; auto; change (16 ^ Z.of_nat 0) with 1; lia|]. step E2.
  assert (J0 : sgn (window_neg w) * (16 ^ Z.of_nat 0 * digit w) = sgn (window_neg w) * low_sum (odd_scalar (bn_val k)) (0 + 1)).
  { f_equal. rewrite (low_step _ 0) by lia. change (16 ^ Z.of_nat 0) with 1. change (16 ^ 0) with 1. rewrite Z.div_1_r, <- VX. fold w. unfold low_sum. rewrite apart_0 by (rewrite VX; auto). change (16 ^ 0) with 1. lia. }
  rewrite J0 in J. destruct (scalar_loop_ok a A NA ORD (bn_val k) K (tl cp_table) 0 (make_odd k) j) as (j' & x' & E3 & N3 & V3 & J3); auto; try lia.
  { unfold len. destruct cp_table; [discriminate|]. cbn [tl length] in *. lia. }
  { intros m M. replace (0 + 1 + Z.of_nat m) with (Z.of_nat (Datatypes.S m)) by lia. destruct cp_table as [|r0 rs]; [discriminate|]. cbn [tl length] in *. apply (RT (Datatypes.S m)). lia. }
  { rewrite VX. change (16 ^ 0) with 1. rewrite Z.div_1_r. reflexivity. }
  assert (LTL : len (tl cp_table) = 63) by (unfold len; destruct cp_table; [discriminate|]; cbn [tl length] in *; lia). rewrite LTL in *. step E3. destruct j' as [[x1 y1] z1].
  change (0 + 63 + 1) with 64 in J3. change (0 + 63) with 63 in V3.
  assert (FIN : (Z.land (Z.shiftr (limb x' 0) 4) 1 =? 0) = window_neg (bn_val x' mod 32)).
  { rewrite neg_next by (pose proof (norm_val x' N3); lia). rewrite land1, Z.shiftr_div_pow2 by lia. change (2^4) with 16. f_equal.
    pose proof (limb0_mod x' 32 N3 ltac:(lia) div_32) as M. set (l := limb x' 0) in *. set (y := bn_val x') in *. clearbody l y. clear - M. dlia. }
  rewrite FIN. destruct (jmul_neg_y a A (window_neg (bn_val x' mod 32)) _ _ _ _ J3) as (y2 & E4 & J4). step E4.
  destruct (crep_of _ _ J4) as (r & E5 & R). exists r. split; [auto|]. set (c := window_neg (bn_val x' mod 32)) in *.
  replace (sgn c * (sgn c * low_sum (odd_scalar (bn_val k)) 64)) with (low_sum (odd_scalar (bn_val k)) 64) in R by (unfold sgn; destruct c; lia).
  rewrite <- (smul_mod group_order) in R by (auto using order_pos). rewrite low_final in R by auto. rewrite smul_nonneg in R by lia. exact R.
Qed.
