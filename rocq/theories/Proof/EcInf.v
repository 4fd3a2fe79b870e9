(** Multiples of the point at infinity: the conversion at the end has no z-coordinate to divide by. *)
From Coq Require Import Lia Znumtheory.
From Verif Require Import Base.Bytes Base.BytesFacts Spec.Bignum Spec.Keys Spec.Curve Spec.Schemes
  Model.Bignum Model.Scalar Model.Inverse Model.Stream Model.Point Model.EC
  Proof.BnCore Proof.BnRed Proof.BnMul Proof.CurveFacts Proof.PointFacts Proof.EcField Proof.EcPoint Proof.EcJac Proof.EcGroup Proof.EcRecode Proof.EcMult Proof.EcApi.
Open Scope Z_scope.

Definition jzero (j : jpoint) : Prop := let '(x, y, z) := j in below 2 x /\ below 2 y /\ below 3 z /\ v x = F0 /\ v y = F0.
Definition jlost (j : jpoint) : Prop := jzero j /\ v (snd j) = F0.
Lemma F_half_zero : forall x, (x + x)%F = F0 -> x = F0.
Proof.
  intros x E. assert (K : ((F1 + F1) * x)%F = F0) by (rewrite <- E; ring). apply F_mul_zero in K as [K|K]; [|exact K]. destruct (F_two K).
Qed.
Lemma jdouble_zero : forall j, jzero j -> exists j', point_jacobian_double j = Ok j' /\ jlost j'.
Proof.
  intros [[x y] z] (BX & BY & BZ & EX & EY). unfold point_jacobian_double.
  destruct (mulv 2 2 x x BX BX) as (m0 & E1 & B1 & V1); try lia. step E1.
  destruct (mult_kv m0 3 (proj1 B1) ltac:(lia)) as [B2 V2]. cbv zeta. set (m1 := bn_mult_k m0 3 prime_limbs) in *.
  destruct (mulv 3 3 z z BZ BZ) as (a0 & E3 & B3 & V3); try lia. step E3.
  destruct (mulv 2 2 a0 a0 B3 B3) as (a1 & E4 & B4 & V4); try lia. step E4.
  destruct (mult_kv a1 0 (proj1 B4) ltac:(lia)) as [B5 V5]. set (a2 := bn_mult_k a1 0 prime_limbs) in *.
  destruct (subv 2 m1 a2 B2 B5 ltac:(lia)) as (B6 & V6 & _). set (m2 := bn_subtractmod m1 a2 prime_limbs) in *.
  destruct (halfv 4 3 m2 B6 ltac:(lia)) as [B7 V7]. set (m := bn_mult_half m2 prime_limbs) in *.
  destruct (mulv 3 3 m m B7 B7) as (mm & E8 & B8 & V8); try lia. step E8.
  destruct (mulv 2 2 y y BY BY) as (yy & E9 & B9 & V9); try lia. step E9.
  destruct (mulv 2 2 yy x B9 BX) as (xy & E10 & B10 & V10); try lia. step E10.
  destruct (mulv 2 3 y z BY BZ) as (z3 & E11 & B11 & V11); try lia. step E11.
  destruct (lshiftv 2 xy B10 ltac:(lia)) as [B12 V12]. set (xa := bn_lshift xy) in *.
  destruct (fastv xa (proj1 B12)) as [B13 V13]. set (xb := bn_fast_mod xa prime_limbs) in *.
  destruct (subv 2 mm xb B8 B13 ltac:(lia)) as (B14 & V14 & _). set (xc := bn_subtractmod mm xb prime_limbs) in *.
  destruct (fastv xc (proj1 B14)) as [B15 V15]. set (x3 := bn_fast_mod xc prime_limbs) in *.
  destruct (subv 2 xy x3 B10 B15 ltac:(lia)) as (B16 & V16 & _). set (ya := bn_subtractmod xy x3 prime_limbs) in *.
  destruct (mulv 3 4 m ya B7 B16) as (yb & E17 & B17 & V17); try lia. step E17.
  destruct (mulv 2 2 yy yy B9 B9) as (y4 & E18 & B18 & V18); try lia. step E18.
  destruct (subv 2 yb y4 B17 B18 ltac:(lia)) as (B19 & V19 & _). set (yc := bn_subtractmod yb y4 prime_limbs) in *.
  destruct (fastv yc (proj1 B19)) as [B20 V20]. set (y3 := bn_fast_mod yc prime_limbs) in *.
  assert (M0 : v m = F0). { apply F_half_zero. rewrite V7, V6, V5, V2, V1, EX, toF3, toF_F0. ring. }
  eexists. split; [reflexivity|]. unfold jlost, jzero. cbn [snd].
  split; [split; [auto|]; split; [auto|]; split; [apply (below_le 2); [auto|lia]|]; split|].
  - rewrite V15, V14, V13, V12, V10, V9, V8, EX, EY, M0. ring.
  - rewrite V20, V19, V18, V17, V16, V10, V9, EX, EY, M0. ring.
  - rewrite V11, EY. ring.
Qed.
Lemma jadd_zero : forall q j, q = cp_infinity -> jlost j -> exists j', point_jacobian_add q j = Ok j' /\ jlost j'.
Proof.
  intros q [[x2 y2] z] -> ((BX2 & BY2 & BZ & EX2 & EY2) & EZ). cbn [snd] in EZ. unfold point_jacobian_add, cp_infinity.
  pose proof zero_below as BX1. pose proof zero_below as BY1. assert (EX1 : v bn_zero = F0) by reflexivity. set (x1 := bn_zero) in *.
  destruct (mulv 3 3 z z BZ BZ) as (zz & E1 & B1 & V1); try lia. step E1.
  destruct (mulv 2 3 zz z B1 BZ) as (zzz & E2 & B2 & V2); try lia. step E2.
  destruct (mulv 1 2 x1 zz BX1 B1) as (xz & E3 & B3 & V3); try lia. step E3.
  destruct (subv 2 xz x2 B3 BX2 ltac:(lia)) as (B4 & V4 & L4). cbv zeta. set (h0 := bn_subtractmod xz x2 prime_limbs) in *.
  destruct (fastv h0 (proj1 B4)) as [B5 V5]. set (h1 := bn_fast_mod h0 prime_limbs) in *.
  destruct (addv 2 2 xz x2 B3 BX2) as [B6 V6]; try lia. set (xs := bn_add xz x2) in *.
  destruct (mulv 1 2 x1 zzz BY1 B2) as (yz & E7 & B7 & V7); try lia. step E7.
  destruct (subv 2 yz y2 B7 BY2 ltac:(lia)) as (B8 & V8 & _). set (r0 := bn_subtractmod yz y2 prime_limbs) in *.
  destruct (addv 2 2 yz y2 B7 BY2) as [B9 V9]; try lia. set (ys := bn_add yz y2) in *.
  destruct (mulv 2 2 x2 x2 BX2 BX2) as (q2 & E10 & B10 & V10); try lia. step E10.
  destruct (mult_kv q2 3 (proj1 B10) ltac:(lia)) as [B11 V11]. set (r2 := bn_mult_k q2 3 prime_limbs) in *.
  rewrite (cmovv _ r2 r0 (proj1 B11) (proj1 B8)), (cmovv _ ys h1 (proj1 B9) (proj1 B5)).
  set (dbl := bn_is_equal h1 prime_limbs) in *.
  assert (VR : v (if dbl then r2 else r0) = F0). { destruct dbl; [rewrite V11, V10, EX2|rewrite V8, V7, EX1, EY2]; ring. }
  assert (BR : below 4 (if dbl then r2 else r0)) by (destruct dbl; [apply (below_le 2); [auto|lia]|exact B8]).
  assert (BH : below 4 (if dbl then ys else h1)) by (destruct dbl; [exact B9|apply (below_le 2); [auto|lia]]).
  clearbody dbl. set (r := if dbl then r2 else r0) in *. set (h := if dbl then ys else h1) in *. clearbody r h.
  destruct (mulv 4 4 h h BH BH) as (hh & E12 & B12 & V12); try lia. step E12.
  destruct (mulv 2 4 hh h B12 BH) as (hhh & E13 & B13 & V13); try lia. step E13.
  destruct (mulv 4 2 xs hh B6 B12) as (hx & E14 & B14 & V14); try lia. step E14.
  destruct (mulv 4 2 ys hhh B9 B13) as (hy & E15 & B15 & V15); try lia. step E15.
  destruct (mulv 4 3 h z BH BZ) as (z3 & E16 & B16 & V16); try lia. step E16.
  destruct (mulv 4 4 r r BR BR) as (rr & E17 & B17 & V17); try lia. step E17.
  destruct (subv 2 rr hx B17 B14 ltac:(lia)) as (B18 & V18 & _). set (x3a := bn_subtractmod rr hx prime_limbs) in *.
  destruct (fastv x3a (proj1 B18)) as [B19 V19]. set (x3 := bn_fast_mod x3a prime_limbs) in *.
  destruct (subv 2 hx x3 B14 B19 ltac:(lia)) as (B20 & V20 & _). set (ya := bn_subtractmod hx x3 prime_limbs) in *.
  destruct (subv 4 ya x3 B20 B19 ltac:(lia)) as (B21 & V21 & _). set (yb := bn_subtractmod ya x3 prime_limbs) in *.
  destruct (mulv 4 6 r yb BR B21) as (yc & E22 & B22 & V22); try lia. step E22.
  destruct (subv 2 yc hy B22 B15 ltac:(lia)) as (B23 & V23 & _). set (yd := bn_subtractmod yc hy prime_limbs) in *.
  destruct (halfv 4 3 yd B23 ltac:(lia)) as [B24 V24]. set (ye := bn_mult_half yd prime_limbs) in *.
  destruct (fastv ye (proj1 B24)) as [B25 V25]. set (y3 := bn_fast_mod ye prime_limbs) in *.
  assert (VS : v xs = F0) by (rewrite V6, V3, EX1, EX2; ring). assert (VY : v ys = F0) by (rewrite V9, V7, EX1, EY2; ring).
  eexists. split; [reflexivity|]. unfold jlost, jzero. cbn [snd].
  split; [split; [auto|]; split; [auto|]; split; [apply (below_le 2); [auto|lia]|]; split|].
  - rewrite V19, V18, V17, V14, VR, VS. ring.
  - rewrite V25. apply F_half_zero. rewrite V24, V23, V22, V15, VR, VY. ring.
  - rewrite V16, EZ. ring.
Qed.
(** Undefined, or with a property. *)
Definition ub_or {A} (o : outcome A) (Q : A -> Prop) : Prop := match o with Ok a => Q a | UB => True end.
Lemma cond_neg_zero : forall c a, below 3 a -> v a = F0 -> ub_or (conditional_negate c a prime_limbs) (fun r => below 3 r /\ v r = F0).
Proof.
  intros c a B Z. pose proof (proj1 (proj1 B)) as L. unfold conditional_negate. destruct (limb a 8 <? 131072) eqn:T; [|exact I]. cbv zeta.
  assert (B2 : bn_val a <= 2 * P).
  { pose proof P_pos as PR. apply v_zero in Z as [q E]. destruct B as [_ B]. rewrite E in *. apply Z.mul_lt_mono_pos_r in B; [|auto]. apply Z.mul_le_mono_pos_r; [auto|lia]. }
  destruct c.
  - rewrite negate_submod by (rewrite L; reflexivity). rewrite zeros9 by auto. fold (bn_subtractmod bn_zero a prime_limbs).
    destruct (bn_subtractmod_spec bn_zero a prime_limbs (proj1 zero_below) (proj1 B) p_norm) as [N V]. rewrite prime_val in V. change (bn_val bn_zero) with 0 in V.
    pose proof P_range. pose proof (norm_val a (proj1 B)). rewrite Z.mod_small in V by lia.
    destruct (limb (bn_subtractmod bn_zero a prime_limbs) 8 <? 131072); [|exact I]. cbn [ub_or]. split; [split; [auto|lia]|]. apply v_zero in Z as [q E]. apply v_zero. rewrite V, E. exists (2 - q). ring.
  - rewrite negate_id by (rewrite L; reflexivity). rewrite T. cbn [ub_or]. auto.
Qed.
Lemma loop_zero : forall a t, (forall i q, aget_pt t i = Ok q -> q = cp_infinity) -> forall n idx s neg j, (0 < n)%nat -> jzero j ->
  ub_or (multiply_loop n a t idx s neg j) (fun r => jlost (fst r)).
Proof.
  intros a t T. induction n as [|n IH]; intros idx s neg j N J; [lia|]. cbn [multiply_loop].
  destruct (jdouble_zero _ J) as (j1 & E1 & J1). step E1. destruct (jdouble_zero _ (proj1 J1)) as (j2 & E2 & J2). step E2.
  destruct (jdouble_zero _ (proj1 J2)) as (j3 & E3 & J3). step E3. destruct (jdouble_zero _ (proj1 J3)) as (j4 & E4 & J4). step E4.
  destruct (aget a idx) as [ab|]; [|exact I]. rewrite bind_Ok. cbv beta zeta.
  destruct (if s - 4 <? 0 then _ else _) as [[[bits idx'] s']|]; [|exact I]. rewrite bind_Ok. cbv beta iota.
  destruct j4 as [[x4 y4] z4]. destruct J4 as ((BX & BY & BZ & EX & EY) & EZ). cbn [snd] in EZ.
  pose proof (cond_neg_zero (xorb neg (window_neg (Z.land bits 31))) z4 BZ EZ) as C. destruct (conditional_negate _ z4 prime_limbs) as [z5|]; [|exact I]. destruct C as [BZ5 EZ5]. rewrite bind_Ok. cbv beta.
  destruct (aget_pt t (window_idx (Z.land bits 31))) as [q|] eqn:Q; [|exact I]. rewrite bind_Ok. cbv beta.
  destruct (jadd_zero q (x4, y4, z5) (T _ _ Q)) as (j6 & E6 & J6); [split; [repeat split; auto; try apply BX; try apply BY; apply BZ5|exact EZ5]|]. step E6.
  destruct n as [|n]; [exact J6|]. apply IH; [lia|]. apply J6.
Qed.
Lemma table_zero : point_table cp_infinity = Ok (repeat cp_infinity 8).
Proof. vm_compute. reflexivity. Qed.
Lemma multiply_infinity : forall rz k : bn, random_below P rz -> normalized k -> bn_val k <> 0 -> point_multiply rz k cp_infinity = UB.
Proof.
  intros rz k R N K. destruct (Z_lt_ge_dec (bn_val k) group_order) as [L|L]; [|apply (multiply_over k); [auto|lia]].
  unfold point_multiply. rewrite is_less_order by auto. cbn [negb]. cbv zeta. rewrite odd_low by auto.
  assert (ZK : bn_is_zero k = false) by (rewrite bn_is_zero_spec by auto; apply Z.eqb_neq; lia). rewrite ZK. step table_zero.
  assert (T : forall i q, aget_pt (repeat cp_infinity 8) i = Ok q -> q = cp_infinity).
  { intros i q. unfold aget_pt. destruct (nth_error (repeat cp_infinity 8) i) as [p|] eqn:E; [|discriminate]. intros H. injection H as <-. apply nth_error_In in E. apply repeat_spec in E. exact E. }
  destruct (aget (make_odd k) 8) as [ab|]; [|reflexivity]. rewrite bind_Ok. cbv beta.
  destruct (aget_pt (repeat cp_infinity 8) _) as [q|] eqn:Q; [|reflexivity]. apply T in Q. rewrite Q. rewrite bind_Ok. cbv beta.
  destruct (random_F rz R) as [BZ NZ]. unfold curve_to_jacobian. change (fst cp_infinity) with bn_zero. change (snd cp_infinity) with bn_zero. pose proof zero_below as B0. assert (V0 : v bn_zero = F0) by reflexivity.
  destruct (mulv 1 1 rz rz BZ BZ) as (a & E1 & B1 & V1); try lia. step E1.
  destruct (mulv 1 2 rz a BZ B1) as (b & E2 & B2 & V2); try lia. step E2.
  destruct (mulv 1 2 bn_zero a B0 B1) as (c & E3 & B3 & V3); try lia. step E3.
  destruct (mulv 1 2 bn_zero b B0 B2) as (d & E4 & B4 & V4); try lia. step E4. rewrite bind_Ok. cbv beta.
  pose proof (loop_zero (make_odd k) (repeat cp_infinity 8) T 63 8 12 (window_neg (Z.shiftr ab 12)) (c, d, rz) ltac:(lia)) as LZ.
  destruct (multiply_loop 63 (make_odd k) _ 8 12 _ (c, d, rz)) as [[[[x y] z] neg]|]; [|reflexivity]. rewrite bind_Ok. cbv beta iota.
  destruct LZ as ((BX & BY & BZ3 & EX & EY) & EZ); [split; [auto|]; split; [auto|]; split; [apply (below_le 1); [auto|lia]|]; split; [rewrite V3, V0|rewrite V4, V0]; ring|]. cbn [fst snd] in *.
  pose proof (cond_neg_zero neg z BZ3 EZ) as C. destruct (conditional_negate neg z prime_limbs) as [z'|]; [|reflexivity]. destruct C as [BZ' EZ']. rewrite bind_Ok. cbv beta.
  apply from_jacobian_zero; auto. apply BZ'.
Qed.
