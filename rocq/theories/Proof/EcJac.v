(** Points in Jacobian coordinates. *)
From Coq Require Import Lia Znumtheory Field Field_theory.
From Verif Require Import Base.Bytes Base.BytesFacts Base.Curve Spec.Bignum Spec.Point Spec.Curve Model.Bignum Model.Scalar Model.Inverse Model.Stream Model.Point Model.EC
  Proof.BnCore Proof.BnRed Proof.BnMul Proof.BnIo Proof.ScalarProps Proof.PointFacts Proof.CurveFacts Proof.EcField Proof.EcPoint.
Open Scope Z_scope.

Definition jrep (j : jpoint) (A : pt) : Prop :=
  let '(x, y, z) := j in
  match A with
  | Inf => False
  | Aff X Y => below 2 x /\ below 2 y /\ below 2 z /\ v z <> F0 /\ v x = (X * (v z * v z))%F /\ v y = (Y * (v z * v z * v z))%F
  end.
Lemma F_cancel : forall c x y, c <> F0 -> (c * x = c * y)%F -> x = y.
Proof.
  intros c x y N E. assert (K : (c * (x - y))%F = F0) by (transitivity (c * x - c * y)%F; [ring|rewrite E; ring]). apply F_mul_zero in K as [K|K]; [contradiction|].
  transitivity (x - y + y)%F; [ring|]. rewrite K. ring.
Qed.
Lemma F_mul_ne : forall x y, x <> F0 -> y <> F0 -> (x * y)%F <> F0.
Proof. intros x y A B K. apply F_mul_zero in K as [K|K]; contradiction. Qed.

Lemma F_inverse : forall x, x <> F0 -> exists i, (x * i)%F = F1.
Proof. intros x N. exists (Finv x). field. exact N. Qed.

Lemma to_jacobian_ok : forall z q X Y, below 1 z -> v z <> F0 -> cprep q (Aff X Y) -> exists j, curve_to_jacobian z q = Ok j /\ jrep j (Aff X Y).
Proof.
  intros z [x y] X Y BZ NZ (BX & BY & EX & EY). cbn [fst snd] in *. unfold curve_to_jacobian. cbn [fst snd].
  destruct (mulv 1 1 z z BZ BZ) as (a & E1 & B1 & V1); try lia. step E1.
  destruct (mulv 1 2 z a BZ B1) as (b & E2 & B2 & V2); try lia. step E2.
  destruct (mulv 1 2 x a BX B1) as (c & E3 & B3 & V3); try lia. step E3.
  destruct (mulv 1 2 y b BY B2) as (d & E4 & B4 & V4); try lia. step E4.
  eexists. split; [reflexivity|]. cbn [jrep]. split; [auto|]. split; [auto|]. split; [apply (below_le 1); [auto|lia]|]. split; [auto|].
  rewrite V3, V4, V2, V1, EX, EY. split; ring.
Qed.
Lemma from_jacobian_ok : forall j X Y, jrep j (Aff X Y) -> exists q, jacobian_to_curve j = Ok q /\ cprep q (Aff X Y).
Proof.
  intros [[x y] z] X Y (BX & BY & BZ & NZ & EX & EY). unfold jacobian_to_curve.
  destruct (invv z (proj1 BZ) NZ) as (i & E1 & B1 & V1). step E1.
  destruct (mulv 1 1 i i B1 B1) as (a & E2 & B2 & V2); try lia. step E2.
  destruct (mulv 2 1 a i B2 B1) as (b & E3 & B3 & V3); try lia. step E3.
  destruct (mulv 2 2 x a BX B2) as (c & E4 & B4 & V4); try lia. step E4.
  destruct (mulv 2 2 y b BY B3) as (d & E5 & B5 & V5); try lia. step E5.
  destruct (modv c B4) as [B6 V6]. destruct (modv d B5) as [B7 V7].
  eexists. split; [reflexivity|]. cbn [cprep fst snd]. split; [auto|]. split; [auto|]. rewrite V6, V7, V4, V5, V3, V2, EX, EY. split.
  - transitivity (X * ((v z * v i) * (v z * v i)))%F; [ring|]. rewrite V1. ring.
  - transitivity (Y * ((v z * v i) * (v z * v i) * (v z * v i)))%F; [ring|]. rewrite V1. ring.
Qed.
(** Without a z-coordinate to divide by, the conversion does not end. *)
Lemma from_jacobian_zero : forall x y z, normalized z -> v z = F0 -> jacobian_to_curve (x, y, z) = UB.
Proof. intros x y z N Z. unfold jacobian_to_curve. rewrite inv_zero by auto. reflexivity. Qed.

(** The sum in both cases: r = l z3, where l is the slope. *)
Lemma jadd_algebra : forall X1 Y1 X2 Y2 l z h r x3 y3, slopeF l X1 Y1 X2 Y2 -> r = (l * (h * z))%F ->
  x3 = (r * r - (X1 + X2) * (z * z) * (h * h))%F ->
  (y3 + y3)%F = (r * ((X1 + X2) * (z * z) * (h * h) - x3 - x3) - (Y1 + Y2) * (z * z * z) * (h * h * h))%F ->
  forall X3 Y3, Aff X3 Y3 = thirdF l X1 Y1 X2 -> x3 = (X3 * ((h * z) * (h * z)))%F /\ y3 = (Y3 * ((h * z) * (h * z) * (h * z)))%F.
Proof.
  intros X1 Y1 X2 Y2 l z h r x3 y3 [S1 S2] ER EX EY X3 Y3 T. unfold third in T. injection T as TX TY.
  assert (KX : x3 = (X3 * ((h * z) * (h * z)))%F) by (rewrite EX, ER, TX; ring). split; [exact KX|].
  apply (F_cancel (F1 + F1)%F); [exact F_two|]. transitivity (y3 + y3)%F; [ring|]. rewrite EY, ER, KX.
  assert (TY2 : Y3 = (l * (X2 - X3) - Y2)%F).
  { rewrite TY, <- TX. transitivity (l * (X1 - X2) + l * (X2 - X3) - Y1)%F; [ring|]. rewrite S1. ring. }
  transitivity ((Y3 + Y3) * ((h * z) * (h * z) * (h * z)))%F; [|ring].
  rewrite <- TX in TY. rewrite TY at 1. rewrite TY2. ring.
Qed.
Lemma jadd_ok : forall q j X1 Y1 X2 Y2, cprep q (Aff X1 Y1) -> jrep j (Aff X2 Y2) -> curveF X1 Y1 -> curveF X2 Y2 -> addF (Aff X1 Y1) (Aff X2 Y2) <> Inf ->
  exists j', point_jacobian_add q j = Ok j' /\ jrep j' (addF (Aff X1 Y1) (Aff X2 Y2)).
Proof.
  intros [x1 y1] [[x2 y2] z] X1 Y1 X2 Y2 (BX1 & BY1 & EX1 & EY1) (BX2 & BY2 & BZ & NZ & EX2 & EY2) C1 C2 NO. cbn [fst snd] in *.
  assert (OP : ~ opposite Fopp X1 Y1 X2 Y2). { intros K. apply NO. apply (add_opposite _ _ _ _ _ _ _ _ F_field F_dec F7 F_two F_odd); auto. }
  unfold point_jacobian_add.
  destruct (mulv 2 2 z z BZ BZ) as (zz & E1 & B1 & V1); try lia. step E1.
  destruct (mulv 2 2 zz z B1 BZ) as (zzz & E2 & B2 & V2); try lia. step E2.
  destruct (mulv 1 2 x1 zz BX1 B1) as (xz & E3 & B3 & V3); try lia. step E3.
  destruct (subv 2 xz x2 B3 BX2 ltac:(lia)) as (B4 & V4 & L4). cbv zeta. set (h0 := bn_subtractmod xz x2 prime_limbs) in *.
  destruct (fastv h0 (proj1 B4)) as [B5 V5]. pose proof (fast_prime h0 (proj1 B4) L4) as FP. set (h1 := bn_fast_mod h0 prime_limbs) in *.
  destruct (addv 2 2 xz x2 B3 BX2) as [B6 V6]; try lia. set (xs := bn_add xz x2) in *.
  destruct (mulv 1 2 y1 zzz BY1 B2) as (yz & E7 & B7 & V7); try lia. step E7.
  destruct (subv 2 yz y2 B7 BY2 ltac:(lia)) as (B8 & V8 & _). set (r0 := bn_subtractmod yz y2 prime_limbs) in *.
  destruct (addv 2 2 yz y2 B7 BY2) as [B9 V9]; try lia. set (ys := bn_add yz y2) in *.
  destruct (mulv 2 2 x2 x2 BX2 BX2) as (q2 & E10 & B10 & V10); try lia. step E10.
  destruct (mult_kv q2 3 (proj1 B10) ltac:(lia)) as [B11 V11]. set (r2 := bn_mult_k q2 3 prime_limbs) in *.
  rewrite (cmovv _ r2 r0 (proj1 B11) (proj1 B8)), (cmovv _ ys h1 (proj1 B9) (proj1 B5)).
  set (dbl := bn_is_equal h1 prime_limbs) in *.
  assert (SH : exists l, slopeF l X1 Y1 X2 Y2 /\ v (if dbl then r2 else r0) = (l * (v (if dbl then ys else h1) * v z))%F /\ v (if dbl then ys else h1) <> F0).
  { assert (VH : v h0 = ((X1 - X2) * (v z * v z))%F) by (rewrite V4, V3, V1, EX1, EX2; ring).
    assert (NZZ : (v z * v z)%F <> F0) by (apply F_mul_ne; auto).
    destruct dbl eqn:D.
    - pose proof (proj1 FP eq_refl) as K0. clear D. rename K0 into D. rewrite VH in D. apply F_mul_zero in D as [D|D]; [|contradiction].
      assert (X1 = X2) as <- by (transitivity (X1 - X2 + X2)%F; [ring|rewrite D; ring]).
      destruct (same_x _ _ _ _ _ _ _ _ F_field F_dec F7 _ _ _ C1 C2) as [<-|K]; [|exfalso; apply OP; split; auto].
      assert (N2 : ((F1 + F1) * Y1)%F <> F0) by (apply F_mul_ne; [exact F_two|exact (F_odd _ _ C1)]).
      destruct (F_inverse _ N2) as [i IV].
      exists ((F1 + (F1 + F1)) * X1 * X1 * i)%F. split.
      { apply (tangent_slope _ _ _ _ _ _ _ _ F_field). unfold F3, F2. transitivity ((F1 + (F1 + F1)) * X1 * X1 * (((F1 + F1) * Y1) * i))%F; [ring|]. rewrite IV. ring. }
      assert (VY : v ys = ((F1 + F1) * Y1 * (v z * v z * v z))%F) by (rewrite V9, V7, V2, V1, EY1, EY2; ring). split.
      + rewrite V11, V10, EX2, VY, toF3. transitivity ((F1 + (F1 + F1)) * X1 * X1 * (((F1 + F1) * Y1) * i) * (v z * v z * (v z * v z)))%F; [rewrite IV|]; ring.
      + rewrite VY. apply F_mul_ne; [auto|]. apply F_mul_ne; auto.
    - assert (NX : X1 <> X2). { intros K. assert (T : false = true); [|discriminate]. apply FP. rewrite VH, K. ring. }
      assert (ND : (X1 - X2)%F <> F0) by (apply (sub_ne _ _ _ _ _ _ _ _ F_field); auto).
      destruct (F_inverse _ ND) as [i IV].
      exists ((Y1 - Y2) * i)%F. split.
      { apply (chord_slope _ _ _ _ _ _ _ _ F_field F7); auto. transitivity ((Y1 - Y2) * ((X1 - X2) * i))%F; [ring|]. rewrite IV. ring. }
      split.
      + rewrite V5, VH, V8, V7, V2, V1, EY1, EY2. transitivity ((Y1 - Y2) * ((X1 - X2) * i) * (v z * v z * v z))%F; [rewrite IV|]; ring.
      + rewrite V5, VH. apply F_mul_ne; auto. }
  destruct SH as (l & SL & VR & NH).
  assert (BR : below 4 (if dbl then r2 else r0)) by (destruct dbl; [apply (below_le 2); [auto|lia]|exact B8]).
  assert (BH : below 4 (if dbl then ys else h1)) by (destruct dbl; [exact B9|apply (below_le 2); [auto|lia]]).
  clearbody dbl. set (r := if dbl then r2 else r0) in *. set (h := if dbl then ys else h1) in *. clearbody r h.
  destruct (mulv 4 4 h h BH BH) as (hh & E12 & B12 & V12); try lia. step E12.
  destruct (mulv 2 4 hh h B12 BH) as (hhh & E13 & B13 & V13); try lia. step E13.
  destruct (mulv 4 2 xs hh B6 B12) as (hx & E14 & B14 & V14); try lia. step E14.
  destruct (mulv 4 2 ys hhh B9 B13) as (hy & E15 & B15 & V15); try lia. step E15.
  destruct (mulv 4 2 h z BH BZ) as (z3 & E16 & B16 & V16); try lia. step E16.
  destruct (mulv 4 4 r r BR BR) as (rr & E17 & B17 & V17); try lia. step E17.
  destruct (subv 2 rr hx B17 B14 ltac:(lia)) as (B18 & V18 & _). set (x3a := bn_subtractmod rr hx prime_limbs) in *.
  destruct (fastv x3a (proj1 B18)) as [B19 V19]. set (x3 := bn_fast_mod x3a prime_limbs) in *.
  destruct (subv 2 hx x3 B14 B19 ltac:(lia)) as (B20 & V20 & _). set (ya := bn_subtractmod hx x3 prime_limbs) in *.
  destruct (subv 4 ya x3 B20 B19 ltac:(lia)) as (B21 & V21 & _). set (yb := bn_subtractmod ya x3 prime_limbs) in *.
  destruct (mulv 4 6 r yb BR B21) as (yc & E22 & B22 & V22); try lia. step E22.
  destruct (subv 2 yc hy B22 B15 ltac:(lia)) as (B23 & V23 & _). set (yd := bn_subtractmod yc hy prime_limbs) in *.
  destruct (halfv 4 3 yd B23 ltac:(lia)) as [B24 V24]. set (ye := bn_mult_half yd prime_limbs) in *.
  destruct (fastv ye (proj1 B24)) as [B25 V25]. set (y3 := bn_fast_mod ye prime_limbs) in *.
  eexists. split; [reflexivity|]. rewrite (F_add_slope l); auto.
  destruct (thirdF l X1 Y1 X2) as [|X3 Y3] eqn:T; [discriminate|]. symmetry in T. cbn [jrep].
  destruct (jadd_algebra X1 Y1 X2 Y2 l (v z) (v h) (v r) (v x3) (v y3) SL VR) with (X3 := X3) (Y3 := Y3) as [KX KY].
  - rewrite V19, V18, V17, V14, V12, V6, V3, V1, EX1, EX2. ring.
  - rewrite V25, V24, V23, V22, V21, V20, V15, V14, V13, V12, V9, V7, V6, V3, V2, V1, EX1, EX2, EY1, EY2. ring.
  - exact T.
  - rewrite V16. split; [auto|]. split; [auto|]. split; [auto|]. split; [apply F_mul_ne; auto|]. split; [exact KX|exact KY].
Qed.

Lemma toF_F0 : toF 0 = F0.
Proof. reflexivity. Qed.
Lemma jdouble_algebra : forall X Y l z m x3 y3, slopeF l X Y X Y -> (m + m)%F = ((F1 + (F1 + F1)) * ((X * (z * z)) * (X * (z * z))))%F ->
  x3 = (m * m - (((Y * (z * z * z)) * (Y * (z * z * z))) * (X * (z * z)) + ((Y * (z * z * z)) * (Y * (z * z * z))) * (X * (z * z))))%F ->
  y3 = (m * (((Y * (z * z * z)) * (Y * (z * z * z))) * (X * (z * z)) - x3) - ((Y * (z * z * z)) * (Y * (z * z * z))) * ((Y * (z * z * z)) * (Y * (z * z * z))))%F ->
  forall X3 Y3, Aff X3 Y3 = thirdF l X Y X ->
  let z3 := (Y * (z * z * z) * z)%F in x3 = (X3 * (z3 * z3))%F /\ y3 = (Y3 * (z3 * z3 * z3))%F.
Proof.
  intros X Y l z m x3 y3 [_ S2] EM EX EY X3 Y3 T z3. unfold third in T. injection T as TX TY.
  assert (KM : m = (l * z3)%F).
  { apply (F_cancel (F1 + F1)%F); [exact F_two|]. transitivity (m + m)%F; [ring|]. rewrite EM.
    transitivity ((X * X + X * X + X * X) * (z * z * z * z))%F; [ring|]. rewrite <- S2. unfold z3. ring. }
  assert (KX : x3 = (X3 * (z3 * z3))%F) by (rewrite EX, KM, TX; unfold z3; ring). split; [exact KX|].
  rewrite EY, KX, KM. rewrite <- TX in TY. rewrite TY. unfold z3. ring.
Qed.
Lemma jdouble_ok : forall j X Y, jrep j (Aff X Y) -> curveF X Y -> exists j', point_jacobian_double j = Ok j' /\ jrep j' (addF (Aff X Y) (Aff X Y)).
Proof.
  intros [[x y] z] X Y (BX & BY & BZ & NZ & EX & EY) C. unfold point_jacobian_double.
  destruct (mulv 2 2 x x BX BX) as (m0 & E1 & B1 & V1); try lia. step E1.
  destruct (mult_kv m0 3 (proj1 B1) ltac:(lia)) as [B2 V2]. cbv zeta. set (m1 := bn_mult_k m0 3 prime_limbs) in *.
  destruct (mulv 2 2 z z BZ BZ) as (a0 & E3 & B3 & V3); try lia. step E3.
  destruct (mulv 2 2 a0 a0 B3 B3) as (a1 & E4 & B4 & V4); try lia. step E4.
  destruct (mult_kv a1 0 (proj1 B4) ltac:(lia)) as [B5 V5]. set (a2 := bn_mult_k a1 0 prime_limbs) in *.
  destruct (subv 2 m1 a2 B2 B5 ltac:(lia)) as (B6 & V6 & _). set (m2 := bn_subtractmod m1 a2 prime_limbs) in *.
  destruct (halfv 4 3 m2 B6 ltac:(lia)) as [B7 V7]. set (m := bn_mult_half m2 prime_limbs) in *.
  destruct (mulv 3 3 m m B7 B7) as (mm & E8 & B8 & V8); try lia. step E8.
  destruct (mulv 2 2 y y BY BY) as (yy & E9 & B9 & V9); try lia. step E9.
  destruct (mulv 2 2 yy x B9 BX) as (xy & E10 & B10 & V10); try lia. step E10.
  destruct (mulv 2 2 y z BY BZ) as (z3 & E11 & B11 & V11); try lia. step E11.
  destruct (lshiftv 2 xy B10 ltac:(lia)) as [B12 V12]. set (xa := bn_lshift xy) in *.
  destruct (fastv xa (proj1 B12)) as [B13 V13]. set (xb := bn_fast_mod xa prime_limbs) in *.
  destruct (subv 2 mm xb B8 B13 ltac:(lia)) as (B14 & V14 & _). set (xc := bn_subtractmod mm xb prime_limbs) in *.
  destruct (fastv xc (proj1 B14)) as [B15 V15]. set (x3 := bn_fast_mod xc prime_limbs) in *.
  destruct (subv 2 xy x3 B10 B15 ltac:(lia)) as (B16 & V16 & _). set (ya := bn_subtractmod xy x3 prime_limbs) in *.
  destruct (mulv 3 4 m ya B7 B16) as (yb & E17 & B17 & V17); try lia. step E17.
  destruct (mulv 2 2 yy yy B9 B9) as (y4 & E18 & B18 & V18); try lia. step E18.
  destruct (subv 2 yb y4 B17 B18 ltac:(lia)) as (B19 & V19 & _). set (yc := bn_subtractmod yb y4 prime_limbs) in *.
  destruct (fastv yc (proj1 B19)) as [B20 V20]. set (y3 := bn_fast_mod yc prime_limbs) in *.
  eexists. split; [reflexivity|].
  assert (N2 : ((F1 + F1) * Y)%F <> F0) by (apply F_mul_ne; [exact F_two|exact (F_odd _ _ C)]).
  destruct (F_inverse _ N2) as [i IV].
  set (l := ((F1 + (F1 + F1)) * X * X * i)%F).
  assert (SL : slopeF l X Y X Y).
  { apply (tangent_slope _ _ _ _ _ _ _ _ F_field). unfold F3, F2, l. transitivity ((F1 + (F1 + F1)) * X * X * (((F1 + F1) * Y) * i))%F; [ring|]. rewrite IV. ring. }
  rewrite (F_add_slope l); auto. 2:{ intros [_ K]. apply (neg_ne _ _ _ _ _ _ _ _ F_field F_dec F7 F_two F_odd _ _ C K). }
  destruct (thirdF l X Y X) as [|X3 Y3] eqn:T; [discriminate|]. symmetry in T. cbn [jrep].
  destruct (jdouble_algebra X Y l (v z) (v m) (v x3) (v y3) SL) with (X3 := X3) (Y3 := Y3) as [KX KY].
  - rewrite V7, V6, V5, V2, V1, EX, toF3, toF_F0. ring.
  - rewrite V15, V14, V13, V12, V10, V9, V8, EX, EY. ring.
  - rewrite V20, V19, V18, V17, V16, V10, V9, EX, EY. ring.
  - exact T.
  - rewrite V11, EY. split; [auto|]. split; [auto|]. split; [auto|]. split; [|split; [exact KX|exact KY]].
    repeat apply F_mul_ne; auto. exact (F_odd _ _ C).
Qed.
