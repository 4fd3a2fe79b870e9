(** Adding and doubling points given in limbs. *)
From Coq Require Import Lia Znumtheory Field Field_theory.
From Verif Require Import Base.Bytes Base.BytesFacts Base.Curve Spec.Bignum Spec.Point Spec.Curve Model.Bignum Model.Scalar Model.Inverse Model.Stream Model.Point Model.EC
  Proof.BnCore Proof.BnRed Proof.BnMul Proof.BnIo Proof.ScalarProps Proof.PointFacts Proof.CurveFacts Proof.EcField.
Open Scope Z_scope.

Add Field FpF : F_field.
Declare Scope F_scope.
Delimit Scope F_scope with F.
Infix "+" := Fadd : F_scope.
Infix "*" := Fmul : F_scope.
Infix "-" := Fsub : F_scope.
Notation "- x" := (Fopp x) : F_scope.
Notation slopeF := (is_slope Fadd Fmul Fsub).
Notation thirdF := (third Fmul Fsub).
Lemma toF2 : toF 2 = (F1 + F1)%F.
Proof. unfold F1. rewrite toF_add. reflexivity. Qed.
Lemma toF3 : toF 3 = (F1 + (F1 + F1))%F.
Proof. unfold F1. rewrite !toF_add. reflexivity. Qed.
Lemma toF0 : toF 0 = F0.
Proof. reflexivity. Qed.
Lemma F_add_slope : forall l x1 y1 x2 y2, curveF x1 y1 -> curveF x2 y2 -> ~ opposite Fopp x1 y1 x2 y2 -> slopeF l x1 y1 x2 y2 ->
  addF (Aff x1 y1) (Aff x2 y2) = thirdF l x1 y1 x2.
Proof. apply (add_slope _ _ _ _ _ _ _ _ F_field F_dec F7 F_two F_odd). Qed.
Lemma F_mul_zero : forall x y, (x * y)%F = F0 -> x = F0 \/ y = F0.
Proof. apply (mul_zero _ _ _ _ _ _ _ _ F_field F_dec). Qed.

(** ** Affine points *)
Definition cprep (q : cpoint) (A : pt) : Prop :=
  match A with
  | Inf => q = cp_infinity
  | Aff X Y => below 1 (fst q) /\ below 1 (snd q) /\ v (fst q) = X /\ v (snd q) = Y
  end.
Lemma zero_below : below 1 bn_zero.
Proof. split; [split; [reflexivity|repeat (constructor; [lia|]); constructor]|]. change (bn_val bn_zero) with 0. pose proof P_range. lia. Qed.
Lemma not_infinity : forall q X Y, cprep q (Aff X Y) -> curveF X Y -> point_is_infinity q = false.
Proof.
  intros q X Y (A & B & <- & <-) C. unfold point_is_infinity. destruct (bn_is_zero (snd q)) eqn:E; [|apply andb_false_r]. exfalso. apply (F_odd _ _ C). apply zerov; auto.
Qed.

Lemma double_ok : forall q A, cprep q A -> goodF A -> exists r, point_double q = Ok r /\ cprep r (addF A A).
Proof.
  intros q [|X Y] R G; [unfold cprep in R; subst q; exists cp_infinity; split; reflexivity|]. pose proof (not_infinity _ _ _ R G) as NI. destruct q as [x y]. destruct R as (BX & BY & <- & <-). cbn [fst snd] in *.
  cbn [good] in G. unfold point_double. rewrite NI. destruct (bn_is_zero y) eqn:ZY; [exfalso; apply (F_odd _ _ G), zerov; auto|].
  destruct (mult_kv y 2 (proj1 BY) ltac:(lia)) as [B1 V1]. cbv zeta. set (l0 := bn_mult_k y 2 prime_limbs) in *.
  assert (N1 : v l0 <> F0). { rewrite V1, toF2. intros K. apply F_mul_zero in K as [K|K]; [exact (F_two K)|exact (F_odd _ _ G K)]. }
  destruct (invv l0 (proj1 B1) N1) as (li & E2 & B2 & V2). step E2.
  destruct (mulv 1 1 x x BX BX) as (x2 & E3 & B3 & V3); try lia. step E3.
  destruct (mult_kv x2 3 (proj1 B3) ltac:(lia)) as [B4 V4]. set (x3 := bn_mult_k x2 3 prime_limbs) in *.
  destruct (subiv x3 B4) as (x4 & E5 & B5 & V5). step E5.
  destruct (mulv 3 1 x4 li B5 B2) as (la & E6 & B6 & V6); try lia. step E6.
  destruct (mulv 2 2 la la B6 B6) as (x5 & E7 & B7 & V7); try lia. step E7.
  destruct (lshiftv 1 x BX ltac:(lia)) as [B8 V8]. set (yr := bn_lshift x) in *.
  destruct (subv 2 x5 yr B7 B8 ltac:(lia)) as (B9 & V9 & _). set (x6 := bn_subtractmod x5 yr prime_limbs) in *.
  destruct (fastv x6 (proj1 B9)) as [B10 V10]. destruct (modv _ B10) as [B11 V11]. set (x7 := bn_mod (bn_fast_mod x6 prime_limbs) prime_limbs) in *.
  destruct (subv 1 x x7 BX (below_le 1 2 _ B11 ltac:(lia)) ltac:(lia)) as (B12 & V12 & _). set (y1 := bn_subtractmod x x7 prime_limbs) in *.
  destruct (mulv 2 3 la y1 B6 B12) as (y2 & E13 & B13 & V13); try lia. step E13.
  destruct (subv 2 y2 y B13 (below_le 1 2 _ BY ltac:(lia)) ltac:(lia)) as (B14 & V14 & _). set (y3 := bn_subtractmod y2 y prime_limbs) in *.
  destruct (fastv y3 (proj1 B14)) as [B15 V15]. destruct (modv _ B15) as [B16 V16]. set (y4 := bn_mod (bn_fast_mod y3 prime_limbs) prime_limbs) in *.
  eexists. split; [reflexivity|].
  assert (SL : slopeF (v la) (v x) (v y) (v x) (v y)).
  { apply (tangent_slope _ _ _ _ _ _ _ _ F_field). unfold F3, F2. rewrite V6, V5, V4, V3, toF3. rewrite V1, toF2 in V2.
    transitivity ((F1 + (F1 + F1)) * (v x * v x) * (((F1 + F1) * v y) * v li))%F; [ring|]. rewrite V2. ring. }
  rewrite (F_add_slope (v la)); auto.
  2:{ intros [_ K]. apply (neg_ne _ _ _ _ _ _ _ _ F_field F_dec F7 F_two F_odd _ _ G K). }
  unfold third. cbn [cprep fst snd]. split; [auto|]. split; [auto|].
  assert (EX : v x7 = (v la * v la - v x - v x)%F) by (rewrite V11, V10, V9, V8, V7; ring). split; [exact EX|].
  rewrite V16, V15, V14, V13, V12, EX. reflexivity.
Qed.

Lemma add_ok : forall q r A B, cprep q A -> cprep r B -> goodF A -> goodF B -> exists s, point_add q r = Ok s /\ cprep s (addF A B).
Proof.
  intros q r A B RA RB GA GB. unfold point_add.
  destruct A as [|X1 Y1]. { unfold cprep in RA. subst q. change (point_is_infinity cp_infinity) with true. exists r. split; [reflexivity|exact RB]. }
  rewrite (not_infinity _ _ _ RA GA).
  destruct B as [|X2 Y2]. { unfold cprep in RB. subst r. change (point_is_infinity cp_infinity) with true. exists q. split; [reflexivity|]. rewrite ptadd_inf_r. exact RA. }
  rewrite (not_infinity _ _ _ RB GB). destruct q as [x1 y1], r as [x2 y2].
  pose proof RA as (BX1 & BY1 & EX1 & EY1). pose proof RB as (BX2 & BY2 & EX2 & EY2). cbn [fst snd good] in *.
  unfold point_is_equal. cbn [fst snd].
  destruct (bn_is_equal x1 x2 && bn_is_equal y1 y2) eqn:EQ.
  { apply andb_true_iff in EQ as [Q1 Q2]. apply eqv in Q1; [|auto|auto]. apply eqv in Q2; [|auto|auto].
    destruct (double_ok (x2, y2) (Aff X2 Y2) RB GB) as (s & E & S). exists s. split; [exact E|]. replace (Aff X1 Y1) with (Aff X2 Y2) by (f_equal; congruence). exact S. }
  unfold point_is_negative_of. cbn [fst snd].
  assert (NZ : bn_is_zero y1 = false). { destruct (bn_is_zero y1) eqn:Z; [|auto]. exfalso. apply (F_odd _ _ GA). rewrite <- EY1. apply zerov; auto. }
  rewrite NZ. destruct (bn_is_equal x1 x2) eqn:QX; cbn [negb andb] in *.
  { rewrite EQ. cbn [negb]. exists cp_infinity. split; [reflexivity|]. apply eqv in QX; [|auto|auto]. rewrite EX1, EX2 in QX. rewrite <- QX in *. clear X2 QX EX2 RB.
    rewrite (add_opposite _ _ _ _ _ _ _ _ F_field F_dec F7 F_two F_odd); [reflexivity|auto|auto|]. split; [auto|].
    destruct (same_x _ _ _ _ _ _ _ _ F_field F_dec F7 _ _ _ GA GB) as [K|K]; [|auto]. exfalso.
    assert (bn_is_equal y1 y2 = true) by (apply eqv; auto; congruence). congruence. }
  assert (NX : X1 <> X2). { intros K. assert (bn_is_equal x1 x2 = true) by (apply eqv; auto; congruence). congruence. }
  destruct (subv 1 x2 x1 BX2 (below_le 1 2 _ BX1 ltac:(lia)) ltac:(lia)) as (B1 & V1 & _). cbv zeta. set (d := bn_subtractmod x2 x1 prime_limbs) in *.
  assert (ND : v d <> F0). { rewrite V1, EX1, EX2. apply (sub_ne _ _ _ _ _ _ _ _ F_field). congruence. }
  destruct (invv d (proj1 B1) ND) as (di & E2 & B2 & V2). step E2.
  destruct (subv 1 y2 y1 BY2 (below_le 1 2 _ BY1 ltac:(lia)) ltac:(lia)) as (B3 & V3 & _). set (l0 := bn_subtractmod y2 y1 prime_limbs) in *.
  destruct (mulv 1 3 di l0 B2 B3) as (la & E4 & B4 & V4); try lia. step E4.
  destruct (mulv 2 2 la la B4 B4) as (l2 & E5 & B5 & V5); try lia. step E5.
  destruct (addmodv x1 x2 (proj1 BX1) (proj1 BX2)) as [B6 V6]. set (sx := bn_addmod x1 x2 prime_limbs) in *.
  destruct (subv 2 l2 sx B5 B6 ltac:(lia)) as (B7 & V7 & _). set (x3 := bn_subtractmod l2 sx prime_limbs) in *.
  destruct (fastv x3 (proj1 B7)) as [B10 V10]. destruct (modv _ B10) as [B11 V11]. set (x7 := bn_mod (bn_fast_mod x3 prime_limbs) prime_limbs) in *.
  destruct (subv 1 x1 x7 BX1 (below_le 1 2 _ B11 ltac:(lia)) ltac:(lia)) as (B12 & V12 & _). set (ya := bn_subtractmod x1 x7 prime_limbs) in *.
  destruct (mulv 2 3 la ya B4 B12) as (yb & E13 & B13 & V13); try lia. step E13.
  destruct (subv 2 yb y1 B13 (below_le 1 2 _ BY1 ltac:(lia)) ltac:(lia)) as (B14 & V14 & _). set (yc := bn_subtractmod yb y1 prime_limbs) in *.
  destruct (fastv yc (proj1 B14)) as [B15 V15]. destruct (modv _ B15) as [B16 V16]. set (y4 := bn_mod (bn_fast_mod yc prime_limbs) prime_limbs) in *.
  eexists. split; [reflexivity|].
  assert (SL : slopeF (v la) X1 Y1 X2 Y2).
  { apply (chord_slope _ _ _ _ _ _ _ _ F_field F7); auto. rewrite V4, V3, EY1, EY2. rewrite V1, EX1, EX2 in V2.
    transitivity ((Y1 - Y2) * ((X2 - X1) * v di))%F; [ring|]. rewrite V2. ring. }
  rewrite (F_add_slope (v la)); auto. 2:{ intros [K _]. contradiction. }
  unfold third. cbn [cprep fst snd]. split; [auto|]. split; [auto|].
  assert (EX : v x7 = (v la * v la - X1 - X2)%F) by (rewrite V11, V10, V7, V6, V5, EX1, EX2; ring). split; [exact EX|].
  rewrite V16, V15, V14, V13, V12, EX, EX1, EY1. reflexivity.
Qed.
