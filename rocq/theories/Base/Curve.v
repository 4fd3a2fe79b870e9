(** The group law of the curve y^2 = x^3 + b over any field, for curves without points of order two.
    A line is described by its slope; a chord and a tangent satisfy the same two equations. *)
From Coq Require Import Field_theory Field_tac Ring Setoid.

Section EC.
Context {F : Type}.
Variables (F0 F1 : F) (Fadd Fmul Fsub : F -> F -> F) (Fopp : F -> F) (Fdiv : F -> F -> F) (Finv : F -> F).
Variable Fth : field_theory F0 F1 Fadd Fmul Fsub Fopp Fdiv Finv eq.
Variable Feq : forall x y : F, {x = y} + {x <> y}.
Variable b : F.
Notation "0" := F0. Notation "1" := F1.
Infix "+" := Fadd. Infix "*" := Fmul. Infix "-" := Fsub. Infix "/" := Fdiv. Notation "- x" := (Fopp x).
Definition F2 : F := 1 + 1.
Definition F3 : F := 1 + F2.
Definition curve (x y : F) : Prop := y * y = x * x * x + b.
Variable two : F2 <> 0.
Variable odd : forall x y, curve x y -> y <> 0.
Add Field EcF : Fth.

Inductive pt := Inf | Aff (x y : F).
Definition good (P : pt) : Prop := match P with Inf => True | Aff x y => curve x y end.
Definition third (l x1 y1 x2 : F) : pt := let x := l * l - x1 - x2 in Aff x (l * (x1 - x) - y1).
Definition ptadd (P Q : pt) : pt :=
  match P, Q with
  | Inf, _ => Q
  | _, Inf => P
  | Aff x1 y1, Aff x2 y2 =>
      if Feq x1 x2 then if Feq y1 y2 then third ((F3 * x1 * x1) / (F2 * y1)) x1 y1 x2 else Inf
      else third ((y1 - y2) / (x1 - x2)) x1 y1 x2
  end.
Definition ptneg (P : pt) : pt := match P with Inf => Inf | Aff x y => Aff x (- y) end.

(** * Field facts *)
Lemma mul_zero : forall x y, x * y = 0 -> x = 0 \/ y = 0.
Proof.
  intros x y E. destruct (Feq x 0) as [|H]; [auto|right]. replace y with ((x * y) / x) by (field; auto). rewrite E. field. auto.
Qed.
Lemma sub_zero : forall x y, x - y = 0 -> x = y.
Proof. intros x y E. replace x with (x - y + y) by ring. rewrite E. ring. Qed.
Lemma zero_sub : forall x y, x = y -> x - y = 0.
Proof. intros x y ->. ring. Qed.
Lemma mul_cancel : forall d x y, d <> 0 -> d * x = d * y -> x = y.
Proof. intros d x y H E. replace x with ((d * x) / d) by (field; auto). rewrite E. field. auto. Qed.
Lemma sub_ne : forall x y, x <> y -> x - y <> 0.
Proof. intros x y H E. apply H, sub_zero, E. Qed.
Lemma double_zero : forall x, x + x = 0 -> x = 0.
Proof. intros x E. assert (K : F2 * x = 0) by (unfold F2; rewrite <- E; ring). apply mul_zero in K as [K|K]; [contradiction|auto]. Qed.
Lemma same_x : forall x y1 y2, curve x y1 -> curve x y2 -> y1 = y2 \/ y1 = - y2.
Proof.
  intros x y1 y2 A B. unfold curve in *. assert (K : (y1 - y2) * (y1 + y2) = 0). { transitivity (y1 * y1 - y2 * y2); [ring|]. rewrite A, B. ring. }
  apply mul_zero in K as [K|K]; [left; apply sub_zero; auto|right]. replace y1 with (y1 + y2 - y2) by ring. rewrite K. ring.
Qed.
Lemma neg_ne : forall x y, curve x y -> y <> - y.
Proof. intros x y C E. apply (odd _ _ C), double_zero. rewrite E at 1. ring. Qed.
Lemma curve_neg : forall x y, curve x y -> curve x (- y).
Proof. unfold curve. intros x y C. rewrite <- C. ring. Qed.

(** * Slopes *)
Definition is_slope (l x1 y1 x2 y2 : F) : Prop := l * (x1 - x2) = y1 - y2 /\ l * (y1 + y2) = x1 * x1 + x1 * x2 + x2 * x2.
Lemma chord_slope : forall l x1 y1 x2 y2, curve x1 y1 -> curve x2 y2 -> x1 <> x2 -> l * (x1 - x2) = y1 - y2 -> is_slope l x1 y1 x2 y2.
Proof.
  intros l x1 y1 x2 y2 A B N E. split; [auto|]. apply (mul_cancel (x1 - x2)); [apply sub_ne; auto|].
  transitivity (l * (x1 - x2) * (y1 + y2)); [ring|]. rewrite E. unfold curve in *. transitivity (y1 * y1 - y2 * y2); [ring|]. rewrite A, B. ring.
Qed.
Lemma tangent_slope : forall l x y, l * (F2 * y) = F3 * x * x -> is_slope l x y x y.
Proof. intros l x y E. split; [ring|]. transitivity (l * (F2 * y)); [unfold F2; ring|]. rewrite E. unfold F3, F2. ring. Qed.
Lemma tangent_ne : forall x y, curve x y -> F2 * y <> 0.
Proof. intros x y C E. apply mul_zero in E as [E|E]; [contradiction|exact (odd _ _ C E)]. Qed.
Definition opposite (x1 y1 x2 y2 : F) : Prop := x1 = x2 /\ y1 = - y2.
Lemma slope_unique : forall l m x1 y1 x2 y2, curve x1 y1 -> curve x2 y2 -> ~ opposite x1 y1 x2 y2 ->
  is_slope l x1 y1 x2 y2 -> is_slope m x1 y1 x2 y2 -> l = m.
Proof.
  intros l m x1 y1 x2 y2 A B N [L1 L2] [M1 M2]. destruct (Feq x1 x2) as [E|E].
  - subst x2. destruct (same_x _ _ _ A B) as [<-|K]; [|exfalso; apply N; split; auto].
    apply (mul_cancel (y1 + y1)); [intros K; apply (odd _ _ A), double_zero, K|]. transitivity (l * (y1 + y1)); [ring|]. rewrite L2, <- M2. ring.
  - apply (mul_cancel (x1 - x2)); [apply sub_ne; auto|]. transitivity (l * (x1 - x2)); [ring|]. rewrite L1, <- M1. ring.
Qed.
Lemma add_cases : forall x1 y1 x2 y2, curve x1 y1 -> curve x2 y2 ->
  (opposite x1 y1 x2 y2 /\ ptadd (Aff x1 y1) (Aff x2 y2) = Inf) \/
  (~ opposite x1 y1 x2 y2 /\ exists l, is_slope l x1 y1 x2 y2 /\ ptadd (Aff x1 y1) (Aff x2 y2) = third l x1 y1 x2).
Proof.
  intros x1 y1 x2 y2 A B. cbn [ptadd]. destruct (Feq x1 x2) as [E|E].
  - subst x2. destruct (Feq y1 y2) as [E|E].
    + subst y2. right. split; [intros [_ K]; apply (neg_ne _ _ A K)|]. eexists. split; [|reflexivity].
      apply tangent_slope. pose proof (tangent_ne _ _ A) as T. field. split; [exact (odd _ _ A)|exact two].
    + left. split; [|auto]. split; [auto|]. destruct (same_x _ _ _ A B) as [K|K]; [contradiction|auto].
  - right. split; [intros [K _]; contradiction|]. eexists. split; [|reflexivity]. apply chord_slope; auto. field. apply sub_ne; auto.
Qed.
Lemma add_slope : forall l x1 y1 x2 y2, curve x1 y1 -> curve x2 y2 -> ~ opposite x1 y1 x2 y2 -> is_slope l x1 y1 x2 y2 ->
  ptadd (Aff x1 y1) (Aff x2 y2) = third l x1 y1 x2.
Proof.
  intros l x1 y1 x2 y2 A B N L. destruct (add_cases _ _ _ _ A B) as [[K _]|[_ (m & M & ->)]]; [contradiction|].
  rewrite (slope_unique l m x1 y1 x2 y2); auto.
Qed.
Lemma add_opposite : forall x1 y1 x2 y2, curve x1 y1 -> curve x2 y2 -> opposite x1 y1 x2 y2 -> ptadd (Aff x1 y1) (Aff x2 y2) = Inf.
Proof. intros x1 y1 x2 y2 A B N. destruct (add_cases _ _ _ _ A B) as [[_ E]|[K _]]; [auto|contradiction]. Qed.

(** * The third point lies on the curve, and on the line *)
Lemma third_curve : forall l x1 y1 x2 y2, curve x1 y1 -> is_slope l x1 y1 x2 y2 -> good (third l x1 y1 x2).
Proof.
  intros l x1 y1 x2 y2 A [L1 L2]. cbn [third good]. assert (Y : y2 = y1 - l * (x1 - x2)) by (rewrite L1; ring). subst y2. unfold curve in *.
  assert (K : l * (F2 * y1) = l * l * (x1 - x2) + (x1 * x1 + x1 * x2 + x2 * x2)). { rewrite <- L2. unfold F2. ring. }
  set (x3 := l * l - x1 - x2). 
  transitivity (y1 * y1 - l * (F2 * y1) * (x1 - x3) + l * l * (x1 - x3) * (x1 - x3)); [unfold F2; ring|]. rewrite K, A. unfold x3. ring.
Qed.
Lemma third_slope : forall l x1 y1 x2 y2 x3 y3, is_slope l x1 y1 x2 y2 -> third l x1 y1 x2 = Aff x3 y3 -> is_slope (- l) x1 (- y1) x3 y3.
Proof.
  intros l x1 y1 x2 y2 x3 y3 [L1 L2] E. cbn [third] in E. injection E as E3 E4. assert (Y : y2 = y1 - l * (x1 - x2)) by (rewrite L1; ring). subst y2.
  assert (K : l * (F2 * y1) = l * l * (x1 - x2) + (x1 * x1 + x1 * x2 + x2 * x2)). { rewrite <- L2. unfold F2. ring. }
  rewrite E3 in E4. subst y3. split; [ring|]. transitivity (l * (F2 * y1) - l * l * (x1 - x3)); [unfold F2; ring|]. rewrite K. rewrite <- E3. ring.
Qed.
Lemma slope_comm : forall l x1 y1 x2 y2, is_slope l x1 y1 x2 y2 -> is_slope l x2 y2 x1 y1.
Proof. intros l x1 y1 x2 y2 [L1 L2]. split; [transitivity (- (l * (x1 - x2))); [ring|rewrite L1; ring]|transitivity (l * (y1 + y2)); [ring|rewrite L2; ring]]. Qed.
Lemma third_comm : forall l x1 y1 x2 y2, is_slope l x1 y1 x2 y2 -> third l x1 y1 x2 = third l x2 y2 x1.
Proof.
  intros l x1 y1 x2 y2 [L1 _]. unfold third. replace (l * l - x2 - x1) with (l * l - x1 - x2) by ring. f_equal.
  replace y1 with (y2 + l * (x1 - x2)) by (rewrite L1; ring). ring.
Qed.
Lemma opposite_comm : forall x1 y1 x2 y2, opposite x1 y1 x2 y2 -> opposite x2 y2 x1 y1.
Proof. intros x1 y1 x2 y2 [-> ->]. split; [auto|ring]. Qed.

(** * Group laws *)
Lemma ptadd_good : forall P Q, good P -> good Q -> good (ptadd P Q).
Proof.
  intros [|x1 y1] [|x2 y2] A B; auto. destruct (add_cases _ _ _ _ A B) as [[_ ->]|[_ (l & L & ->)]]; [exact I|]. eapply third_curve; eauto.
Qed.
Lemma ptneg_good : forall P, good P -> good (ptneg P).
Proof. intros [|x y] H; [exact I|apply curve_neg, H]. Qed.
Lemma ptadd_comm : forall P Q, good P -> good Q -> ptadd P Q = ptadd Q P.
Proof.
  intros [|x1 y1] [|x2 y2] A B; auto. destruct (add_cases _ _ _ _ A B) as [[N ->]|[N (l & L & ->)]].
  - symmetry. apply add_opposite; auto. apply opposite_comm; auto.
  - rewrite (add_slope l x2 y2 x1 y1); auto; [apply third_comm; auto|intros K; apply N, opposite_comm, K|apply slope_comm; auto].
Qed.
Lemma ptadd_inf_r : forall P, ptadd P Inf = P.
Proof. intros [|x y]; reflexivity. Qed.
Lemma ptadd_neg : forall P, good P -> ptadd P (ptneg P) = Inf.
Proof. intros [|x y] H; [reflexivity|]. cbn [ptneg]. apply add_opposite; auto; [apply curve_neg, H|split; [auto|ring]]. Qed.
Lemma ptneg_neg : forall P, ptneg (ptneg P) = P.
Proof. intros [|x y]; [reflexivity|]. cbn [ptneg]. f_equal. ring. Qed.
Lemma ptneg_add : forall P Q, good P -> good Q -> ptneg (ptadd P Q) = ptadd (ptneg P) (ptneg Q).
Proof.
  intros [|x1 y1] [|x2 y2] A B; auto. cbn [good] in A, B. destruct (add_cases _ _ _ _ A B) as [[N ->]|[N (l & L & ->)]]; cbn [ptneg].
  - symmetry. apply add_opposite; try (apply curve_neg; auto). destruct N as [-> ->]. split; auto.
  - rewrite (add_slope (- l)); try (apply curve_neg; auto).
    + unfold third. cbn [ptneg]. f_equal; ring.
    + intros [K1 K2]. apply N. split; [auto|]. replace y1 with (- - y1) by ring. rewrite K2. ring.
    + destruct L as [L1 L2]. split; [transitivity (- (l * (x1 - x2))); [ring|rewrite L1; ring]|transitivity (l * (y1 + y2)); [ring|auto]].
Qed.
(** P + Q - P = Q. *)
Lemma cancel : forall P Q, good P -> good Q -> ptadd (ptneg P) (ptadd P Q) = Q.
Proof.
  intros [|x1 y1] Q A B; [reflexivity|]. destruct Q as [|x2 y2].
  { rewrite ptadd_inf_r, ptadd_comm; auto; [apply ptadd_neg; auto|apply ptneg_good; auto]. }
  cbn [good] in A, B. destruct (add_cases _ _ _ _ A B) as [[N ->]|[N (l & L & E)]].
  - rewrite ptadd_inf_r. destruct N as [-> ->]. cbn [ptneg]. f_equal. ring.
  - rewrite E. pose proof (third_curve _ _ _ _ _ A L) as T. destruct (third l x1 y1 x2) as [|x3 y3] eqn:E3; [discriminate|]. cbn [good] in T.
    pose proof (third_slope _ _ _ _ _ _ _ L E3) as S3. cbn [ptneg]. cbn [third] in E3. injection E3 as E3 E4. rewrite (add_slope (- l)); auto.
    + unfold third. destruct L as [L1 _]. assert (X : - l * - l - x1 - x3 = x2) by (rewrite <- E3; ring). rewrite X. f_equal.
      transitivity (y1 - l * (x1 - x2)); [ring|]. rewrite L1. ring.
    + apply curve_neg; auto.
    + intros [K1 K2]. rewrite E3 in E4. rewrite <- K1 in E4. apply (neg_ne _ _ A).
      assert (Y : y3 = - y1) by (rewrite <- E4; ring). rewrite Y in K2. rewrite K2. ring.
Qed.
Lemma cancel_l : forall P Q R, good P -> good Q -> good R -> ptadd P Q = ptadd P R -> Q = R.
Proof. intros P Q R A B C E. rewrite <- (cancel P Q A B), E. apply cancel; auto. Qed.

(** * Associativity: all sums chords or tangents, and the outer ones chords *)
Lemma assoc_generic : forall x1 y1 x2 y2 x3 y3 l m n k xA yA xB yB, is_slope l x1 y1 x2 y2 -> is_slope m x2 y2 x3 y3 ->
  third l x1 y1 x2 = Aff xA yA -> third m x2 y2 x3 = Aff xB yB -> xA <> x3 -> x1 <> xB ->
  n * (xA - x3) = yA - y3 -> k * (x1 - xB) = y1 - yB -> third n xA yA x3 = third k x1 y1 xB.
Proof.
  intros x1 y1 x2 y2 x3 y3 l m n k xA yA xB yB [L1 L2] [M1 M2] EA EB NA NB SN SK.
  assert (Y1 : y1 = y2 + l * (x1 - x2)) by (rewrite L1; ring).
  assert (Y3 : y3 = y2 + m * (x3 - x2)). { transitivity (y2 - m * (x2 - x3)); [rewrite M1; ring|ring]. }
  assert (R : x1 * x1 = l * (y2 + y2 + l * (x1 - x2)) - x1 * x2 - m * (y2 + y2 + m * (x3 - x2)) + x3 * x3 + x3 * x2).
  { transitivity (l * (y1 + y2) - x1 * x2 - x2 * x2); [rewrite L2; ring|]. transitivity (l * (y1 + y2) - x1 * x2 - m * (y2 + y3) + x3 * x3 + x3 * x2); [rewrite M2; ring|].
    rewrite Y1, Y3. ring. }
  clear L1 M1 L2 M2. cbn [third] in EA, EB. injection EA as EA1 EA2. injection EB as EB1 EB2. rewrite EA1 in EA2. rewrite EB1 in EB2.
  assert (YB : yB = m * (x3 - xB) - y3) by (rewrite <- EB2, Y3; ring). clear EB2.
  assert (HX : n * n - xA - x3 = k * k - x1 - xB).
  { apply (mul_cancel ((xA - x3) * (xA - x3) * ((x1 - xB) * (x1 - xB)))).
    { intros K. apply mul_zero in K as [K|K]; apply mul_zero in K as [K|K]; apply sub_zero in K; contradiction. }
    transitivity ((n * (xA - x3)) * (n * (xA - x3)) * ((x1 - xB) * (x1 - xB)) - (xA + x3) * ((xA - x3) * (xA - x3) * ((x1 - xB) * (x1 - xB)))); [ring|].
    transitivity ((k * (x1 - xB)) * (k * (x1 - xB)) * ((xA - x3) * (xA - x3)) - (x1 + xB) * ((xA - x3) * (xA - x3) * ((x1 - xB) * (x1 - xB)))); [|ring].
    rewrite SN, SK. clear SN SK NA NB. subst yA yB y1 y3 xA xB. ring [R]. }
  unfold third. rewrite <- HX. f_equal. set (X := n * n - xA - x3).
  apply (mul_cancel ((xA - x3) * (xA - x3) * (xA - x3) * (x1 - xB))).
  { intros K. repeat (apply mul_zero in K as [K|K]); apply sub_zero in K; contradiction. }
  assert (KX : X * ((xA - x3) * (xA - x3)) = (n * (xA - x3)) * (n * (xA - x3)) - (xA + x3) * ((xA - x3) * (xA - x3))) by (unfold X; ring).
  transitivity ((n * (xA - x3)) * (xA * ((xA - x3) * (xA - x3)) - X * ((xA - x3) * (xA - x3))) * (x1 - xB) - yA * ((xA - x3) * (xA - x3) * (xA - x3) * (x1 - xB))); [ring|].
  transitivity ((k * (x1 - xB)) * (x1 * ((xA - x3) * (xA - x3)) - X * ((xA - x3) * (xA - x3))) * (xA - x3) - y1 * ((xA - x3) * (xA - x3) * (xA - x3) * (x1 - xB))); [|ring].
  rewrite KX, SN, SK. clear SN SK NA NB KX HX X. subst yA yB y1 y3 xA xB. ring [R].
Qed.
(** The sum of the first two is the third: the outer sum on the left is a tangent. *)
Lemma assoc_tangent : forall x1 y1 x2 y2 x3 y3 l m n k xB yB, is_slope l x1 y1 x2 y2 -> is_slope m x2 y2 x3 y3 ->
  third l x1 y1 x2 = Aff x3 y3 -> third m x2 y2 x3 = Aff xB yB -> y3 <> 0 -> x1 <> xB ->
  n * (F2 * y3) = F3 * x3 * x3 -> k * (x1 - xB) = y1 - yB -> third n x3 y3 x3 = third k x1 y1 xB.
Proof.
  intros x1 y1 x2 y2 x3 y3 l m n k xB yB [L1 L2] [M1 M2] EA EB NA NB SN SK.
  assert (Y1 : y1 = y2 + l * (x1 - x2)) by (rewrite L1; ring).
  assert (Y3 : y3 = y2 + m * (x3 - x2)). { transitivity (y2 - m * (x2 - x3)); [rewrite M1; ring|ring]. }
  assert (ND : F2 * y3 <> 0) by (intros K; apply mul_zero in K as [K|K]; contradiction).
  cbn [third] in EA, EB. injection EA as EA1 EA2. injection EB as EB1 EB2. rewrite EA1 in EA2. rewrite EB1 in EB2.
  assert (YB : yB = m * (x3 - xB) - y3) by (rewrite <- EB2, Y3; ring). clear EB2.
  assert (X1 : x1 = l * l - x2 - x3) by (rewrite <- EA1; ring).
  assert (H : exists h, m = F2 * h - l) by (exists ((l + m) / F2); field; exact two). destruct H as [h ->].
  assert (Y2 : y2 = h * (x2 - x3)).
  { apply (mul_cancel F2); [exact two|]. transitivity (y1 + y3 - l * (x1 - x2) - (F2 * h - l) * (x3 - x2)); [rewrite Y1, Y3; unfold F2; ring|]. rewrite <- EA2. unfold F2. ring. }
  assert (T : F3 * x3 * x3 = F3 * x3 * x3 + (l * (y1 + y2) - (x1 * x1 + x1 * x2 + x2 * x2))) by (rewrite L2; ring). rewrite T in SN. clear T.
  assert (HX : n * n - x3 - x3 = k * k - x1 - xB).
  { apply (mul_cancel ((F2 * y3) * (F2 * y3) * ((x1 - xB) * (x1 - xB)))).
    { intros K. apply mul_zero in K as [K|K]; apply mul_zero in K as [K|K]; try contradiction; apply sub_zero in K; contradiction. }
    transitivity ((n * (F2 * y3)) * (n * (F2 * y3)) * ((x1 - xB) * (x1 - xB)) - (x3 + x3) * ((F2 * y3) * (F2 * y3) * ((x1 - xB) * (x1 - xB)))); [ring|].
    transitivity ((k * (x1 - xB)) * (k * (x1 - xB)) * ((F2 * y3) * (F2 * y3)) - (x1 + xB) * ((F2 * y3) * (F2 * y3) * ((x1 - xB) * (x1 - xB)))); [|ring].
    rewrite SN, SK. clear SN SK NA NB ND L1 L2 M1 M2 EA1 EA2. subst yB y3 y1 y2 xB x1. unfold F3, F2. ring. }
  unfold third. rewrite <- HX. f_equal. set (X := n * n - x3 - x3).
  apply (mul_cancel ((F2 * y3) * (F2 * y3) * (F2 * y3) * (x1 - xB))).
  { intros K. do 3 try (apply mul_zero in K as [K|K]); try contradiction; apply sub_zero in K; contradiction. }
  assert (KX : X * ((F2 * y3) * (F2 * y3)) = (n * (F2 * y3)) * (n * (F2 * y3)) - (x3 + x3) * ((F2 * y3) * (F2 * y3))) by (unfold X; ring).
  transitivity ((n * (F2 * y3)) * (x3 * ((F2 * y3) * (F2 * y3)) - X * ((F2 * y3) * (F2 * y3))) * (x1 - xB) - y3 * ((F2 * y3) * (F2 * y3) * (F2 * y3) * (x1 - xB))); [ring|].
  transitivity ((k * (x1 - xB)) * (x1 * ((F2 * y3) * (F2 * y3)) - X * ((F2 * y3) * (F2 * y3))) * (F2 * y3) - y1 * ((F2 * y3) * (F2 * y3) * (F2 * y3) * (x1 - xB))); [|ring].
  rewrite KX, SN, SK. clear SN SK NA NB ND KX HX X L1 L2 M1 M2 EA1 EA2. subst yB y3 y1 y2 xB x1. unfold F3, F2. ring.
Qed.
Lemma assoc_half : forall P Q R, good P -> good Q -> good R -> P <> Inf -> Q <> Inf -> R <> Inf -> ptadd P Q <> Inf -> ptadd Q R <> Inf ->
  ptadd (ptadd P Q) R <> Inf -> ptadd P (ptadd Q R) <> Inf -> ptadd Q R <> P -> ptadd (ptadd P Q) R = ptadd P (ptadd Q R).
Proof.
  intros [|x1 y1] [|x2 y2] [|x3 y3] A B C; try congruence. intros _ _ _ N1 N2 N3 N4 N5. pose proof (ptadd_good _ _ A B) as GA. pose proof (ptadd_good _ _ B C) as GB. cbn [good] in A, B, C.
  destruct (add_cases _ _ _ _ A B) as [[_ K]|[_ (l & L & EA)]]; [contradiction|]. destruct (add_cases _ _ _ _ B C) as [[_ K]|[_ (m & M & EB)]]; [contradiction|].
  rewrite EA, EB in *. destruct (third l x1 y1 x2) as [|xA yA] eqn:TA; [contradiction|]. destruct (third m x2 y2 x3) as [|xB yB] eqn:TB; [contradiction|]. cbn [good] in GA, GB.
  destruct (add_cases _ _ _ _ GA C) as [[_ K]|[OA (n & SN & ->)]]; [contradiction|]. destruct (add_cases _ _ _ _ A GB) as [[_ K]|[OB (k & SK & ->)]]; [contradiction|].
  assert (NB : x1 <> xB). { intros ->. destruct (same_x _ _ _ A GB) as [->|K]; [apply N5; auto|apply OB; split; auto]. }
  destruct (Feq xA x3) as [E|E].
  - subst x3. destruct (same_x _ _ _ GA C) as [<-|K]; [|exfalso; apply OA; split; auto].
    apply (assoc_tangent x1 y1 x2 y2 xA yA l m n k xB yB); auto; [exact (odd _ _ GA)| |exact (proj1 SK)].
    destruct SN as [_ S2]. transitivity (n * (yA + yA)); [unfold F2; ring|]. rewrite S2. unfold F3, F2. ring.
  - apply (assoc_generic x1 y1 x2 y2 x3 y3 l m n k xA yA xB yB); auto; [exact (proj1 SN)|exact (proj1 SK)].
Qed.
Lemma neg_ne_pt : forall P, good P -> P <> Inf -> ptneg P <> P.
Proof. intros [|x y] H N E; [contradiction|]. cbn [ptneg] in E. injection E as E. apply (neg_ne _ _ H). auto. Qed.
Lemma pt_dec : forall P Q : pt, {P = Q} + {P <> Q}.
Proof. decide equality. Qed.
Lemma sum_inf : forall P Q, good P -> good Q -> ptadd P Q = Inf -> Q = ptneg P.
Proof. intros P Q A B E. rewrite <- (cancel P Q A B), E. apply ptadd_inf_r. Qed.
Theorem ptadd_assoc : forall P Q R, good P -> good Q -> good R -> ptadd (ptadd P Q) R = ptadd P (ptadd Q R).
Proof.
  intros P Q R A B C.
  destruct (pt_dec P Inf) as [->|N1]; [reflexivity|]. destruct (pt_dec Q Inf) as [->|N2]; [rewrite ptadd_inf_r; reflexivity|].
  destruct (pt_dec R Inf) as [->|N3]; [rewrite !ptadd_inf_r; reflexivity|].
  pose proof (ptadd_good _ _ A B) as GA. pose proof (ptadd_good _ _ B C) as GB.
  destruct (pt_dec (ptadd P Q) Inf) as [E|N4].
  { rewrite E. cbn [ptadd]. apply sum_inf in E; auto. subst Q. rewrite <- (ptneg_neg P) at 1. symmetry. apply cancel; auto. }
  destruct (pt_dec (ptadd Q R) Inf) as [E|N5].
  { rewrite E, ptadd_inf_r. apply sum_inf in E; auto. subst R. rewrite (ptadd_comm P Q), (ptadd_comm (ptadd Q P)); auto; [apply cancel; auto|apply ptadd_good; auto]. }
  destruct (pt_dec (ptadd (ptadd P Q) R) Inf) as [E|N6].
  { rewrite E. apply sum_inf in E; auto. subst R. rewrite ptneg_add by auto. symmetry. rewrite (ptadd_comm (ptneg P)) by (apply ptneg_good; auto).
    rewrite <- (ptneg_neg Q) at 1. rewrite cancel by (apply ptneg_good; auto). apply ptadd_neg; auto. }
  destruct (pt_dec (ptadd P (ptadd Q R)) Inf) as [E|N7].
  { rewrite E. apply sum_inf in E; auto. assert (P = ptneg (ptadd Q R)) as -> by (rewrite E, ptneg_neg; auto). rewrite ptneg_add by auto.
    assert (K : ptadd (ptadd (ptneg Q) (ptneg R)) Q = ptneg R).
    { rewrite ptadd_comm; auto; [|apply ptadd_good; apply ptneg_good; auto]. rewrite <- (ptneg_neg Q) at 1. apply cancel; apply ptneg_good; auto. }
    rewrite K, ptadd_comm; auto; try (apply ptneg_good; auto). apply ptadd_neg; auto. }
  destruct (pt_dec (ptadd Q R) P) as [E|N8]; [|apply assoc_half; auto].
  assert (N9 : ptadd P Q <> R).
  { intros E2. apply (neg_ne_pt Q B N2). apply (cancel_l P); auto; [apply ptneg_good; auto|]. rewrite E2. rewrite (ptadd_comm P) by (auto; apply ptneg_good; auto).
    rewrite <- E. apply cancel; auto. }
  symmetry. rewrite (ptadd_comm P (ptadd Q R)), (ptadd_comm (ptadd P Q) R), (ptadd_comm P Q), (ptadd_comm Q R) by auto.
  apply assoc_half; auto; rewrite ?(ptadd_comm R Q), ?(ptadd_comm Q P), ?(ptadd_comm R (ptadd P Q)), ?(ptadd_comm (ptadd Q R) P) by auto; auto.
Qed.
End EC.
