(** The table of multiples of the generator, and the order of the generator. *)
From Coq Require Import Lia Znumtheory.
From Verif Require Import Base.Bytes Base.BytesFacts Base.Curve Base.Fermat Spec.Bignum Spec.Keys Spec.Point Spec.Curve Model.Bignum Model.Scalar Model.Stream Model.Point Model.CurveTable Model.EC
  Proof.BnCore Proof.BnRed Proof.ScalarProps Proof.PointFacts Proof.CurveFacts Proof.EcField Proof.EcPoint Proof.EcGroup Proof.EcRecode Proof.EcMult Proof.EcHints.
Open Scope Z_scope.
Local Hint Resolve smul_point ec_neg_point ec_add_point : core.

(** ** Checking one addition *)
Definition p_zero (d : Z) : bool := let r := p_red d in (r =? 0) || (r =? field_prime) || (r =? - field_prime).
Lemma p_zero_ok : forall d, p_zero d = true -> (P | d).
Proof.
  intros d H. unfold p_zero in H. cbv zeta in H. pose proof (p_red_ok d) as R. replace d with (p_red d - (p_red d - d)) by ring. apply Z.divide_sub_r; [|exact R].
  apply orb_true_iff in H as [H|H]; [apply orb_true_iff in H as [H|H]|]; apply Z.eqb_eq in H; rewrite H; [apply Z.divide_0_r|apply Z.divide_refl|apply Z.divide_opp_r, Z.divide_refl].
Qed.
Lemma div_toF : forall x y, (P | x - y) -> toF x = toF y.
Proof. intros x y D. apply toF_eq. apply divide_mod_eq; auto. Qed.
Definition in_field (x : Z) : bool := (0 <=? x) && (x <? field_prime).
Definition third_chk (l x1 y1 x2 x3 y3 : Z) : bool := in_field x3 && in_field y3 && p_zero (l * l - (x1 + x2 + x3)) && p_zero (l * (x1 - x3) - (y1 + y3)).
Definition add_chk (l x1 y1 x2 y2 x3 y3 : Z) : bool := negb (x1 =? x2) && p_zero (l * (x1 - x2) - (y1 - y2)) && third_chk l x1 y1 x2 x3 y3.
Definition dbl_chk (l x y x3 y3 : Z) : bool := p_zero (l * (2 * y) - 3 * (x * x)) && third_chk l x y x x3 y3.
Lemma in_field_ok : forall x, in_field x = true -> 0 <= x < P.
Proof. intros x H. apply andb_true_iff in H as [A B]. apply Z.leb_le in A. apply Z.ltb_lt in B. auto. Qed.
Lemma third_chk_ok : forall l x1 y1 x2 x3 y3 r, third_chk l x1 y1 x2 x3 y3 = true -> is_point r -> toP r = thirdF (toF l) (toF x1) (toF y1) (toF x2) -> r = Some (x3, y3).
Proof.
  intros l x1 y1 x2 x3 y3 r H R E. apply andb_true_iff in H as [H C4]. apply andb_true_iff in H as [H C3]. apply andb_true_iff in H as [C1 C2].
  apply in_field_ok in C1, C2. apply p_zero_ok in C3, C4. rewrite <- third_toP in E. unfold ec_third in E. cbn [toP] in E. destruct r as [[x y]|]; [|discriminate]. cbn [toP] in E.
  pose proof (f_equal (fun a => match a with Aff u _ => u | Inf => F0 end) E) as EX. pose proof (f_equal (fun a => match a with Aff _ u => u | Inf => F0 end) E) as EY. cbv beta iota in EX, EY. apply toF_eq in EX, EY. destruct R as (RX & RY & _). rewrite (Z.mod_small x), Z.mod_mod in EX by lia. rewrite (Z.mod_small y), Z.mod_mod in EY by lia.
  assert (X3 : x = x3). { rewrite EX. rewrite <- (Z.mod_small x3 P) by lia. apply divide_mod_eq. replace (l * l - x1 - x2 - x3) with (l * l - (x1 + x2 + x3)) by ring. exact C3. }
  rewrite <- EX, X3 in EY. f_equal. f_equal; [exact X3|]. rewrite EY. rewrite <- (Z.mod_small y3 P) by lia. apply divide_mod_eq. replace (l * (x1 - x3) - y1 - y3) with (l * (x1 - x3) - (y1 + y3)) by ring. exact C4.
Qed.
Lemma F_range_inj : forall x y, 0 <= x < P -> 0 <= y < P -> toF x = toF y -> x = y.
Proof. intros x y X Y E. apply toF_eq in E. rewrite !Z.mod_small in E by lia. exact E. Qed.
Lemma add_chk_ok : forall l x1 y1 x2 y2 x3 y3, is_point (Some (x1, y1)) -> is_point (Some (x2, y2)) -> add_chk l x1 y1 x2 y2 x3 y3 = true ->
  ec_add (Some (x1, y1)) (Some (x2, y2)) = Some (x3, y3).
Proof.
  intros l x1 y1 x2 y2 x3 y3 A B H. apply andb_true_iff in H as [H C3]. apply andb_true_iff in H as [C1 C2]. apply negb_true_iff, Z.eqb_neq in C1. apply p_zero_ok in C2.
  apply (third_chk_ok l x1 y1 x2 x3 y3); [auto|apply ec_add_point; auto|]. rewrite add_toP by auto. cbn [toP].
  assert (NX : toF x1 <> toF x2) by (intros K; apply C1, F_range_inj; [apply A|apply B|exact K]).
  apply F_add_slope; [apply (good_toP _ A)|apply (good_toP _ B)|intros [K _]; contradiction|].
  apply (chord_slope _ _ _ _ _ _ _ _ F_field F7); [apply (good_toP _ A)|apply (good_toP _ B)|auto|]. rewrite !toF_sub, toF_mul. apply div_toF. exact C2.
Qed.
Lemma dbl_chk_ok : forall l x y x3 y3, is_point (Some (x, y)) -> dbl_chk l x y x3 y3 = true -> ec_add (Some (x, y)) (Some (x, y)) = Some (x3, y3).
Proof.
  intros l x y x3 y3 A H. apply andb_true_iff in H as [C1 C2]. apply p_zero_ok in C1.
  apply (third_chk_ok l x y x x3 y3); [auto|apply ec_add_point; auto|]. rewrite add_toP by auto. cbn [toP]. pose proof (good_toP _ A) as G. cbn [toP good] in G.
  apply F_add_slope; [auto|auto|intros [_ K]; apply (neg_ne _ _ _ _ _ _ _ _ F_field F_dec F7 F_two F_odd _ _ G K)|].
  apply (tangent_slope _ _ _ _ _ _ _ _ F_field). unfold F3, F2. rewrite <- toF3, <- toF2. rewrite !toF_mul. apply div_toF. replace (3 * x * x) with (3 * (x * x)) by ring. exact C1.
Qed.

(** ** The rows *)
Definition norm_chk (x : list Z) : bool := (length x =? 9)%nat && forallb (fun d => (0 <=? d) && (d <? 2^30)) x.
Lemma norm_chk_ok : forall x, norm_chk x = true -> normalized x.
Proof.
  intros x H. apply andb_true_iff in H as [A B]. apply Nat.eqb_eq in A. split; [auto|]. apply Forall_forall. intros d D. rewrite forallb_forall in B. specialize (B d D).
  apply andb_true_iff in B as [B C]. apply Z.leb_le in B. apply Z.ltb_lt in C. auto.
Qed.
Definition point_val (q : cpoint) : Z * Z := (bn_val (fst q), bn_val (snd q)).
Lemma crep_val : forall q, normalized (fst q) -> normalized (snd q) -> is_point (Some (point_val q)) -> crep q (Some (point_val q)).
Proof.
  intros [x y] NX NY R. cbn [fst snd] in *. unfold point_val in *. cbn [fst snd] in *. split; [auto|]. destruct R as (RX & RY & _). cbn [toP cprep fst snd]. unfold below, v. repeat split; try apply NX; try apply NY; lia.
Qed.
Fixpoint row_chk (tx ty : Z) (x y : Z) (pts : list (Z * Z)) (ls : list Z) : bool :=
  match pts, ls with
  | [], [] => true
  | (x', y') :: pts, l :: ls => add_chk l x y tx ty x' y' && row_chk tx ty x' y' pts ls
  | _, _ => false
  end.
Lemma row_chk_ok : forall g, is_point g -> forall m tx ty pts ls x y k, is_point (Some (x, y)) -> Some (x, y) = smul k g -> Some (tx, ty) = smul (2 * m) g -> row_chk tx ty x y pts ls = true ->
  forall j q, nth_error pts j = Some q -> Some q = smul (k + 2 * m * (Z.of_nat j + 1)) g.
Proof.
  intros g G m tx ty. induction pts as [|[x' y'] pts IH]; intros [|l ls] x y k PX X T H j q Q; try discriminate; [destruct j; discriminate|]. cbn [row_chk] in H. apply andb_true_iff in H as [H1 H2].
  assert (E : Some (x', y') = smul (k + 2 * m) g). { rewrite smul_add, <- X, <- T by auto. symmetry. apply (add_chk_ok l); auto. rewrite T. auto. }
  destruct j as [|j]; cbn [nth_error] in Q.
  - injection Q as <-. rewrite E. f_equal. lia.
  - replace (k + 2 * m * (Z.of_nat (S j) + 1)) with (k + 2 * m + 2 * m * (Z.of_nat j + 1)) by lia. apply (IH ls x' y'); auto. rewrite E. auto.
Qed.
Definition hint : Type := ((Z * Z * Z) * list Z * (Z * Z * Z))%type.
Fixpoint rows_chk (x y : Z) (rows : list (list (Z * Z))) (hs : list hint) : option (Z * Z) :=
  match rows, hs with
  | [], [] => Some (x, y)
  | ((x0, y0) :: pts) :: rows, ((l, tx, ty), ls, (m, nx, ny)) :: hs =>
      let '(x7, y7) := last pts (0, 0) in
      if (x =? x0) && (y =? y0) && (length pts =? 7)%nat && dbl_chk l x y tx ty && row_chk tx ty x y pts ls && add_chk m x7 y7 x y nx ny then rows_chk nx ny rows hs else None
  | _, _ => None
  end.
Lemma last_nth : forall {A} (l : list A) d n, length l = S n -> nth_error l n = Some (last l d).
Proof.
  induction l as [|x l IH]; intros d n L; [discriminate|]. destruct l as [|y l]; [cbn [length] in L; assert (n = O) as -> by lia; reflexivity|].
  destruct n; [discriminate|]. cbn [nth_error]. change (last (x :: y :: l) d) with (last (y :: l) d). apply IH. cbn [length] in *. lia.
Qed.
Lemma rows_chk_ok : forall g, is_point g -> forall rows hs x y k r, Some (x, y) = smul k g -> rows_chk x y rows hs = Some r ->
  (forall i row, nth_error rows i = Some row -> length row = 8%nat /\ forall j q, nth_error row j = Some q -> Some q = smul (16 ^ Z.of_nat i * (2 * Z.of_nat j + 1) * k) g) /\ Some r = smul (16 ^ len rows * k) g.
Proof.
  intros g G. induction rows as [|row rows IH]; intros [|[[[[l tx] ty] ls] [[m nx] ny]] hs] x y k r X H; try (destruct row as [|[? ?] ?]; discriminate); try discriminate; cbn [rows_chk] in H.
  { injection H as <-. split; [intros [|i] row; discriminate|]. rewrite X. f_equal. change (len (@nil (list (Z*Z)))) with 0. lia. }
  destruct row as [|[x0 y0] pts]; [discriminate|]. destruct (last pts (0, 0)) as [x7 y7] eqn:LA. destruct (_ && _) eqn:C in H; [|discriminate].
  apply andb_true_iff in C as [C C6]. apply andb_true_iff in C as [C C5]. apply andb_true_iff in C as [C C4]. apply andb_true_iff in C as [C C3]. apply andb_true_iff in C as [C1 C2].
  apply Z.eqb_eq in C1, C2. subst x0 y0. apply Nat.eqb_eq in C3.
  assert (PX : is_point (Some (x, y))) by (rewrite X; auto).
  assert (T : Some (tx, ty) = smul (2 * k) g). { replace (2 * k) with (k + k) by lia. rewrite smul_add, <- X by auto. symmetry. apply (dbl_chk_ok l); auto. }
  pose proof (row_chk_ok g G k tx ty pts ls x y k PX X T C5) as ROW.
  pose proof (ROW 6%nat (x7, y7)) as R7. rewrite <- LA in R7. specialize (R7 (last_nth pts (0, 0) 6 C3)). rewrite LA in R7.
  assert (NX : Some (nx, ny) = smul (16 * k) g). { replace (16 * k) with (k + 2 * k * (Z.of_nat 6 + 1) + k) by lia. rewrite smul_add, <- X, <- R7 by auto. symmetry. apply (add_chk_ok m); auto. rewrite R7. auto. }
  destruct (IH hs nx ny (16 * k) r NX H) as [A B]. split.
  - intros [|i] row Q; cbn [nth_error] in Q.
    + injection Q as <-. split; [cbn [length]; lia|]. intros [|j] q E; cbn [nth_error] in E.
      * injection E as <-. rewrite X. f_equal. change (16 ^ Z.of_nat 0) with 1. lia.
      * rewrite (ROW j q E). f_equal. change (16 ^ Z.of_nat 0) with 1. lia.
    + destruct (A i row Q) as [L D]. split; [auto|]. intros j q E. rewrite (D j q E). f_equal. rewrite Nat2Z.inj_succ, Z.pow_succ_r by lia. ring.
  - rewrite B. f_equal. replace (len ((((x, y) :: pts) :: rows))) with (1 + len rows) by (unfold len; cbn [length]; lia). rewrite Z.pow_add_r by (unfold len; lia). ring.
Qed.

Definition table_vals : list (list (Z * Z)) := map (map point_val) cp_table.
Definition top_x : Z := let '(_, _, (_, x, _)) := last row_hints ((0, 0, 0), [], (0, 0, 0)) in x.
Definition top_y : Z := let '(_, _, (_, _, y)) := last row_hints ((0, 0, 0), [], (0, 0, 0)) in y.
Lemma table_norm : forallb (forallb (fun q => norm_chk (fst q) && norm_chk (snd q))) cp_table = true.
Proof. vm_compute. reflexivity. Qed.
Lemma table_chk : rows_chk gen_x gen_y table_vals row_hints = Some (top_x, top_y).
Proof. vm_compute. reflexivity. Qed.
Lemma table_len : length cp_table = 64%nat.
Proof. vm_compute. reflexivity. Qed.
Lemma gen_point : is_point gen.
Proof. vm_compute. intuition discriminate. Qed.
Lemma table_val : forall i row j q, nth_error table_vals i = Some row -> nth_error row j = Some q -> Some q = smul (16 ^ Z.of_nat i * (2 * Z.of_nat j + 1)) gen.
Proof.
  intros i row j q R Q. destruct (rows_chk_ok gen gen_point table_vals row_hints gen_x gen_y 1 _ (eq_sym (smul_1 gen)) table_chk) as [T _].
  destruct (T i row R) as [_ D]. rewrite (D j q Q). f_equal. lia.
Qed.
Lemma table_row_len : forall i row, nth_error table_vals i = Some row -> length row = 8%nat.
Proof. intros i row R. destruct (rows_chk_ok gen gen_point table_vals row_hints gen_x gen_y 1 _ (eq_sym (smul_1 gen)) table_chk) as [T _]. apply (T i row R). Qed.
Lemma table_rows : forall i : nat, (i < 64)%nat -> row_ok gen (Z.of_nat i) (nth i cp_table []).
Proof.
  intros i I j J. destruct (nth_error cp_table i) as [row|] eqn:R; [|apply nth_error_None in R; rewrite table_len in R; lia]. rewrite (nth_error_nth _ _ _ R).
  assert (RV : nth_error table_vals i = Some (map point_val row)) by (unfold table_vals; apply map_nth_error; auto).
  pose proof (table_row_len i _ RV) as L. rewrite map_length in L. destruct (nth_error row j) as [q|] eqn:Q; [|apply nth_error_None in Q; lia]. exists q. split; [reflexivity|].
  assert (QV : nth_error (map point_val row) j = Some (point_val q)) by (apply map_nth_error; auto).
  rewrite <- (table_val i _ j _ RV QV). pose proof table_norm as TN. rewrite forallb_forall in TN. specialize (TN row (nth_error_In _ _ R)). rewrite forallb_forall in TN. specialize (TN q (nth_error_In _ _ Q)).
  apply andb_true_iff in TN as [N1 N2]. apply norm_chk_ok in N1, N2. apply crep_val; auto. rewrite (table_val i _ j _ RV QV). apply smul_point, gen_point.
Qed.

(** ** The order of the generator *)
Definition signed_at (row : list (Z * Z)) (d : Z) : option (Z * Z) :=
  let j := Z.to_nat ((Z.abs d - 1) / 2) in
  match nth_error row j with
  | Some (x, y) => if 2 * Z.of_nat j + 1 =? Z.abs d then Some (x, if d <? 0 then field_prime - y else y) else None
  | None => None
  end.
Lemma signed_at_ok : forall i row d x y, nth_error table_vals i = Some row -> signed_at row d = Some (x, y) -> Some (x, y) = smul (16 ^ Z.of_nat i * d) gen.
Proof.
  intros i row d x y R H. unfold signed_at in H. cbv zeta in H. destruct (nth_error row _) as [[x' y']|] eqn:Q; [|discriminate]. pose proof (table_val i row _ _ R Q) as T.
  set (j := Z.to_nat ((Z.abs d - 1) / 2)) in *. destruct (2 * Z.of_nat j + 1 =? Z.abs d) eqn:E; [|discriminate]. apply Z.eqb_eq in E. rewrite E in T. injection H as <- H. destruct (d <? 0) eqn:S; [apply Z.ltb_lt in S|apply Z.ltb_ge in S].
  - replace d with (- Z.abs d) by lia. replace (16 ^ Z.of_nat i * - Z.abs d) with (- (16 ^ Z.of_nat i * Z.abs d)) by ring. rewrite smul_opp, <- T by apply gen_point. cbn [ec_neg]. do 2 f_equal.
    assert (PT : is_point (Some (x', y'))) by (rewrite T; apply smul_point, gen_point). destruct PT as (_ & RY & _).
    assert (y' <> 0). { intros ->. assert (PT : is_point (Some (x', 0))) by (rewrite T; apply smul_point, gen_point). apply good_toP in PT. apply (F_odd _ _ PT). reflexivity. }
    rewrite <- H. rewrite <- (Z.mod_small (P - y') P) by lia. replace (P - y') with (- y' + 1 * P) by ring. apply Z.mod_add. lia.
  - replace d with (Z.abs d) by lia. rewrite <- T, H. reflexivity.
Qed.
Fixpoint sum_chk (x y : Z) (rows : list (list (Z * Z))) (ds : list Z) (hs : list (Z * Z * Z)) : option (Z * Z) :=
  match ds, hs with
  | [], [] => Some (x, y)
  | d :: ds, (l, nx, ny) :: hs =>
      match rows with
      | [] => None
      | row :: rows =>
          match signed_at row d with
          | Some (qx, qy) => if add_chk l x y qx qy nx ny then sum_chk nx ny rows ds hs else None
          | None => None
          end
      end
  | _, _ => None
  end.
Lemma sum_chk_ok : forall rows ds hs i x y k r, (forall m : nat, nth_error table_vals (i + m) = nth_error rows m) -> Some (x, y) = smul k gen -> sum_chk x y rows ds hs = Some r ->
  Some r = smul (k + 16 ^ Z.of_nat i * le_val 16 ds) gen.
Proof.
  induction rows as [|row rows IH]; intros [|d ds] [|[[l nx] ny] hs] i x y k r R X H; try discriminate; cbn [sum_chk] in H; try (injection H as <-; rewrite X; f_equal; cbn [le_val]; lia).
  destruct (signed_at row d) as [[qx qy]|] eqn:S; [|discriminate]. destruct (add_chk _ _ _ _ _ _ _) eqn:C; [|discriminate].
  pose proof (R O) as R0. rewrite Nat.add_0_r in R0. cbn [nth_error] in R0. pose proof (signed_at_ok i row d qx qy R0 S) as Q. pose proof gen_point as G.
  assert (NX : Some (nx, ny) = smul (k + 16 ^ Z.of_nat i * d) gen). { rewrite smul_add, <- X, <- Q by auto. symmetry. apply (add_chk_ok l); auto; [rewrite X|rewrite Q]; auto. }
  rewrite (IH ds hs (Datatypes.S i) nx ny (k + 16 ^ Z.of_nat i * d) r); auto.
  - f_equal. cbn [le_val]. rewrite Nat2Z.inj_succ, Z.pow_succ_r by lia. ring.
  - intros m. replace (Datatypes.S i + m)%nat with (i + Datatypes.S m)%nat by lia. rewrite R. reflexivity.
Qed.
Definition order_start : option (Z * Z) := match table_vals, order_digits with row :: _, d :: _ => signed_at row d | _, _ => None end.
Lemma order_chk : match order_start with Some (x, y) => sum_chk x y (tl table_vals) (tl order_digits) order_hints | None => None end = Some (top_x, top_y).
Proof. vm_compute. reflexivity. Qed.
Lemma digits_value : le_val 16 order_digits = 2^256 - group_order.
Proof. vm_compute. reflexivity. Qed.
Lemma smul_same : forall g t c n, is_point g -> smul t g = smul c g -> n = t - c -> smul n g = None.
Proof. intros g t c n G E ->. unfold Z.sub. rewrite smul_add, smul_opp, E by auto. apply ec_add_neg. auto. Qed.
Lemma gen_order : smul group_order gen = None.
Proof.
  pose proof gen_point as G. destruct (rows_chk_ok gen G table_vals row_hints gen_x gen_y 1 _ (eq_sym (smul_1 gen)) table_chk) as [_ TOP].
  assert (L : len table_vals = 64) by (unfold len, table_vals; rewrite map_length, table_len; reflexivity). rewrite L in TOP.
  pose proof order_chk as C. destruct order_start as [[x y]|] eqn:S; [|discriminate]. unfold order_start in S.
  destruct table_vals as [|row rows] eqn:TV; [discriminate|]. pose proof digits_value as DV. destruct order_digits as [|d ds]; [discriminate|]. cbn [tl] in C.
  assert (R0 : nth_error table_vals 0 = Some row) by (rewrite TV; reflexivity).
  pose proof (signed_at_ok 0 row d x y R0 S) as X. change (16 ^ Z.of_nat 0) with 1 in X.
  assert (RR : forall m : nat, nth_error table_vals (1 + m) = nth_error rows m) by (intros m; rewrite TV; reflexivity). pose proof (sum_chk_ok rows ds order_hints 1 x y (1 * d) _ RR X C) as SC.
  apply (smul_same gen (16 ^ 64 * 1) (1 * d + 16 ^ Z.of_nat 1 * le_val 16 ds) group_order G); [rewrite <- TOP; exact SC|].
  cbn [le_val] in DV. change (16 ^ Z.of_nat 1) with 16. change (16^64) with (2^256). clear - DV. lia.
Qed.
Lemma scalar_multiply_gen : forall rz k, below 1 rz -> v rz <> F0 -> normalized k -> 0 < bn_val k < group_order -> exists r, scalar_multiply rz k = Ok r /\ crep r (ec_mul (bn_val k) gen).
Proof. apply (scalar_multiply_ok gen gen_point); [discriminate|exact gen_order|exact table_len|exact table_rows]. Qed.
