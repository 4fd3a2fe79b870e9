(** Laws of the point operators, comparison of points, uniqueness in BIP340. *)
From Coq Require Import Lia Znumtheory Setoid Morphisms.
From Verif Require Import Base.Bytes Base.BytesFacts Base.Curve Base.Fermat Spec.Bignum Spec.Codecs Spec.Wire Spec.Objects Spec.Hash Spec.Keys Spec.Scalar Spec.Point Spec.Curve Spec.Schemes
  Model.Bignum Model.Scalar Model.Stream Model.Point Model.EC Model.ECDSA Model.Hash Model.Signature Model.PointOps
  Proof.IntVarint Proof.ScalarProps Proof.PointFacts Proof.PointProps Proof.CurveFacts Proof.EcField Proof.EcGroup
  Proof.EcMult Proof.EcTable Proof.EcOrder Proof.EcApi Proof.EcdsaFacts Proof.EcdsaSign Proof.EcInf Proof.PointOpsFacts Proof.HashProps Proof.SchemeProps Proof.SchnorrProps Proof.SchemeMain.
Open Scope Z_scope.

(** ** The operators of ECPoint make a group *)
Lemma add_laws : forall p q r a b c, is_point a -> is_point b -> is_point c -> pt_xy p = point_bytes a -> pt_xy q = point_bytes b -> pt_xy r = point_bytes c ->
  exists pq qp qr pq_r p_qr, pt_add p q = Ok pq /\ pt_add q p = Ok qp /\ pt_add q r = Ok qr /\ pt_add pq r = Ok pq_r /\ pt_add p qr = Ok p_qr /\
    pt_eq pq qp = true /\ pt_eq pq_r p_qr = true.
Proof.
  intros p q r a b c A B D X Y W. destruct (pt_add_ok p q a b A B X Y) as (pq & E1 & X1). destruct (pt_add_ok q p b a B A Y X) as (qp & E2 & X2). destruct (pt_add_ok q r b c B D Y W) as (qr & E3 & X3).
  pose proof (ec_add_point a b A B) as PAB. pose proof (ec_add_point b c B D) as PBC.
  destruct (pt_add_ok pq r _ c PAB D X1 W) as (s & E4 & X4). destruct (pt_add_ok p qr a _ A PBC X X3) as (t & E5 & X5).
  exists pq, qp, qr, s, t. repeat (split; [assumption|]). unfold pt_eq. rewrite X1, X2, X4, X5. rewrite (ec_add_comm b a), ec_add_assoc by auto. destruct (list_eq_dec _ _ _); [|contradiction].
  destruct (list_eq_dec Z.eq_dec _ _); [auto|contradiction].
Qed.
Lemma neg_laws : forall g p a, is_point a -> pt_xy p = point_bytes a -> exists n s d, pt_neg g p = Ok n /\ pt_add p n = Ok s /\ pt_eq s InfinityPoint = true /\ pt_sub g p p = Ok d /\ pt_eq d InfinityPoint = true /\
  exists nn, pt_neg g n = Ok nn /\ pt_eq nn p = true.
Proof.
  intros g p a A X. destruct (pt_neg_ok g p a A X) as (n & E1 & X1). pose proof (ec_neg_point a A) as PN. destruct (pt_add_ok p n a _ A PN X X1) as (s & E2 & X2). destruct (pt_sub_ok g p p a a A A X X) as (d & E3 & X3).
  destruct (pt_neg_ok g n _ PN X1) as (nn & E4 & X4). exists n, s, d. rewrite ec_add_neg in X2, X3 by auto. rewrite ec_neg_neg in X4 by auto.
  repeat (split; [assumption|]). unfold pt_eq. rewrite X2, X3, X. change (pt_xy InfinityPoint) with (point_bytes None). repeat (split; [destruct (list_eq_dec _ _ _); [auto|contradiction]|]). split; [assumption|]. split; [destruct (list_eq_dec _ _ _); [auto|contradiction]|].
  exists nn. split; [auto|]. rewrite X4. destruct (list_eq_dec _ _ _); [auto|contradiction].
Qed.
Lemma mul_laws : forall rz1 rz2 rz3 rz4 s t p a, random_below P rz1 -> random_below P rz2 -> random_below P rz3 -> random_below P rz4 -> is_scalar s -> is_scalar t -> is_point a -> a <> None -> pt_xy p = point_bytes a ->
  exists sp tp sum st u, pt_mul rz1 s p = Ok sp /\ pt_mul rz2 t p = Ok tp /\ pt_add sp tp = Ok sum /\ pt_mul rz3 (sc_add s t) p = Ok st /\ pt_eq sum st = true /\
    sc_mul s t = Ok u /\ exists up, pt_mul rz4 u p = Ok up /\ pt_xy up = point_bytes (ec_mul (number s * number t) a).
Proof.
  intros rz1 rz2 rz3 rz4 s t p a R1 R2 R3 R4 S T A NA X. destruct (pt_mul_ok rz1 s p a R1 S A NA X) as (sp & E1 & X1 & _). destruct (pt_mul_ok rz2 t p a R2 T A NA X) as (tp & E2 & X2 & _).
  destruct (pt_add_ok sp tp _ _ (ec_mul_point _ _ A) (ec_mul_point _ _ A) X1 X2) as (sum & E3 & X3). destruct (scalar_of_scalar (number s + number t)) as [SS SV]. rewrite sc_add_spec by (apply S || apply T).
  destruct (pt_mul_ok rz3 _ p a R3 SS A NA X) as (st & E4 & X4 & _). destruct (scalar_of_scalar (number s * number t)) as [SM MV]. destruct (pt_mul_ok rz4 _ p a R4 SM A NA X) as (up & E5 & X5 & _).
  exists sp, tp, sum, st, (scalar_of (number s * number t)). repeat (split; [assumption|]). pose proof (number_range _ (proj1 S)) as N1. pose proof (number_range _ (proj1 T)) as N2. pose proof order_pos as OP.
  pose proof (Z.mod_pos_bound (number s + number t) N OP) as B1. pose proof (Z.mod_pos_bound (number s * number t) N OP) as B2. split.
  - unfold pt_eq. rewrite X3, X4, SV. assert (EQ : ec_add (ec_mul (number s) a) (ec_mul (number t) a) = ec_mul ((number s + number t) mod N) a).
    { rewrite !ec_mul_smul by lia. rewrite <- smul_add by auto. symmetry. apply smul_mod; auto. apply point_order; auto. }
    rewrite EQ. destruct (list_eq_dec _ _ _); [auto|contradiction].
  - split; [apply sc_mul_spec; [apply S|apply T]|]. exists up. split; [auto|]. rewrite X5, MV. f_equal. rewrite !ec_mul_smul by (try (apply Z.mul_nonneg_nonneg); lia). apply smul_mod; auto. apply point_order; auto.
Qed.
(** ** Comparison *)
Lemma memcmp_val : forall a b, length a = length b -> bytes_ok a -> bytes_ok b -> memcmp a b = (be_val 256 a ?= be_val 256 b).
Proof.
  induction a as [|x a IH]; intros [|y b] L A B; try discriminate; [reflexivity|]. cbn [memcmp]. rewrite !be_val_cons. injection L as L. assert (LL : len a = len b) by (unfold len; lia).
  inversion A as [|? ? RX A']; subst. inversion B as [|? ? RY B']; subst. pose proof (be_val_bound 256 a ltac:(lia) A') as VA. pose proof (be_val_bound 256 b ltac:(lia) B') as VB. rewrite LL in *. rewrite (IH b L A' B').
  set (m := 256 ^ len b) in *. clearbody m. destruct (Z.compare_spec x y) as [->|Q|Q].
  - symmetry. apply Z.add_compare_mono_l.
  - symmetry. apply Z.compare_lt_iff. nia.
  - symmetry. apply Z.compare_gt_iff. nia.
Qed.
Definition sec_padded (c : bool) (x y : Z) : list Z := sec_bytes c x y ++ zeros (65 - length (sec_bytes c x y)).
Lemma less_ok : forall p q x y x' y', pt_xy p = coords x y -> pt_xy q = coords x' y' ->
  pt_less p q = Ok (be_val 256 (sec_bytes (pt_comp q) x' y' ++ zeros (65 - length (sec_bytes (pt_comp q) x' y'))) <? be_val 256 (sec_bytes (pt_comp p) x y ++ zeros (65 - length (sec_bytes (pt_comp p) x y)))).
Proof.
  intros p q x y x' y' X X'. unfold pt_less. step (sec65 p x y X). step (sec65 q x' y' X'). cbn [snd]. f_equal.
  assert (L : forall c u v, length (sec_bytes c u v ++ zeros (65 - length (sec_bytes c u v))) = 65%nat /\ bytes_ok (sec_bytes c u v ++ zeros (65 - length (sec_bytes c u v)))).
  { intros c u v. pose proof (sec_length c u v) as E. split; [unfold zeros; rewrite app_length, repeat_length, E; destruct c; lia|]. apply bytes_ok_app. split; [apply sec_ok|apply bytes_ok_zeros]. }
  rewrite memcmp_val by (rewrite ?(proj1 (L _ _ _)); auto; apply L). rewrite Z.compare_antisym. unfold Z.ltb. destruct (_ ?= _); reflexivity.
Qed.
(** ** BIP340 *)
Lemma bip340_unique : forall ch px m r s s', bip340_valid ch px m r s -> bip340_valid ch px m r s' -> s = s'.
Proof.
  intros ch px m r s s' (py & ry & O & Y & OR & YR & S & E) (py' & ry' & O' & Y' & OR' & YR' & S' & E'). cbv zeta in E, E'. assert (py' = py) as -> by (apply (curve_unique px); auto; lia). assert (ry' = ry) as -> by (apply (curve_unique r); auto; lia).
  pose proof gen_point as G. set (e := be_val 256 _ mod N) in *. pose proof (ec_mul_point e (Some (px, py)) O) as PE. apply (proj1 (solve_for _ _ (Some (r, ry)) (ec_mul_point _ _ G) PE OR)) in E. apply (proj1 (solve_for _ _ (Some (r, ry)) (ec_mul_point _ _ G) PE OR)) in E'. rewrite E' in E. rewrite !ec_mul_smul in E by lia. symmetry in E. apply smul_gen_inj in E; auto.
Qed.
Lemma square_half : forall c y e, 0 < e -> P - 1 = 2 * e -> ~ (P | y) -> (P | y * y - c) -> (P | c ^ e - 1).
Proof.
  intros c y e Ep E2 NY D. pose proof (fermat P y field_prime_prime NY) as FY. rewrite E2, Z.pow_mul_r in FY by lia.
  assert (K : (P | c ^ e - (y ^ 2) ^ e)). { apply pow_mul_mod; [lia|]. replace (c - y ^ 2) with (- (y * y - c)) by ring. apply Z.divide_opp_r. exact D. }
  replace (c ^ e - 1) with ((c ^ e - (y ^ 2) ^ e) + ((y ^ 2) ^ e - 1)) by lia. apply Z.divide_add_r; auto.
Qed.
Lemma not_square : forall c y, 0 < c < P -> (powm p_red c (Z.to_pos ((P - 1) / 2)) - 1) mod P <> 0 -> ~ (P | y * y - c).
Proof.
  intros c y RC NE D. pose proof P_range as PR. destruct seven_half as [_ M].
  assert (NY : ~ (P | y)).
  { intros DY. assert (DC : (P | c)). { replace c with (y * y - (y * y - c)) by ring. apply Z.divide_sub_r; [apply Z.divide_mul_l; exact DY|exact D]. } apply Z.divide_pos_le in DC; lia. }
  assert (E2 : exists e, (P - 1) / 2 = e /\ P - 1 = 2 * e /\ 0 < e).
  { exists ((P - 1) / 2). split; [reflexivity|]. clear - M PR. generalize dependent P. intros p PR M. dlia. }
  destruct E2 as (e & Ee & E2 & Ep). rewrite Ee in NE. apply NE. apply Z.mod_divide; [lia|].
  pose proof (powm_spec P p_red c (Z.to_pos e) p_red_ok) as HS. rewrite Z2Pos.id in HS by auto. generalize dependent (powm p_red c (Z.to_pos e)). intros w _ HS.
  replace (w - 1) with ((w - c ^ e) + (c ^ e - 1)) by lia. apply Z.divide_add_r; [exact HS|]. apply (square_half c y); auto.
Qed.
Lemma five_half : (powm p_red 132 (Z.to_pos ((P - 1) / 2)) - 1) mod P <> 0.
Proof. vm_compute. discriminate. Qed.
Lemma no_x_five : ~ on_curve_x 5.
Proof.
  intros [y (_ & RY & E)]. pose proof P_range as PR. change (5 * 5 * 5 + 7) with 132 in E. apply mod_eq_divide in E. revert E. apply not_square; [lia|exact five_half].
Qed.
