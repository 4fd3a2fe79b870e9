(** The points of secp256k1 form a group. *)
From Coq Require Import Lia Znumtheory Zpow_facts Field_theory Eqdep_dec.
From Verif Require Import Base.Bytes Base.BytesFacts Base.Fermat Base.Primes Base.Curve Spec.Point Spec.Curve Proof.PointFacts.
Open Scope Z_scope.

Lemma P_pos : 0 < P.
Proof. pose proof P_range. lia. Qed.
Local Hint Resolve P_pos : core.
(** * The field *)
Record Fp := mkF { fv : Z; fok : (fv mod P =? fv) = true }.
Lemma F_eq : forall a b : Fp, fv a = fv b -> a = b.
Proof. intros [a A] [b B] E. cbn [fv] in E. subst b. f_equal. apply UIP_dec, bool_dec. Qed.
Lemma to_ok : forall z, ((z mod P) mod P =? z mod P) = true.
Proof. intros z. apply Z.eqb_eq. apply Z.mod_mod. pose proof P_pos. lia. Qed.
Definition toF (z : Z) : Fp := mkF (z mod P) (to_ok z).
Lemma fv_range : forall a, 0 <= fv a < P.
Proof. intros [a A]. cbn [fv]. apply Z.eqb_eq in A. rewrite <- A. apply Z.mod_pos_bound. auto. Qed.
Lemma fv_small : forall a, fv a mod P = fv a.
Proof. intros a. apply Z.mod_small, fv_range. Qed.
Lemma toF_fv : forall a, toF (fv a) = a.
Proof. intros a. apply F_eq. apply fv_small. Qed.
Lemma toF_eq : forall x y, toF x = toF y <-> x mod P = y mod P.
Proof. intros x y. split; [intros E; apply (f_equal fv) in E; exact E|intros E; apply F_eq; exact E]. Qed.
Definition Fadd (a b : Fp) : Fp := toF (fv a + fv b).
Definition Fmul (a b : Fp) : Fp := toF (fv a * fv b).
Definition Fsub (a b : Fp) : Fp := toF (fv a - fv b).
Definition Fopp (a : Fp) : Fp := toF (- fv a).
Definition Finv (a : Fp) : Fp := toF (fv a ^ (P - 2)).
Definition Fdiv (a b : Fp) : Fp := Fmul a (Finv b).
Definition F0 : Fp := toF 0.
Definition F1 : Fp := toF 1.
Lemma toF_add : forall x y, Fadd (toF x) (toF y) = toF (x + y).
Proof. intros. apply F_eq. cbn [Fadd toF fv]. symmetry. apply Z.add_mod. pose proof P_pos. lia. Qed.
Lemma toF_mul : forall x y, Fmul (toF x) (toF y) = toF (x * y).
Proof. intros. apply F_eq. cbn [Fmul toF fv]. symmetry. apply Z.mul_mod. pose proof P_pos. lia. Qed.
Lemma toF_sub : forall x y, Fsub (toF x) (toF y) = toF (x - y).
Proof. intros. apply F_eq. cbn [Fsub toF fv]. symmetry. apply Zminus_mod. Qed.
Lemma toF_opp : forall x, Fopp (toF x) = toF (- x).
Proof. intros. apply F_eq. cbn [Fopp toF fv]. rewrite <- !Z.sub_0_l. apply Zminus_mod_idemp_r. Qed.
Lemma F_field : field_theory F0 F1 Fadd Fmul Fsub Fopp Fdiv Finv eq.
Proof.
  assert (R : forall x y, x = y -> toF x = toF y) by (intros; subst; auto).
  constructor; [constructor|..]; intros.
  - rewrite <- (toF_fv x). unfold F0. rewrite toF_add. apply R; ring.
  - unfold Fadd. apply R; ring.
  - rewrite <- (toF_fv x), <- (toF_fv y), <- (toF_fv z). rewrite !toF_add. apply R; ring.
  - rewrite <- (toF_fv x). unfold F1. rewrite toF_mul. apply R; ring.
  - unfold Fmul. apply R; ring.
  - rewrite <- (toF_fv x), <- (toF_fv y), <- (toF_fv z). rewrite !toF_mul. apply R; ring.
  - rewrite <- (toF_fv x), <- (toF_fv y), <- (toF_fv z). rewrite toF_add, !toF_mul, toF_add. apply R; ring.
  - rewrite <- (toF_fv x), <- (toF_fv y). rewrite toF_opp, toF_sub, toF_add. apply R; ring.
  - rewrite <- (toF_fv x). rewrite toF_opp, toF_add. apply R; ring.
  - intros E. apply toF_eq in E. pose proof P_range. rewrite !Z.mod_small in E by lia. discriminate.
  - reflexivity.
  - unfold Finv. rewrite <- (toF_fv p) at 2. rewrite toF_mul. apply toF_eq. apply divide_mod_eq.
    pose proof P_range. replace (fv p ^ (P - 2) * fv p) with (fv p ^ (P - 1)).
    + apply fermat; [exact field_prime_prime|]. intros D. apply H. apply F_eq. apply Z.mod_divide in D; [|lia]. rewrite fv_small in D. rewrite D. reflexivity.
    + rewrite <- (Z.pow_1_r (fv p)) at 3. rewrite <- Z.pow_add_r by lia. f_equal; lia.
Qed.
Lemma F_dec : forall x y : Fp, {x = y} + {x <> y}.
Proof. intros x y. destruct (Z.eq_dec (fv x) (fv y)) as [E|E]; [left; apply F_eq; auto|right; intros ->; auto]. Qed.
Lemma F_two : F2 F1 Fadd <> F0.
Proof. unfold F2, F1, F0. rewrite toF_add. intros E. apply toF_eq in E. pose proof P_range. rewrite !Z.mod_small in E by lia. discriminate. Qed.

(** * No point has y = 0: -7 is not a cube *)
Definition p_red (x : Z) : Z := fold3 256 (2^32 + 977) x.
Transparent field_prime.
Lemma p_red_ok : forall x, (P | p_red x - x).
Proof. intros x. replace P with (2 ^ 256 - (2^32 + 977)) by reflexivity. apply fold3_ok. lia. Qed.
Lemma seven_power : (powm p_red 7 (Z.to_pos ((P - 1) / 3)) - 1) mod P <> 0 /\ (P - 1) mod 6 = 0.
Proof. vm_compute. split; [discriminate|reflexivity]. Qed.
Global Opaque field_prime.
Lemma pow_mul_mod : forall a b e, 0 <= e -> (P | a - b) -> (P | a ^ e - b ^ e).
Proof. intros a b e H D. apply mod_eq_divide. apply pow_mod_eq; auto. apply divide_mod_eq; auto. Qed.
Lemma cube_power : forall x e, 0 < e -> P - 1 = 3 * e -> e mod 2 = 0 -> ~ (P | x) -> (P | x * x * x + 7) -> (P | 7 ^ e - 1).
Proof.
  intros x e Ep E3 Ev NX D. pose proof (fermat P x field_prime_prime NX) as FX. rewrite E3, Z.pow_mul_r in FX by lia.
  assert (K : (P | 7 ^ e - (x ^ 3) ^ e)).
  { assert (EV : (- (7)) ^ e = 7 ^ e) by (apply Z.pow_opp_even; exists (e / 2); dlia). rewrite <- EV. apply pow_mul_mod; [lia|].
    replace (- (7) - x ^ 3) with (- (x * x * x + 7)) by ring. apply Z.divide_opp_r. exact D. }
  replace (7 ^ e - 1) with ((7 ^ e - (x ^ 3) ^ e) + ((x ^ 3) ^ e - 1)) by lia. apply Z.divide_add_r; auto.
Qed.
Lemma cube_seven : forall x, (P | x * x * x + 7) -> ~ (P | x).
Proof.
  intros x D X. pose proof P_range. assert (D7 : (P | 7)).
  { replace 7 with (x * x * x + 7 - x * x * x) by ring. apply Z.divide_sub_r; [exact D|apply Z.divide_mul_r; exact X]. }
  apply Z.divide_pos_le in D7; lia.
Qed.
Lemma no_order_two : forall x, ~ (P | x * x * x + 7).
Proof.
  intros x D. destruct seven_power as [N M]. pose proof P_range as PR.
  assert (E3 : exists e, (P - 1) / 3 = e /\ P - 1 = 3 * e /\ e mod 2 = 0 /\ 0 < e).
  { exists ((P - 1) / 3). split; [reflexivity|]. clear - M PR. generalize dependent P. intros p PR M. dlia. }
  destruct E3 as (e & Ee & E3 & Ev & Ep). rewrite Ee in N. apply N. apply Z.mod_divide; [lia|].
  pose proof (powm_spec P p_red 7 (Z.to_pos e) p_red_ok) as HS. rewrite Z2Pos.id in HS by auto. generalize dependent (powm p_red 7 (Z.to_pos e)). intros w _ HS.
  replace (w - 1) with ((w - 7 ^ e) + (7 ^ e - 1)) by lia. apply Z.divide_add_r; [exact HS|]. apply (cube_power x); auto. apply cube_seven; auto.
Qed.

(** * The group *)
Definition F7 : Fp := toF 7.
Notation curveF := (curve Fadd Fmul F7).
Notation goodF := (good Fadd Fmul F7).
Notation addF := (ptadd F1 Fadd Fmul Fsub Fdiv F_dec).
Notation negF := (ptneg Fopp).
Lemma curve_toF : forall x y, curveF (toF x) (toF y) <-> (y * y) mod P = (x * x * x + 7) mod P.
Proof. intros x y. unfold curve, F7. rewrite !toF_mul, toF_add. apply toF_eq. Qed.
Lemma F_odd : forall x y, curveF x y -> y <> F0.
Proof.
  intros x y C ->. rewrite <- (toF_fv x) in C. apply curve_toF in C. apply (no_order_two (fv x)).
  apply mod_eq_divide in C. apply Z.divide_opp_r in C. replace (- (0 * 0 - (fv x * fv x * fv x + 7))) with (fv x * fv x * fv x + 7) in C by ring. exact C.
Qed.
Definition ofF (a : pt) : point := match a with Inf => None | Aff x y => Some (fv x, fv y) end.
Definition toP (a : point) : pt := match a with None => Inf | Some (x, y) => Aff (toF x) (toF y) end.
Lemma toP_ofF : forall a, toP (ofF a) = a.
Proof. intros [|x y]; [reflexivity|]. cbn [ofF toP]. rewrite !toF_fv. reflexivity. Qed.
Lemma ofF_toP : forall a, is_point a -> ofF (toP a) = a.
Proof. intros [[x y]|] H; [|reflexivity]. cbn [toP ofF toF fv]. destruct H as (A & B & _). rewrite !Z.mod_small by auto. reflexivity. Qed.
Lemma good_toP : forall a, is_point a -> goodF (toP a).
Proof. intros [[x y]|] H; [|exact I]. cbn [toP good]. apply curve_toF. apply H. Qed.
Lemma point_ofF : forall a, goodF a -> is_point (ofF a).
Proof.
  intros [|x y] H; [exact I|]. cbn [ofF is_point]. split; [apply fv_range|]. split; [apply fv_range|]. apply curve_toF. rewrite !toF_fv. exact H.
Qed.
Lemma toP_inj : forall a b, is_point a -> is_point b -> toP a = toP b -> a = b.
Proof. intros a b A B E. rewrite <- (ofF_toP a A), E. apply ofF_toP; auto. Qed.
Lemma third_toP : forall l x1 y1 x2, toP (ec_third l x1 y1 x2) = third Fmul Fsub (toF l) (toF x1) (toF y1) (toF x2).
Proof.
  intros l x1 y1 x2. unfold ec_third, third. cbn [toP]. rewrite !toF_mul, !toF_sub, toF_mul, toF_sub. f_equal; apply toF_eq.
  - apply Z.mod_mod. pose proof P_pos. lia.
  - rewrite Z.mod_mod by (pose proof P_pos; lia). apply divide_mod_eq. replace (l * (x1 - (l * l - x1 - x2) mod P) - y1 - (l * (x1 - (l * l - x1 - x2)) - y1)) with (l * ((l * l - x1 - x2) - (l * l - x1 - x2) mod P)) by ring.
    apply Z.divide_mul_r. apply mod_eq_divide. rewrite Z.mod_mod by (pose proof P_pos; lia). reflexivity.
Qed.
Lemma fdiv_toF : forall a b, toF (fdiv a b) = Fdiv (toF a) (toF b).
Proof.
  intros a b. unfold fdiv, Fdiv, Finv. rewrite toF_mul. apply toF_eq. rewrite Z.mod_mod by (pose proof P_pos; lia). apply divide_mod_eq.
  rewrite <- Z.mul_sub_distr_l. apply Z.divide_mul_r. apply pow_mul_mod; [pose proof P_range; lia|]. cbn [toF fv]. apply mod_eq_divide. rewrite Z.mod_mod by (pose proof P_pos; lia). reflexivity.
Qed.
Lemma add_toP : forall a b, is_point a -> is_point b -> toP (ec_add a b) = addF (toP a) (toP b).
Proof.
  intros [[x1 y1]|] [[x2 y2]|] A B; try reflexivity. cbn [ec_add toP ptadd]. pose proof A as (A1 & A2 & _). pose proof B as (B1 & B2 & _).
  destruct (x1 =? x2) eqn:E.
  - apply Z.eqb_eq in E. subst x2. destruct (F_dec (toF x1) (toF x1)) as [_|K]; [|exfalso; auto].
    pose proof (good_toP _ A) as GA. pose proof (good_toP _ B) as GB. cbn [toP good] in GA, GB.
    destruct (same_x _ _ _ _ _ _ _ _ F_field F_dec _ _ _ _ GA GB) as [EY|EY].
    + rewrite EY. destruct (F_dec (toF y2) (toF y2)) as [_|K]; [|exfalso; auto]. apply toF_eq in EY. rewrite !Z.mod_small in EY by auto. subst y2.
      destruct ((y1 + y1) mod P =? 0) eqn:Z0.
      * exfalso. apply Z.eqb_eq in Z0. apply (F_odd _ _ GA). apply (double_zero _ _ _ _ _ _ _ _ F_field F_dec F_two). rewrite toF_add. apply toF_eq. rewrite Z0, Z.mod_0_l; auto. pose proof P_pos. lia.
      * rewrite third_toP, fdiv_toF. unfold F3, F2, F1. rewrite !toF_add, !toF_mul. reflexivity.
    + destruct (F_dec (toF y1) (toF y2)) as [K|_].
      * exfalso. rewrite K in EY. apply (neg_ne _ _ _ _ _ _ _ _ F_field F_dec F7 F_two F_odd _ _ GB EY).
      * rewrite toF_opp in EY. apply toF_eq in EY. replace ((y1 + y2) mod P =? 0) with true; [reflexivity|]. symmetry. apply Z.eqb_eq.
        apply Z.mod_divide; [pose proof P_pos; lia|]. apply mod_eq_divide in EY. replace (y1 + y2) with (y1 - - y2) by ring. exact EY.
  - apply Z.eqb_neq in E. destruct (F_dec (toF x1) (toF x2)) as [K|_]; [exfalso; apply E; apply toF_eq in K; rewrite !Z.mod_small in K by auto; exact K|].
    rewrite third_toP, fdiv_toF, !toF_sub. reflexivity.
Qed.
Lemma neg_toP : forall a, toP (ec_neg a) = negF (toP a).
Proof. intros [[x y]|]; [|reflexivity]. cbn [ec_neg toP ptneg]. rewrite toF_opp. f_equal. apply toF_eq. apply Z.mod_mod. pose proof P_pos. lia. Qed.
Lemma third_range : forall l x1 y1 x2 x y, ec_third l x1 y1 x2 = Some (x, y) -> 0 <= x < P /\ 0 <= y < P.
Proof. intros l x1 y1 x2 x y E. unfold ec_third in E. injection E as <- <-. split; apply Z.mod_pos_bound; auto. Qed.
Lemma ec_add_point : forall a b, is_point a -> is_point b -> is_point (ec_add a b).
Proof.
  intros a b A B. pose proof (ptadd_good _ _ _ _ _ _ _ _ F_field F_dec F7 F_two F_odd _ _ (good_toP _ A) (good_toP _ B)) as G. rewrite <- add_toP in G by auto.
  destruct (ec_add a b) as [[x y]|] eqn:E; [|exact I]. cbn [toP good] in G. apply curve_toF in G.
  assert (R : 0 <= x < P /\ 0 <= y < P); [|destruct R; split; auto].
  destruct a as [[x1 y1]|], b as [[x2 y2]|]; cbn [ec_add] in E; try discriminate; try (injection E as -> ->; destruct A as (? & ? & _) || destruct B as (? & ? & _); auto).
  - destruct (x1 =? x2); [destruct (_ =? 0); [discriminate|]|]; eapply third_range; eauto.
Qed.
Lemma ec_neg_point : forall a, is_point a -> is_point (ec_neg a).
Proof.
  intros a A. pose proof (ptneg_good _ _ _ _ _ _ _ _ F_field F7 _ (good_toP _ A)) as G. rewrite <- neg_toP in G.
  destruct a as [[x y]|]; [|exact I]. cbn [ec_neg toP good] in *. apply curve_toF in G. destruct A as (A1 & A2 & _). split; [auto|]. split; [apply Z.mod_pos_bound; auto|exact G].
Qed.
Local Hint Resolve ec_add_point ec_neg_point good_toP : core.
Ltac toF_law L := apply toP_inj; auto; rewrite ?neg_toP, ?add_toP, ?neg_toP by auto; apply L; auto.
Lemma ec_add_comm : forall a b, is_point a -> is_point b -> ec_add a b = ec_add b a.
Proof. intros. apply toP_inj; auto. rewrite !add_toP by auto. apply (ptadd_comm _ _ _ _ _ _ _ _ F_field F_dec F7 F_two F_odd); auto. Qed.
Lemma ec_add_assoc : forall a b c, is_point a -> is_point b -> is_point c -> ec_add (ec_add a b) c = ec_add a (ec_add b c).
Proof. intros. apply toP_inj; auto. rewrite !add_toP by auto. apply (ptadd_assoc _ _ _ _ _ _ _ _ F_field F_dec F7 F_two F_odd); auto. Qed.
Lemma ec_add_0_r : forall a, ec_add a None = a.
Proof. intros [[x y]|]; reflexivity. Qed.
Lemma ec_add_neg : forall a, is_point a -> ec_add a (ec_neg a) = None.
Proof. intros. apply toP_inj; auto; [exact I|]. rewrite add_toP, neg_toP by auto. apply (ptadd_neg _ _ _ _ _ _ _ _ F_field F_dec F7 F_two F_odd); auto. Qed.
Lemma ec_neg_neg : forall a, is_point a -> ec_neg (ec_neg a) = a.
Proof. intros. apply toP_inj; auto. rewrite !neg_toP. apply (ptneg_neg _ _ _ _ _ _ _ _ F_field). Qed.
Lemma ec_neg_add : forall a b, is_point a -> is_point b -> ec_neg (ec_add a b) = ec_add (ec_neg a) (ec_neg b).
Proof. intros. apply toP_inj; auto. rewrite neg_toP, !add_toP, !neg_toP by auto. apply (ptneg_add _ _ _ _ _ _ _ _ F_field F_dec F7 F_two F_odd); auto. Qed.
Lemma ec_sum_none : forall a b, is_point a -> is_point b -> ec_add a b = None -> b = ec_neg a.
Proof.
  intros a b A B E. rewrite <- (ec_add_0_r (ec_neg a)), <- E, <- ec_add_assoc, (ec_add_comm (ec_neg a) a), ec_add_neg by auto. reflexivity.
Qed.

(** * Multiples *)
Lemma ec_mul_0 : forall a, ec_mul 0 a = None.
Proof. reflexivity. Qed.
Lemma ec_mul_1 : forall a, ec_mul 1 a = a.
Proof. intros a. exact (ec_add_0_r a). Qed.
Lemma ec_mul_succ : forall k a, 0 <= k -> ec_mul (k + 1) a = ec_add a (ec_mul k a).
Proof. intros k a H. unfold ec_mul. replace (Z.to_nat (k + 1)) with (S (Z.to_nat k)) by lia. reflexivity. Qed.
Lemma ec_mul_point : forall k a, is_point a -> is_point (ec_mul k a).
Proof. intros k a A. unfold ec_mul. induction (Z.to_nat k) as [|n IH]; [exact I|]. change (Nat.iter (S n) (ec_add a) None) with (ec_add a (Nat.iter n (ec_add a) None)). auto. Qed.
Local Hint Resolve ec_mul_point : core.
Lemma ec_mul_add : forall j k a, is_point a -> 0 <= j -> 0 <= k -> ec_mul (j + k) a = ec_add (ec_mul j a) (ec_mul k a).
Proof.
  intros j k a A Hj Hk. revert j Hj. apply natlike_ind; [reflexivity|]. intros j Hj IH. rewrite <- Z.add_1_r. replace (j + 1 + k) with (j + k + 1) by ring.
  rewrite !ec_mul_succ by lia. rewrite IH. symmetry. apply ec_add_assoc; auto.
Qed.
Lemma ec_mul_none : forall k, ec_mul k None = None.
Proof. intros k. unfold ec_mul. induction (Z.to_nat k) as [|n IH]; [reflexivity|exact IH]. Qed.
Lemma ec_mul_mul : forall j k a, is_point a -> 0 <= j -> 0 <= k -> ec_mul (j * k) a = ec_mul j (ec_mul k a).
Proof.
  intros j k a A Hj Hk. revert j Hj. apply natlike_ind; [reflexivity|]. intros j Hj IH. rewrite Z.mul_succ_l, <- Z.add_1_r.
  rewrite Z.add_comm, ec_mul_add, ec_mul_succ by (auto; nia). f_equal. exact IH.
Qed.
Lemma ec_mul_distr : forall k a b, is_point a -> is_point b -> 0 <= k -> ec_mul k (ec_add a b) = ec_add (ec_mul k a) (ec_mul k b).
Proof.
  intros k a b A B. revert k. apply natlike_ind; [reflexivity|]. intros k Hk IH. rewrite <- Z.add_1_r, !ec_mul_succ, IH by lia.
  rewrite !ec_add_assoc by auto. f_equal. rewrite <- !ec_add_assoc by auto. f_equal. apply ec_add_comm; auto.
Qed.
Lemma ec_mul_neg : forall k a, is_point a -> 0 <= k -> ec_mul k (ec_neg a) = ec_neg (ec_mul k a).
Proof.
  intros k a A. revert k. apply natlike_ind; [reflexivity|]. intros k Hk IH. rewrite <- Z.add_1_r, !ec_mul_succ, IH by lia. symmetry. apply ec_neg_add; auto.
Qed.
Lemma ec_mul_2 : forall a, ec_mul 2 a = ec_add a a.
Proof. intros a. change (ec_add a (ec_add a None) = ec_add a a). rewrite ec_add_0_r. reflexivity. Qed.
(** Multiples of a point whose order divides [n]. *)
Lemma ec_mul_mod : forall n k a, is_point a -> 0 < n -> 0 <= k -> ec_mul n a = None -> ec_mul (k mod n) a = ec_mul k a.
Proof.
  intros n k a A Hn Hk E. pose proof (Z.div_mod k n ltac:(lia)) as D. pose proof (Z.div_pos k n Hk Hn). pose proof (Z.mod_pos_bound k n Hn).
  rewrite D at 2. rewrite ec_mul_add, Z.mul_comm, ec_mul_mul, E, ec_mul_none by (auto; nia). reflexivity.
Qed.
