(** bn_sqrt is exponentiation by (m + 1) / 4. *)
From Coq Require Import Lia.
From Verif Require Import Base.Bytes Base.BytesFacts Spec.Bignum Model.Bignum Proof.BnCore Proof.BnRed Proof.BnMul Proof.BnIo.
Open Scope Z_scope.

Lemma pow_mod_base : forall a b e m, m <> 0 -> 0 <= e -> a mod m = b mod m -> (a ^ e) mod m = (b ^ e) mod m.
Proof.
  intros a b e m Hm He E. revert e He. apply natlike_ind; [reflexivity|]. intros e He IH. rewrite !Z.pow_succ_r by auto.
  rewrite Z.mul_mod, E, IH, <- Z.mul_mod by auto. reflexivity.
Qed.
Definition sq_inv (m x res X R : bn) (e f : Z) : Prop :=
  (normalized x /\ bn_val x < 180 * bn_val m) /\ partly_reduced res m /\ bn_val x mod bn_val m = (bn_val X ^ e) mod bn_val m /\
  bn_val res mod bn_val m = (bn_val R * bn_val X ^ f) mod bn_val m.
Lemma part_180 : forall x m, modulus m -> partly_reduced x m -> normalized x /\ bn_val x < 180 * bn_val m.
Proof. intros x m [_ Hm] [N V]. split; auto. lia. Qed.
Lemma sq_mul : forall m x res, modulus m -> normalized x /\ bn_val x < 180 * bn_val m -> normalized res /\ bn_val res < 180 * bn_val m ->
  partly_reduced (bn_multiply x res m) m /\ bn_val (bn_multiply x res m) mod bn_val m = (bn_val x * bn_val res) mod bn_val m.
Proof.
  intros m x res Hm [] []. destruct (bn_multiply_180 x res m) as (A & C & _); auto.
Qed.
Lemma sqrt_bits_spec : forall m X R, modulus m -> forall n last lb x res e f, 0 <= lb -> 0 <= e -> 0 <= f -> sq_inv m x res X R e f ->
  let '(x', res') := sqrt_bits n last lb x res m in
  (last = false -> sq_inv m x' res' X R (e * 2 ^ Z.of_nat n) (f + e * (lb mod 2 ^ Z.of_nat n))) /\
  (last = true -> lb < 2 ^ Z.of_nat n -> exists e', sq_inv m x' res' X R e' (f + e * lb)).
Proof.
  intros m X R Hm. induction n as [|n IH]; intros last lb x res e f Hl He Hf I; cbn [sqrt_bits].
  - change (2 ^ Z.of_nat 0) with 1. rewrite Z.mul_1_r, Z.mod_1_r, Z.mul_0_r, Z.add_0_r. split; auto.
    intros _ Hlb. assert (lb = 0) by lia. subst. rewrite Z.mul_0_r, Z.add_0_r. exists e. auto.
  - destruct (last && (lb =? 0)) eqn:Q.
    { apply andb_true_iff in Q as [-> Q]. apply Z.eqb_eq in Q. subst. split; [discriminate|]. intros _ _. rewrite Z.mul_0_r, Z.add_0_r. exists e. auto. }
    assert (M0 : bn_val m <> 0) by (destruct Hm as [_ Hm]; lia).
    destruct I as (Px & Pr & Ex & Er).
    set (res1 := if negb (Z.land lb 1 =? 0) then bn_multiply x res m else res).
    assert (I1 : sq_inv m (bn_multiply x x m) res1 X R (2 * e) (f + e * (lb mod 2))).
    { destruct (sq_mul m x x Hm Px Px) as [P1 E1]. split; [apply part_180; auto|].
      assert (E2 : bn_val (bn_multiply x x m) mod bn_val m = (bn_val X ^ (2 * e)) mod bn_val m).
      { rewrite E1, Z.mul_mod, Ex, <- Z.mul_mod by auto. f_equal. rewrite <- Z.pow_add_r by lia. f_equal. lia. }
      unfold res1. change 1 with (Z.ones 1). rewrite Z.land_ones by lia. change (2^1) with 2.
      pose proof (Z.mod_pos_bound lb 2 ltac:(lia)). destruct (Z.eqb_spec (lb mod 2) 0) as [L|L]; cbn [negb].
      - rewrite L, Z.mul_0_r, Z.add_0_r. split; auto.
      - assert (lb mod 2 = 1) as -> by lia. rewrite Z.mul_1_r. destruct (sq_mul m x res Hm Px (part_180 _ _ Hm Pr)) as [P3 E3]. split; auto. split; auto.
        rewrite E3, Z.mul_mod, Ex, Er, <- Z.mul_mod by auto. f_equal. rewrite Z.pow_add_r by lia. ring. }
    cbv zeta. fold res1. rewrite Z.shiftr_div_pow2 by lia. change (2^1) with 2.
    pose proof (Z.div_mod lb 2 ltac:(lia)) as DM. pose proof (Z.mod_pos_bound lb 2 ltac:(lia)) as MB.
    specialize (IH last (lb / 2) (bn_multiply x x m) res1 (2 * e) (f + e * (lb mod 2))).
    destruct (sqrt_bits n last (lb / 2) (bn_multiply x x m) res1 m) as [x' res'].
    destruct IH as [A C]; auto; [apply Z.div_pos; lia|lia|lia|].
    assert (PN : 2 ^ Z.of_nat (S n) = 2 * 2 ^ Z.of_nat n) by (rewrite Nat2Z.inj_succ, Z.pow_succ_r by lia; reflexivity).
    assert (0 < 2 ^ Z.of_nat n) by (apply Z.pow_pos_nonneg; lia).
    split.
    + intros L. specialize (A L). rewrite PN, Z.rem_mul_r by lia. replace (e * (2 * 2 ^ Z.of_nat n)) with (2 * e * 2 ^ Z.of_nat n) by ring.
      replace (f + e * (lb mod 2 + 2 * (lb / 2 mod 2 ^ Z.of_nat n))) with (f + e * (lb mod 2) + 2 * e * (lb / 2 mod 2 ^ Z.of_nat n)) by ring. exact A.
    + intros L Hlb. destruct (C L) as [e' C']; [apply Z.div_lt_upper_bound; lia|]. exists e'.
      replace (f + e * lb) with (f + e * (lb mod 2) + 2 * e * (lb / 2)) by (rewrite DM at 3; ring). exact C'.
Qed.
Lemma sqrt_limbs_spec : forall m X R, modulus m -> forall limbs x res e f, limbs <> [] -> words_ok B limbs -> 0 <= e -> 0 <= f -> sq_inv m x res X R e f ->
  partly_reduced (sqrt_limbs limbs x res m) m /\
  bn_val (sqrt_limbs limbs x res m) mod bn_val m = (bn_val R * bn_val X ^ (f + e * bn_val limbs)) mod bn_val m.
Proof.
  intros m X R Hm. induction limbs as [|lb t IH]; intros x res e f NE W He Hf I; [congruence|]. cbn [sqrt_limbs].
  inversion W as [|? ? W1 W2]; subst.
  pose proof (sqrt_bits_spec m X R Hm 30 (match t with [] => true | _ => false end) lb x res e f ltac:(lia) He Hf I) as S1.
  destruct (sqrt_bits 30 _ lb x res m) as [x' res'] eqn:SE. destruct S1 as [S1 S2]. change (2 ^ Z.of_nat 30) with B in *.
  destruct t as [|l2 t].
  - destruct (S2 eq_refl) as (e' & _ & P & _ & E); [lia|]. cbn [sqrt_limbs]. rewrite bn_val_cons, bn_val_nil. rewrite Z.mul_0_r, Z.add_0_r. auto.
  - rewrite Z.mod_small in S1 by lia. specialize (S1 eq_refl). destruct (IH x' res' (e * B) (f + e * lb)) as [P E]; auto; [discriminate|lia|lia|].
    split; auto. rewrite E, (bn_val_cons lb). do 3 f_equal. ring.
Qed.
Lemma bn_sqrt_wide : forall x m, modulus m -> normalized x /\ bn_val x < 180 * bn_val m ->
  reduced (bn_sqrt x m) m /\ bn_val (bn_sqrt x m) = (bn_val x ^ ((bn_val m + 1) / 4)) mod bn_val m.
Proof.
  intros x m Hm Hx. unfold bn_sqrt. cbv zeta. pose proof Hm as [Nm Rm].
  destruct (bn_addi_spec m 1 Nm) as [N1 V1]; [lia|]. rewrite Z.mod_small in V1 by lia.
  destruct (bn_rshift_spec _ N1) as [N2 V2]. destruct (bn_rshift_spec _ N2) as [N3 V3].
  set (p := bn_rshift (bn_rshift (bn_addi m 1))) in *. rewrite V2, V1, Z.div_div in V3 by lia. change (2 * 2) with 4 in V3. destruct N3 as [L3 W3].
  destruct (sqrt_limbs_spec m x bn_one Hm p x bn_one 1 0) as [P E]; auto; try lia.
  - intros ->. discriminate.
  - split; auto. split.
    + split; [split; [reflexivity|]|]. { repeat (constructor; [lia|]). constructor. } change (bn_val bn_one) with 1. lia.
    + rewrite Z.pow_1_r. split; auto.
  - destruct P as [NP VP]. destruct (bn_mod_spec _ m NP Nm VP) as [N4 V4]. 
    assert (V5 : bn_val (bn_mod (sqrt_limbs p x bn_one m) m) = bn_val x ^ ((bn_val m + 1) / 4) mod bn_val m).
    { rewrite V4, E. change (bn_val bn_one) with 1. rewrite V3. f_equal. rewrite Z.mul_1_l. f_equal. lia. }
    split; auto. split; auto. rewrite V5. apply Z.mod_pos_bound. lia.
Qed.
Lemma bn_sqrt_spec : forall x m, modulus m -> partly_reduced x m ->
  reduced (bn_sqrt x m) m /\ bn_val (bn_sqrt x m) = (bn_val x ^ ((bn_val m + 1) / 4)) mod bn_val m.
Proof. intros x m Hm Hx. apply bn_sqrt_wide; auto using part_180. Qed.
