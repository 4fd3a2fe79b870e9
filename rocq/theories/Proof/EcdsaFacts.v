(** Signing, verification and recovery in ecdsa.c against ECDSA. *)
From Coq Require Import Lia Znumtheory Setoid Morphisms.
From Verif Require Import Base.Bytes Base.BytesFacts Spec.Bignum Spec.Codecs Spec.Keys Spec.Scalar Spec.Point Spec.Curve Spec.Schemes
  Model.Bignum Model.Scalar Model.Inverse Model.Stream Model.Point Model.EC Model.ECDSA
  Proof.IntVarint Proof.BnCore Proof.BnRed Proof.BnMul Proof.BnIo Proof.InvFinish Proof.ScalarProps Proof.PointFacts Proof.CurveFacts Proof.EcGroup
  Proof.EcMult Proof.EcTable Proof.EcOrder Proof.EcApi.
Open Scope Z_scope.

(** ** Congruence modulo the order *)
Local Notation "a == b" := (eqm N a b) (at level 70).
Local Existing Instances eqm_setoid Zplus_eqm Zminus_eqm Zmult_eqm Zopp_eqm.
Lemma eqm_mod : forall a, a mod N == a. Proof. intros a. unfold eqm. apply Z.mod_mod. discriminate. Qed.
Lemma eqm_one : forall a, a mod N = 1 -> a == 1. Proof. intros a E. unfold eqm. rewrite E. reflexivity. Qed.
Lemma eqm_back : forall a, a == 1 -> a mod N = 1. Proof. intros a E. unfold eqm in E. rewrite E. reflexivity. Qed.
Lemma eqm_zero : forall a, a == 0 <-> (N | a).
Proof. intros a. unfold eqm. rewrite Z.mod_0_l by discriminate. apply Z.mod_divide. discriminate. Qed.
Lemma eqm_neg : forall a, N - a == - a.
Proof. intros a. unfold eqm. replace (N - a) with (- a + 1 * N) by ring. apply Z.mod_add. discriminate. Qed.
Lemma mul_ne : forall a b, ~ a == 0 -> ~ b == 0 -> ~ a * b == 0.
Proof. intros a b A B. rewrite !eqm_zero in *. intros D. apply (prime_mult _ order_prime) in D as [D|D]; contradiction. Qed.
Lemma inv_ne : forall a b, a * b == 1 -> ~ b == 0.
Proof. intros a b E Z. rewrite Z, Z.mul_0_r in E. discriminate E. Qed.
Lemma small_ne : forall a, 0 < a < N -> ~ a == 0.
Proof. intros a A Z. apply eqm_zero, Z.divide_pos_le in Z; lia. Qed.
Lemma mul_cancel : forall a b w x, a * w == 1 -> a * x == b -> x == w * b.
Proof. intros a b w x A E. rewrite <- E. transitivity (a * w * x); [rewrite A; rewrite Z.mul_1_l; reflexivity|]. replace (a * w * x) with (w * (a * x)) by ring. reflexivity. Qed.
Lemma smul_eqm : forall j k a, is_point a -> j == k -> smul j a = smul k a.
Proof.
  intros j k a A E. rewrite <- (smul_mod N j a A order_pos (point_order a A)), <- (smul_mod N k a A order_pos (point_order a A)).
  unfold eqm in E. rewrite E. reflexivity.
Qed.
Lemma ec_mul_smul : forall k a, 0 <= k -> ec_mul k a = smul k a.
Proof. intros. symmetry. apply smul_nonneg. auto. Qed.

(** ** One round of signing *)
Lemma sign_try_ok : forall rz randk k z d, random_below P rz -> random_below N randk -> normalized k -> normalized z -> bn_val z < 2^256 -> is_scalar d ->
  exists o, sign_try rz randk k z d = Ok o /\
   match o with
   | Some (sig, i) => exists r s, sig = be_bytes 32 r ++ be_bytes 32 s /\ ecdsa_signature (number d) (bn_val z) (bn_val k) r s i
   | None => forall r s i, ~ ecdsa_signature (number d) (bn_val z) (bn_val k) r s i
   end.
Proof.
  intros rz randk k z d RZ [NR VR] NK NZ LZ [WD LD]. unfold sign_try. rewrite less_ord, bn_is_zero_spec by auto. pose proof (norm_val k NK) as K0. pose proof order_range as OR.
  destruct (Z.eqb_spec (bn_val k) 0) as [E|E]; [eexists; split; [reflexivity|]; intros r s i (K & _); lia|].
  destruct (Z.ltb_spec (bn_val k) N) as [LK|LK]; [|eexists; split; [reflexivity|]; intros r s i (K & _); lia]. cbn [orb negb].
  destruct (scalar_multiply_all rz k RZ NK LK) as ([x y] & ER & CR). step ER.
  assert (KN : ~ bn_val k == 0) by (apply small_ne; lia).
  assert (NI : ec_mul (bn_val k) gen <> None).
  { rewrite ec_mul_smul by lia. intros K. apply (smul_ne gen gen_point) with (k := bn_val k); [discriminate|apply gen_order|rewrite <- eqm_zero; auto|auto]. }
  destruct (ec_mul (bn_val k) gen) as [[X Y]|] eqn:EM; [|contradiction]. clear NI. destruct (crep_some _ _ _ _ CR) as (NX & NY & VX & VY & OC). clear CR ER.
  rewrite land1, limb0_parity, VY, less_ord, VX by auto. set (over := negb (X <? N)).
  assert (PX : P < 2 * N) by (pose proof P_range; lia).
  assert (X1 : exists x1, (if over then bn_subtract x order_limbs else x) = x1 /\ normalized x1 /\ bn_val x1 = X mod N).
  { eexists. split; [reflexivity|]. unfold over. destruct OC as (RX & _). destruct (Z.ltb_spec X N) as [Q|Q]; cbn [negb].
    - rewrite VX, Z.mod_small by lia. auto.
    - destruct (bn_subtract_spec x order_limbs NX order_norm) as [A B]. split; [auto|]. rewrite B, VX, order_val.
      rewrite Z.mod_small by lia. replace X with (X - N + 1 * N) at 2 by ring. rewrite Z.mod_add, Z.mod_small by lia. reflexivity. }
  destruct X1 as (x1 & -> & NX1 & VX1). rewrite bn_is_zero_spec, VX1 by auto.
  destruct (Z.eqb_spec (X mod N) 0) as [E0|E0].
  { eexists. split; [reflexivity|]. intros r s i (_ & x' & y' & w & t & M & _ & R & R0 & _). rewrite EM in M. injection M as <- <-. lia. }
  destruct (mul_ord randk k NR NK ltac:(lia) ltac:(lia)) as (k1 & E1 & P1 & V1). step E1. destruct (part_ord k1 P1) as [N1 B1].
  assert (C1 : bn_val k1 == bn_val randk * bn_val k) by exact V1.
  destruct (inv_ord k1 N1) as (k2 & E2 & N2 & B2 & V2).
  { intros K. apply (mul_ne (bn_val randk) (bn_val k)); [apply small_ne; auto|auto|]. rewrite <- C1. unfold eqm. rewrite K. reflexivity. }
  step E2. apply eqm_one in V2. rewrite C1 in V2.
  destruct (read_word256 d WD) as [ND VD]. pose proof (number_range d WD) as RD.
  assert (RM : 0 <= X mod N < N) by (apply Z.mod_pos_bound; lia).
  destruct (mul_ord x1 (bn_read_be d) NX1 ND ltac:(lia) ltac:(lia)) as (s1 & E3 & P3 & V3). step E3. destruct (part_ord s1 P3) as [N3 B3].
  assert (C3 : bn_val s1 == X mod N * number d) by (unfold eqm; rewrite V3, VX1, VD; reflexivity).
  destruct (bn_add_spec s1 z N3 NZ) as [N4 V4]. rewrite Z.mod_small in V4 by (pose proof (norm_val z NZ); lia).
  cbv zeta. set (s2 := bn_add s1 z) in *. clearbody s2.
  destruct (mul_ord k2 s2 N2 N4 ltac:(lia) ltac:(pose proof (norm_val z NZ); lia)) as (s3 & E5 & P5 & V5). step E5. destruct (part_ord s3 P5) as [N5 B5].
  destruct (mul_ord randk s3 NR N5 ltac:(lia) ltac:(lia)) as (s4 & E6 & P6 & V6). step E6. destruct (mod_ord s4 P6) as [N7 V7].
  set (s5 := bn_mod s4 order_limbs) in *. clearbody s5.
  set (w := bn_val randk * bn_val k2).
  assert (KW : bn_val k * w == 1) by (unfold w; rewrite <- V2; replace (bn_val randk * bn_val k * bn_val k2) with (bn_val k * (bn_val randk * bn_val k2)) by ring; reflexivity).
  assert (T : bn_val s5 = (w * (bn_val z + X mod N * number d)) mod N).
  { rewrite V7. change (bn_val s4 == w * (bn_val z + X mod N * number d)). rewrite V6 || (assert (Q : bn_val s4 == bn_val randk * bn_val s3) by exact V6; rewrite Q).
    assert (Q' : bn_val s3 == bn_val k2 * bn_val s2) by exact V5. rewrite Q', V4, C3. unfold w.
    replace (bn_val randk * bn_val k2 * (bn_val z + X mod N * number d)) with (bn_val randk * (bn_val k2 * (X mod N * number d + bn_val z))) by ring. reflexivity. }
  rewrite bn_is_zero_spec by auto. destruct (Z.eqb_spec (bn_val s5) 0) as [Z5|Z5].
  { eexists. split; [reflexivity|]. intros r s i (_ & x' & y' & w' & t & M & W' & R & _ & TE & T0 & _). rewrite EM in M. injection M as <- <-.
    apply T0. rewrite TE, R. rewrite <- Z5, T. change (w' * (bn_val z + X mod N * number d) == w * (bn_val z + X mod N * number d)).
    assert (WW : w' == w) by exact (inv_unique (bn_val k) w' w W' (eqm_back _ KW)). rewrite WW. reflexivity. }
  assert (R5 : 0 <= bn_val s5 < N) by (rewrite T; apply Z.mod_pos_bound; lia).
  rewrite half_ord by (auto; lia). set (t := bn_val s5) in *. set (low := t <=? N - t).
  assert (S6 : exists s6, (if negb low then bn_subtract order_limbs s5 else s5) = s6 /\ normalized s6 /\ bn_val s6 = Z.min t (N - t)).
  { eexists. split; [reflexivity|]. unfold low. destruct (Z.leb_spec t (N - t)) as [Q|Q]; cbn [negb].
    - split; [auto|]. fold t. lia.
    - destruct (bn_subtract_spec order_limbs s5 order_norm N7) as [A B]. split; [auto|]. rewrite B, order_val. fold t. rewrite Z.mod_small by lia. lia. }
  destruct S6 as (s6 & -> & N6 & V8). eexists. split; [reflexivity|]. exists (X mod N), (Z.min t (N - t)).
  split; [rewrite !bn_write_be_spec, VX1, V8 by auto; reflexivity|]. split; [lia|]. exists X, Y, w, t. split; [exact EM|]. split; [apply eqm_back; auto|].
  split; [reflexivity|]. split; [auto|]. split; [exact T|]. split; [auto|]. split; [reflexivity|].
  unfold over, low. assert (Y2 : Y mod 2 = 0 \/ Y mod 2 = 1) by (pose proof (Z.mod_pos_bound Y 2); lia).
  destruct (Z.ltb_spec X N), (Z.leb_spec t (N - t)); cbn [negb]; destruct Y2 as [-> | ->]; reflexivity.
Qed.

(** ** The signature is valid *)
Lemma inverse_exists : forall s, ~ s == 0 -> exists w, (s * w) mod N = 1.
Proof.
  intros s S. assert (R : rel_prime s N). { apply rel_prime_sym, prime_rel_prime; [exact order_prime|]. rewrite <- eqm_zero. auto. }
  destruct (rel_prime_bezout _ _ R) as [u w E]. exists u. replace (s * u) with (1 + (- w) * N) by lia. rewrite Z.mod_add by discriminate. reflexivity.
Qed.
Lemma ec_mul_mod_smul : forall k a, ec_mul (k mod N) a = smul (k mod N) a.
Proof. intros. apply ec_mul_smul. apply Z.mod_pos_bound. exact order_pos. Qed.
Lemma sum_smul : forall u1 u2 d, 0 <= d -> ec_add (ec_mul (u1 mod N) gen) (ec_mul (u2 mod N) (ec_mul d gen)) = smul (u1 + u2 * d) gen.
Proof.
  intros u1 u2 d D. pose proof gen_point as G. rewrite !ec_mul_mod_smul, ec_mul_smul by auto. rewrite <- smul_smul, <- smul_add by auto.
  apply smul_eqm; auto. rewrite !eqm_mod. reflexivity.
Qed.
Lemma signature_valid : forall d z k r s i, 0 <= d -> ecdsa_signature d z k r s i -> ecdsa_valid (ec_mul d gen) z r s.
Proof.
  intros d z k r s i D (K & x & y & w & t & M & W & R & R0 & T & T0 & S & _). pose proof order_pos. pose proof gen_point as G.
  assert (RT : 0 <= t < N) by (rewrite T; apply Z.mod_pos_bound; auto). assert (RR : 0 <= r < N) by (rewrite R; apply Z.mod_pos_bound; auto).
  split; [lia|]. split; [lia|]. destruct (inverse_exists s) as [w' W']; [apply small_ne; lia|].
  apply eqm_one in W, W'.
  assert (KT : z + r * d == k * t). { rewrite T, eqm_mod. transitivity (k * w * (z + r * d)); [rewrite W, Z.mul_1_l; reflexivity|]. replace (k * w * (z + r * d)) with (k * (w * (z + r * d))) by ring. reflexivity. }
  assert (E : smul (z * w' + r * w' * d) gen = smul (w' * (k * t)) gen).
  { apply smul_eqm; auto. rewrite <- KT. replace (z * w' + r * w' * d) with (w' * (z + r * d)) by ring. reflexivity. }
  assert (C : w' * (k * t) == k \/ w' * (k * t) == - k).
  { destruct (Z.min_spec t (N - t)) as [[_ Q]|[_ Q]]; rewrite Q in S; subst s.
    - left. replace (w' * (k * t)) with (k * (t * w')) by ring. rewrite W', Z.mul_1_r. reflexivity.
    - right. rewrite eqm_neg in W'. replace (w' * (k * t)) with (- (k * (- t * w'))) by ring. rewrite W', Z.mul_1_r. reflexivity. }
  rewrite ec_mul_smul in M by lia. destruct C as [C|C].
  - exists w', x, y. split; [apply eqm_back; auto|]. split; [|auto]. rewrite sum_smul, E, <- M by auto. apply smul_eqm; auto.
  - exists w', x, ((- y) mod P). split; [apply eqm_back; auto|]. split; [|auto]. rewrite sum_smul, E by auto. rewrite (smul_eqm _ (- k)), smul_opp, M by auto. reflexivity.
Qed.

(** ** Verification *)
Lemma slices_rs : forall r s, length r = 32%nat -> length s = 32%nat -> slice (r ++ s) 0 32 = Ok r /\ slice (r ++ s) 32 32 = Ok s.
Proof.
  intros r s R S. rewrite !slice_ok by (rewrite app_length; lia). split; f_equal.
  - change (skipn 0 (r ++ s)) with (r ++ s). apply firstn_app_len. auto.
  - rewrite skipn_app_len by auto. rewrite <- S. apply firstn_all.
Qed.
Lemma verify_code : forall rz rz' pub p x y r s digest, random_below P rz -> random_below P rz' -> read_pubkey pub = Ok (Some p) -> crep p (Some (x, y)) ->
  word256 r -> word256 s -> word256 digest ->
  exists c, verify_digest rz rz' pub (r ++ s) digest = Ok c /\
    (c = 0 <-> number digest mod N <> 0 /\ ecdsa_valid (Some (x, y)) (number digest) (number r) (number s)).
Proof.
  intros rz rz' pub p x y r s digest RZ RZ' EP CP WR WS WD. unfold verify_digest. step EP. destruct (slices_rs r s (proj2 WR) (proj2 WS)) as [S1 S2]. step S1. step S2.
  destruct (read_word256 r WR) as [NR VR]. destruct (read_word256 s WS) as [NS VS]. destruct (read_word256 digest WD) as [ND VD]. cbv zeta.
  pose proof order_range as OR. pose proof (number_range r WR). pose proof (number_range s WS). pose proof (number_range digest WD).
  rewrite !bn_is_zero_spec, !less_ord, VR, VS by auto.
  destruct (Z.eqb_spec (number r) 0) as [R0|R0]; [eexists; split; [reflexivity|]; split; [discriminate|intros (_ & Q & _); lia]|].
  destruct (Z.eqb_spec (number s) 0) as [S0|S0]; [eexists; split; [reflexivity|]; split; [discriminate|intros (_ & _ & Q & _); lia]|].
  destruct (Z.ltb_spec (number r) N) as [RN|RN]; [|eexists; split; [reflexivity|]; split; [discriminate|intros (_ & Q & _); lia]].
  destruct (Z.ltb_spec (number s) N) as [SN|SN]; [|eexists; split; [reflexivity|]; split; [discriminate|intros (_ & _ & Q & _); lia]]. cbn [orb negb].
  destruct (inv_ord _ NS) as (w & E1 & N1 & B1 & V1); [rewrite VS, Z.mod_small by lia; auto|]. step E1. rewrite VS in V1.
  destruct (mul_ord w _ N1 ND ltac:(lia) ltac:(lia)) as (z1 & E2 & P2 & V2). step E2. destruct (mod_ord z1 P2) as [N3 V3]. set (z2 := bn_mod z1 order_limbs) in *. clearbody z2.
  destruct (mul_ord _ w NR N1 ltac:(lia) ltac:(lia)) as (u1 & E4 & P4 & V4). step E4. destruct (mod_ord u1 P4) as [N5 V5]. set (u2 := bn_mod u1 order_limbs) in *. clearbody u2.
  rewrite VD in V2. rewrite VR in V4. rewrite V2 in V3. rewrite V4 in V5. rewrite (Z.mul_comm (bn_val w)) in V3. rewrite bn_is_zero_spec, V3 by auto.
  assert (ZW : (number digest * bn_val w) mod N = 0 <-> number digest mod N = 0).
  { split; intros Q.
    - destruct (Z.eq_dec (number digest mod N) 0) as [Q'|Q']; auto. exfalso. apply (mul_ne (number digest) (bn_val w)).
      + unfold eqm. rewrite Z.mod_0_l by discriminate. auto.
      + apply small_ne. auto.
      + unfold eqm. rewrite Q. reflexivity.
    - rewrite <- Z.mul_mod_idemp_l, Q by discriminate. reflexivity. }
  destruct (Z.eqb_spec ((number digest * bn_val w) mod N) 0) as [Z0|Z0]; [eexists; split; [reflexivity|]; split; [discriminate|]; intros (Q & _); apply ZW in Z0; lia|].
  assert (RU : 0 <= (number digest * bn_val w) mod N < N) by (apply Z.mod_pos_bound; lia). assert (RU2 : 0 <= (number r * bn_val w) mod N < N) by (apply Z.mod_pos_bound; lia).
  destruct (scalar_multiply_all rz z2 RZ N3 ltac:(lia)) as (res & E6 & C6). step E6. rewrite V3 in C6.
  destruct (point_multiply_all rz' u2 p _ RZ' N5 ltac:(lia) CP ltac:(discriminate)) as (pu & E7 & C7). step E7. rewrite V5 in C7.
  destruct (crep_add _ _ _ _ C7 C6) as (sm & E8 & C8). step E8. eexists. split; [reflexivity|].
  rewrite ec_add_comm in C8 by (apply C7 || apply C6).
  assert (EV : ecdsa_valid (Some (x, y)) (number digest) (number r) (number s) <->
    exists X Y, ec_add (ec_mul ((number digest * bn_val w) mod N) gen) (ec_mul ((number r * bn_val w) mod N) (Some (x, y))) = Some (X, Y) /\ X mod N = number r).
  { split.
    - intros (_ & _ & w' & X & Y & W' & EX & MX). exists X, Y. split; [|auto]. rewrite <- EX. pose proof (inv_unique _ _ _ W' V1) as IU.
      f_equal; f_equal; rewrite <- Z.mul_mod_idemp_r, <- IU, Z.mul_mod_idemp_r by discriminate; reflexivity.
    - intros (X & Y & EX & MX). split; [lia|]. split; [lia|]. exists (bn_val w), X, Y. auto. }
  destruct sm as [sx sy]. destruct (crep_norm _ _ C8) as (A & _ & B & _). cbn [fst snd] in *.
  destruct (bn_mod_spec sx order_limbs A order_norm) as [NM VM]; [rewrite order_val; pose proof P_range; lia|]. rewrite order_val in VM.
  rewrite bn_is_equal_spec, VM, VR by auto. rewrite EV. assert (Q0 : number digest mod N <> 0) by (rewrite <- ZW; auto).
  destruct (ec_add (ec_mul ((number digest * bn_val w) mod N) gen) (ec_mul ((number r * bn_val w) mod N) (Some (x, y)))) as [[X Y]|].
  - destruct (crep_some _ _ _ _ C8) as (_ & _ & VX & _). rewrite VX. destruct (Z.eqb_spec (X mod N) (number r)) as [Q|Q].
    + split; [|auto]. intros _. split; [auto|]. exists X, Y. auto.
    + split; [discriminate|]. intros (_ & X' & Y' & E & Q'). injection E as <- <-. contradiction.
  - apply crep_none in C8. injection C8 as -> ->. change (bn_val bn_zero mod N) with 0. destruct (Z.eqb_spec 0 (number r)) as [Q|Q]; [lia|].
    split; [discriminate|]. intros (_ & X' & Y' & E & _). discriminate.
Qed.
