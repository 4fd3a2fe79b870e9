(** Keys, ECDSA, ECDH and Schnorr signatures of PrivateKey and PublicKey. *)
From Coq Require Import Lia Znumtheory Setoid Morphisms.
From Verif Require Import Base.Bytes Base.BytesFacts Base.Fermat Spec.Bignum Spec.Codecs Spec.Wire Spec.Objects Spec.Hash Spec.Keys Spec.Scalar Spec.Point Spec.Curve Spec.Schemes
  Model.Bignum Model.Scalar Model.Inverse Model.Stream Model.Point Model.EC Model.ECDSA Model.Hash Model.Signature Model.PointOps
  Proof.IntVarint Proof.BnCore Proof.BnRed Proof.BnIo Proof.ScalarProps Proof.PointFacts Proof.PointProps Proof.CurveFacts Proof.EcField Proof.EcPoint Proof.EcJac Proof.EcGroup
  Proof.EcRecode Proof.EcMult Proof.EcTable Proof.EcOrder Proof.EcApi Proof.EcInf Proof.EcdsaFacts Proof.EcdsaSign Proof.PointOpsFacts Proof.SigProps Proof.HashProps.
Open Scope Z_scope.
Notation "a == b" := (eqm N a b) (at level 70).
Local Existing Instances eqm_setoid Zplus_eqm Zminus_eqm Zmult_eqm Zopp_eqm.

(** ** No point has x = 0: 7 is not a square *)
Transparent field_prime.
Lemma seven_half : (powm p_red 7 (Z.to_pos ((P - 1) / 2)) - 1) mod P <> 0 /\ (P - 1) mod 2 = 0.
Proof. vm_compute. split; [discriminate|reflexivity]. Qed.
Global Opaque field_prime.
Lemma seven_square : forall y e, 0 < e -> P - 1 = 2 * e -> ~ (P | y) -> (P | y * y - 7) -> (P | 7 ^ e - 1).
Proof.
  intros y e Ep E2 NY D. pose proof (fermat P y field_prime_prime NY) as FY. rewrite E2, Z.pow_mul_r in FY by lia.
  assert (K : (P | 7 ^ e - (y ^ 2) ^ e)). { apply pow_mul_mod; [lia|]. replace (7 - y ^ 2) with (- (y * y - 7)) by ring. apply Z.divide_opp_r. exact D. }
  replace (7 ^ e - 1) with ((7 ^ e - (y ^ 2) ^ e) + ((y ^ 2) ^ e - 1)) by lia. apply Z.divide_add_r; auto.
Qed.
Lemma no_x_zero : forall y, ~ on_curve 0 y.
Proof.
  intros y (_ & RY & E). destruct seven_half as [NE M]. pose proof P_range as PR. change (0 * 0 * 0 + 7) with 7 in E. apply mod_eq_divide in E.
  assert (NY : ~ (P | y)).
  { intros D. assert (D7 : (P | 7)). { replace 7 with (y * y - (y * y - 7)) by ring. apply Z.divide_sub_r; [apply Z.divide_mul_l; exact D|exact E]. } apply Z.divide_pos_le in D7; lia. }
  assert (E2 : exists e, (P - 1) / 2 = e /\ P - 1 = 2 * e /\ 0 < e).
  { exists ((P - 1) / 2). split; [reflexivity|]. clear - M PR. generalize dependent P. intros p PR M. dlia. }
  destruct E2 as (e & Ee & E2 & Ep). rewrite Ee in NE. apply NE. apply Z.mod_divide; [lia|].
  pose proof (powm_spec P p_red 7 (Z.to_pos e) p_red_ok) as HS. rewrite Z2Pos.id in HS by auto. generalize dependent (powm p_red 7 (Z.to_pos e)). intros w _ HS.
  replace (w - 1) with ((w - 7 ^ e) + (7 ^ e - 1)) by lia. apply Z.divide_add_r; [exact HS|]. apply (seven_square y); auto.
Qed.

(** ** ECDSA *)
Lemma serialize65 : forall p x y, pt_xy p = coords x y ->
  serialize (pt_to_stream p) 65 0 = Ok (pt_length (pt_comp p), sec_bytes (pt_comp p) x y ++ zeros (65 - length (sec_bytes (pt_comp p) x y))).
Proof. exact sec65. Qed.
Lemma sig_bin64 : forall g, length (sg_r g) = 32%nat -> length (sg_s g) = 32%nat -> sig_bin g (zeros 64) = Ok (sg_r g ++ sg_s g).
Proof.
  intros g R S. rewrite sig_bin_spec by auto. change (length (zeros 64)) with 64%nat. change (skipn 65 (zeros 64)) with (@nil Z). rewrite app_nil_r, app_assoc.
  rewrite firstn_app_len by (rewrite app_length; lia). reflexivity.
Qed.
Lemma verify_exact : forall rz rz' p x y g hash, random_below P rz -> random_below P rz' -> pt_xy p = coords x y -> on_curve x y -> word256 (sg_r g) -> word256 (sg_s g) -> word256 hash ->
  exists b, pk_verify rz rz' p g hash = Ok b /\
    (b = true <-> number hash mod N <> 0 /\ ecdsa_valid (Some (x, y)) (number hash) (number (sg_r g)) (number (sg_s g))).
Proof.
  intros rz rz' p x y g hash R R' E O WR WS WH. unfold pk_verify. step (sig_bin64 g (proj2 WR) (proj2 WS)). step (serialize65 p x y E). cbn [snd].
  destruct (read_sec (pt_comp p) x y (zeros (65 - length (sec_bytes (pt_comp p) x y))) O (bytes_ok_zeros _)) as (q & EQ & C).
  destruct (verify_code rz rz' _ q x y (sg_r g) (sg_s g) hash R R' EQ C WR WS WH) as (c & EC & HC). step EC. exists (c =? 0). split; [reflexivity|]. rewrite Z.eqb_eq. exact HC.
Qed.
(** The point at infinity is no public key. *)
Lemma verify_infinity : forall rz rz' c st n g hash, word256 (sg_r g) -> word256 (sg_s g) -> pk_verify rz rz' (mkPt (zeros 64) c st n) g hash = Ok false.
Proof.
  intros rz rz' c st n g hash WR WS. unfold pk_verify. step (sig_bin64 g (proj2 WR) (proj2 WS)). pose proof P_range as PR.
  step (serialize65 (mkPt (zeros 64) c st n) 0 0 zeros_coords). cbn [snd pt_comp]. set (buf := sec_bytes c 0 0 ++ zeros (65 - length (sec_bytes c 0 0))).
  assert (L : length buf = 65%nat) by (destruct c; reflexivity). destruct (read_pubkey_ok buf) as (r & E & RD); [apply bytes_ok_app; split; [apply sec_ok|apply bytes_ok_zeros]|lia|lia|].
  assert (NR : r = None).
  { destruct r as [[bx bY]|]; auto. exfalso. unfold reads in RD. destruct RD as (_ & _ & O & c' & rest & Q). unfold buf in Q. pose proof O as (X & Y & _).
    assert (Z0 : 0 <= 0 < P) by lia. destruct (sec_inj _ _ _ _ _ _ _ _ Z0 Z0 X Y Q) as (_ & X0 & _). rewrite <- X0 in O. apply (no_x_zero _ O). }
  subst r. unfold verify_digest. step E. reflexivity.
Qed.
Section Sign.
Variables K H : list Z.
Hypothesis C : fips_constants fips256 K H.
Notation hmac := (rfc2104 (fips_hash fips256 K H) 64).
Lemma sign_ok : forall rz randk d p hash, (forall i, random_below P (rz i)) -> (forall i, random_below N (randk i)) -> is_scalar d -> word256 hash ->
  exists g, prv_sign rz randk (mkPrv d p) hash = Ok g /\ sg_status g = DONE /\
   ((exists j r s, (j < sign_rounds)%nat /\ sg_r g = be_bytes 32 r /\ sg_s g = be_bytes 32 s /\
       ecdsa_signature (number d) (number hash) (rfc6979_number hmac d hash j) r s (sg_index g) /\
       forall j', (j' < j)%nat -> forall r s id, ~ ecdsa_signature (number d) (number hash) (rfc6979_number hmac d hash j') r s id) \/
    ((forall j, (j < sign_rounds)%nat -> forall r s id, ~ ecdsa_signature (number d) (number hash) (rfc6979_number hmac d hash j) r s id) /\
     sg_r g = zeros 32 /\ sg_s g = zeros 32)).
Proof.
  intros rz randk d p hash R RK SD WH. unfold prv_sign, sign_digest. cbn [prv_num]. destruct (read_word256 hash WH) as [NH VH]. pose proof (number_range hash WH).
  destruct (sign_loop_ok rz randk R RK sign_rounds 0 (init_rfc6979 d hash) (bn_read_be hash) d (init_ok d hash (proj1 SD) WH) NH ltac:(lia) SD) as (o & E & HO).
  step E. rewrite VH in HO. assert (NR : forall j, rng_num (init_rfc6979 d hash) j = rfc6979_number hmac d hash j) by (intros; apply nonce_raw; auto; apply SD).
  destruct o as [[sig id]|].
  - destruct HO as (j & r & s & J & ES & SG & PR). cbn [sg_r sg_s sg_index sg_status]. eexists. split; [reflexivity|]. cbn [sg_r sg_s sg_index sg_status]. split; [reflexivity|]. left.
    exists j, r, s. split; [auto|]. rewrite ES, firstn_app_len, skipn_app_len by (rewrite be_bytes_length; reflexivity). rewrite <- NR. split; [auto|]. split; [auto|]. split; [auto|].
    intros j' J'. rewrite <- NR. auto.
  - eexists. split; [reflexivity|]. split; [reflexivity|]. right. split; [|split; reflexivity]. intros j J. rewrite <- NR. auto.
Qed.
End Sign.
Lemma signature_ranges : forall d z k r s id, ecdsa_signature d z k r s id -> 0 < r < N /\ 0 < s /\ 2 * s <= N /\ 0 <= id < 4.
Proof.
  intros d z k r s id (_ & x & y & w & t & _ & _ & R & R0 & T & T0 & S & I). pose proof order_pos. assert (0 <= r < N) by (rewrite R; apply Z.mod_pos_bound; auto).
  assert (0 <= t < N) by (rewrite T; apply Z.mod_pos_bound; auto). split; [lia|]. split; [lia|]. split; [lia|].
  pose proof (Z.mod_pos_bound y 2). destruct (t <=? N - t), (x <? N); lia.
Qed.
Lemma mul_curve : forall d, 0 < d < N -> exists x y, ec_mul d gen = Some (x, y) /\ on_curve x y.
Proof.
  intros d D. pose proof (ec_mul_point d gen gen_point) as PM. destruct (ec_mul d gen) as [[x y]|] eqn:M; [eauto|]. exfalso.
  rewrite ec_mul_smul in M by lia. revert M. apply (smul_ne gen gen_point); [discriminate|exact gen_order|]. intros DV. apply Z.divide_pos_le in DV; lia.
Qed.
Lemma signed_verifies : forall rz rz' d p g hash k r s id, random_below P rz -> random_below P rz' -> 0 < d < N -> pt_xy p = point_bytes (ec_mul d gen) -> word256 hash -> number hash mod N <> 0 ->
  sg_r g = be_bytes 32 r -> sg_s g = be_bytes 32 s -> ecdsa_signature d (number hash) k r s id -> pk_verify rz rz' p g hash = Ok true.
Proof.
  intros rz rz' d p g hash k r s id R R' D E WH NZ ER ES SG. destruct (mul_curve d D) as (x & y & M & O). rewrite M in E.
  destruct (verify_exact rz rz' p x y g hash R R' E O) as (b & EB & HB); auto; [rewrite ER; apply scalar_word|rewrite ES; apply scalar_word|].
  rewrite EB. f_equal. apply HB. split; auto. destruct (signature_ranges _ _ _ _ _ _ SG) as (RR & S1 & S2 & _). pose proof order_range.
  rewrite ER, ES, !scalar_of_num by lia. rewrite <- M. apply (signature_valid d (number hash) k r s id); auto. lia.
Qed.
Lemma verify_zero : forall rz rz' p a g hash, random_below P rz -> random_below P rz' -> is_point a -> pt_xy p = point_bytes a -> word256 (sg_r g) -> word256 (sg_s g) -> word256 hash ->
  number hash mod N = 0 -> pk_verify rz rz' p g hash = Ok false.
Proof.
  intros rz rz' p a g hash R R' A E WR WS WH Z. destruct a as [[x y]|].
  - destruct (verify_exact rz rz' p x y g hash R R' E A WR WS WH) as (b & EB & HB). rewrite EB. f_equal. destruct b; auto. destruct (proj1 HB eq_refl) as [NZ _]. contradiction.
  - destruct p as [xy c st n]. cbn [pt_xy] in E. rewrite E. apply verify_infinity; auto.
Qed.

(** ** Diffie-Hellman *)
Lemma ecdh_ok : forall rz a p q b use_hash x y, random_below P rz -> is_scalar a -> is_point b -> b <> None -> pt_xy q = point_bytes b -> ec_mul (number a) b = Some (x, y) ->
  prv_ecdh rz (mkPrv a p) q use_hash = Ok (if use_hash then sha256 (coords x y) else be_bytes 32 x).
Proof.
  intros rz a p q b h x y R A B NB E M. unfold prv_ecdh. cbn [prv_num]. destruct (pt_mul_ok rz a q b R A B NB E) as (r & E1 & X1 & _). step E1. rewrite M in X1.
  step (sec65 (mkPt (pt_xy r) false (pt_status r) (pt_parsed r)) x y X1). cbn [snd pt_comp sec_bytes]. rewrite slice_ok by (rewrite app_length; cbn [length]; rewrite coords_len; lia).
  change (Z.to_nat 1) with 1%nat. change (Z.to_nat 64) with 64%nat. cbn [app skipn]. rewrite firstn_app_len by (rewrite coords_len; reflexivity). rewrite bind_Ok. cbv beta.
  destruct h; [reflexivity|]. unfold coords. rewrite firstn_app_len by (rewrite be_bytes_length; reflexivity). reflexivity.
Qed.
Lemma ecdh_infinity : forall rz a p q use_hash, random_below P rz -> word256 a -> number a <> 0 -> pt_xy q = zeros 64 -> prv_ecdh rz (mkPrv a p) q use_hash = UB.
Proof.
  intros rz a p q h R W NZ E. unfold prv_ecdh. cbn [prv_num]. assert (U : pt_mul rz a q = UB); [|rewrite U; reflexivity].
  unfold pt_mul. assert (G : pt_eq q GeneratorPoint = false) by (unfold pt_eq; rewrite E; vm_compute; reflexivity). rewrite G, E. destruct (slices_coords 0 0) as [S1 S2]. rewrite <- zeros_coords in S1, S2. step S1. step S2.
  destruct (read_word256 a W) as [NA VA]. change (bn_read_be (be_bytes 32 0), bn_read_be (be_bytes 32 0)) with cp_infinity. rewrite multiply_infinity; auto. lia.
Qed.
