(** What users of the key classes see: signing and checking, key agreement, ordering, derivation. *)
From Coq Require Import Lia Znumtheory Setoid Morphisms.
From Verif Require Import Base.Bytes Base.BytesFacts Base.Curve Spec.Bignum Spec.Codecs Spec.Wire Spec.Objects Spec.Hash Spec.Keys Spec.Scalar Spec.Point Spec.Curve Spec.Schemes
  Model.Bignum Model.Scalar Model.Stream Model.Point Model.EC Model.ECDSA Model.Hash Model.Signature Model.PointOps
  Proof.IntVarint Proof.BnCore Proof.BnIo Proof.ScalarProps Proof.PointFacts Proof.PointProps Proof.CurveFacts Proof.EcField Proof.EcPoint Proof.EcGroup
  Proof.EcMult Proof.EcTable Proof.EcOrder Proof.EcApi Proof.EcdsaFacts Proof.EcdsaSign Proof.EcInf Proof.PointOpsFacts Proof.SigProps Proof.HashProps Proof.SchemeProps Proof.SchnorrProps.
Open Scope Z_scope.
Local Existing Instances eqm_setoid Zplus_eqm Zminus_eqm Zmult_eqm Zopp_eqm.

(** ** A signature and its nonce *)
Lemma signature_fun : forall d z k r s id r' s' id', ecdsa_signature d z k r s id -> ecdsa_signature d z k r' s' id' -> r = r' /\ s = s' /\ id = id'.
Proof.
  intros d z k r s id r' s' id' (_ & x & y & w & t & M & W & R & _ & T & _ & S & I) (_ & x' & y' & w' & t' & M' & W' & R' & _ & T' & _ & S' & I').
  rewrite M in M'. injection M' as <- <-. assert (ER : r = r') by congruence. assert (ET : t = t').
  { rewrite T, T', <- ER. rewrite <- Z.mul_mod_idemp_l, (inv_unique _ _ _ W W'), Z.mul_mod_idemp_l by discriminate. reflexivity. }
  rewrite <- ET in S', I'. split; [auto|]. split; [rewrite S, S'; reflexivity|rewrite I, I'; reflexivity].
Qed.
Lemma nonce_unique : forall d z k k' r s id id', ecdsa_signature d z k r s id -> ecdsa_signature d z k' r s id' -> k = k' \/ k = N - k'.
Proof.
  assert (G : forall d z k r s id, ecdsa_signature d z k r s id -> k * s == z + r * d \/ k * s == - (z + r * d)).
  { intros d z k r s id (K & x & y & w & t & M & W & R & _ & T & _ & S & I). apply eqm_one in W.
    assert (KT : k * t == z + r * d). { rewrite T, eqm_mod. transitivity (k * w * (z + r * d)); [unfold eqm; f_equal; ring|rewrite W, Z.mul_1_l; reflexivity]. }
    assert (ES : s = t \/ s = N - t) by lia. destruct ES as [-> | ->]; [left; exact KT|right]. rewrite eqm_neg, <- KT. unfold eqm. f_equal. ring. }
  intros d z k k' r s id id' A B. pose proof (signature_ranges _ _ _ _ _ _ A) as (_ & S1 & S2 & _). pose proof A as ((K1 & K2) & _). pose proof B as ((K3 & K4) & _). pose proof order_pos.
  assert (NS : ~ s == 0) by (apply small_ne; lia). destruct (inverse_exists s NS) as [w W]. apply eqm_one in W.
  assert (D : k == k' \/ k == - k').
  { assert (E : k * s == k' * s \/ k * s == - k' * s).
    { replace (- k' * s) with (- (k' * s)) by ring.
      destruct (G _ _ _ _ _ _ A) as [E1|E1], (G _ _ _ _ _ _ B) as [E2|E2].
      - left. rewrite E1, E2. reflexivity.
      - right. rewrite E1, E2. unfold eqm. f_equal. ring.
      - right. rewrite E1, E2. reflexivity.
      - left. rewrite E1, E2. reflexivity. }
    assert (X : forall a b, a * s == b * s -> a == b).
    { intros a b Q. transitivity (a * s * w); [replace (a * s * w) with (a * (s * w)) by ring; rewrite W; unfold eqm; f_equal; ring|]. rewrite Q. replace (b * s * w) with (b * (s * w)) by ring. rewrite W. unfold eqm. f_equal. ring. }
    destruct E as [E|E]; apply X in E; auto. }
  destruct D as [D|D]; unfold eqm in D.
  - left. rewrite !Z.mod_small in D by lia. exact D.
  - right. rewrite Z.mod_small in D by lia. rewrite D. symmetry. apply (Z.mod_unique_pos _ _ (-1)); lia.
Qed.
Section Sign.
Variables K H : list Z.
Hypothesis C : fips_constants fips256 K H.
Notation hmac := (rfc2104 (fips_hash fips256 K H) 64).
Notation nonce := (rfc6979_number hmac).
(** The signature depends on no random number. *)
Lemma sign_deterministic : forall rz randk rz' randk' d p p' hash, (forall i, random_below P (rz i)) -> (forall i, random_below N (randk i)) -> (forall i, random_below P (rz' i)) -> (forall i, random_below N (randk' i)) ->
  is_scalar d -> word256 hash -> exists g g', prv_sign rz randk (mkPrv d p) hash = Ok g /\ prv_sign rz' randk' (mkPrv d p') hash = Ok g' /\ sg_r g = sg_r g' /\ sg_s g = sg_s g'.
Proof.
  intros rz randk rz' randk' d p p' hash R RK R' RK' SD WH. destruct (sign_ok K H C rz randk d p hash R RK SD WH) as (g & E & _ & G). destruct (sign_ok K H C rz' randk' d p' hash R' RK' SD WH) as (g' & E' & _ & G').
  exists g, g'. split; [auto|]. split; [auto|]. destruct G as [(j & r & s & J & ER & ES & SG & FI)|(NO & ER & ES)], G' as [(j' & r' & s' & J' & ER' & ES' & SG' & FI')|(NO' & ER' & ES')].
  - assert (j = j') as <-. { destruct (Nat.lt_trichotomy j j') as [L|[->|L]]; [exfalso; apply (FI' _ L _ _ _ SG)|auto|exfalso; apply (FI _ L _ _ _ SG')]. }
    destruct (signature_fun _ _ _ _ _ _ _ _ _ SG SG') as (-> & -> & _). split; congruence.
  - exfalso. apply (NO' _ J _ _ _ SG).
  - exfalso. apply (NO _ J' _ _ _ SG').
  - split; congruence.
Qed.
Lemma sign_verify : forall rz0 rz randk rz1 rz2 d c hash key, random_below P rz0 -> (forall i, random_below P (rz i)) -> (forall i, random_below N (randk i)) -> random_below P rz1 -> random_below P rz2 ->
  word256 d -> 0 < number d < N -> prv_make rz0 d c = Ok key -> word256 hash -> number hash mod N <> 0 ->
  (exists j, (j < Z.to_nat 10000)%nat /\ ecdsa_usable (number d) (number hash) (nonce d hash j)) ->
  exists g, prv_sign rz randk key hash = Ok g /\ pk_verify rz1 rz2 (prv_pub key) g hash = Ok true /\ 0 < number (sg_s g) /\ 2 * number (sg_s g) <= N.
Proof.
  intros rz0 rz randk rz1 rz2 d c hash key R0 R RK R1 R2 WD RD EK WH NZ (j0 & J0 & r0 & s0 & id0 & SG0). assert (SD : is_scalar d) by (split; [auto|lia]).
  destruct (prv_make_ok rz0 d c R0 SD) as (p & E & X & _). rewrite E in EK. injection EK as <-. cbn [prv_pub].
  destruct (sign_ok K H C rz randk d p hash R RK SD WH) as (g & EG & _ & G). exists g. split; [auto|]. destruct G as [(j & r & s & J & ER & ES & SG & FI)|(NO & _)]; [|exfalso; apply (NO _ J0 _ _ _ SG0)].
  split; [apply (signed_verifies rz1 rz2 (number d) p g hash _ r s _ R1 R2 RD X WH NZ ER ES SG)|]. destruct (signature_ranges _ _ _ _ _ _ SG) as (_ & S1 & S2 & _).
  pose proof order_range. rewrite ES, scalar_of_num by lia. auto.
Qed.
(** The number signed with is the first usable one. *)
Lemma sign_first : forall rz randk d p hash j r s id, (forall i, random_below P (rz i)) -> (forall i, random_below N (randk i)) -> is_scalar d -> word256 hash -> (j < Z.to_nat 10000)%nat ->
  (forall j', (j' < j)%nat -> ~ ecdsa_usable (number d) (number hash) (nonce d hash j')) -> ecdsa_signature (number d) (number hash) (nonce d hash j) r s id ->
  exists g, prv_sign rz randk (mkPrv d p) hash = Ok g /\ sg_r g = be_bytes 32 r /\ sg_s g = be_bytes 32 s /\ sg_index g = id.
Proof.
  intros rz randk d p hash j r s id R RK SD WH J FI SG. destruct (sign_ok K H C rz randk d p hash R RK SD WH) as (g & E & _ & G). exists g. split; [auto|].
  destruct G as [(j' & r' & s' & J' & ER' & ES' & SG' & FI')|(NO & _)]; [|exfalso; apply (NO _ J _ _ _ SG)].
  assert (j = j') as <-. { destruct (Nat.lt_trichotomy j j') as [L|[->|L]]; [exfalso; apply (FI' _ L _ _ _ SG)|auto|exfalso; apply (FI _ L); exists r', s', (sg_index g); auto]. }
  destruct (signature_fun _ _ _ _ _ _ _ _ _ SG SG') as (-> & -> & ->). auto.
Qed.
Lemma sign_zero_refused : forall rz0 rz randk rz1 rz2 d c hash key, random_below P rz0 -> (forall i, random_below P (rz i)) -> (forall i, random_below N (randk i)) -> random_below P rz1 -> random_below P rz2 ->
  word256 d -> 0 < number d < N -> prv_make rz0 d c = Ok key -> word256 hash -> number hash mod N = 0 ->
  exists g, prv_sign rz randk key hash = Ok g /\ pk_verify rz1 rz2 (prv_pub key) g hash = Ok false.
Proof.
  intros rz0 rz randk rz1 rz2 d c hash key R0 R RK R1 R2 WD RD EK WH NZ. assert (SD : is_scalar d) by (split; [auto|lia]).
  destruct (prv_make_ok rz0 d c R0 SD) as (p & E & X & _). rewrite E in EK. injection EK as <-. cbn [prv_pub].
  destruct (sign_ok K H C rz randk d p hash R RK SD WH) as (g & EG & _ & G). exists g. split; [auto|].
  apply (verify_zero rz1 rz2 p (ec_mul (number d) gen) g hash R1 R2 (ec_mul_point _ _ gen_point) X); auto;
  (destruct G as [(j & r & s & J & ER & ES & _)|(_ & ER & ES)]; rewrite ?ER, ?ES; [apply scalar_word|apply zeros_word]).
Qed.
Lemma sign_exhausted : forall rz randk rz1 rz2 d p a q hash, (forall i, random_below P (rz i)) -> (forall i, random_below N (randk i)) -> random_below P rz1 -> random_below P rz2 ->
  is_scalar d -> word256 hash -> (forall j, (j < Z.to_nat 10000)%nat -> ~ ecdsa_usable (number d) (number hash) (nonce d hash j)) -> is_point a -> pt_xy q = point_bytes a ->
  exists g, prv_sign rz randk (mkPrv d p) hash = Ok g /\ sg_status g = DONE /\ sg_r g = zeros 32 /\ sg_s g = zeros 32 /\ pk_verify rz1 rz2 q g hash = Ok false.
Proof.
  intros rz randk rz1 rz2 d p a q hash R RK R1 R2 SD WH NO A X. destruct (sign_ok K H C rz randk d p hash R RK SD WH) as (g & EG & ST & G). exists g. split; [auto|]. split; [auto|].
  destruct G as [(j & r & s & J & ER & ES & SG & _)|(_ & ER & ES)]; [exfalso; apply (NO _ J); exists r, s, (sg_index g); auto|]. split; [auto|]. split; [auto|].
  assert (WR : word256 (sg_r g)) by (rewrite ER; apply zeros_word). assert (WS : word256 (sg_s g)) by (rewrite ES; apply zeros_word). destruct a as [[x y]|].
  - destruct (verify_exact rz1 rz2 q x y g hash R1 R2 X A WR WS WH) as (b & EB & HB). rewrite EB. f_equal. destruct b; auto. destruct (proj1 HB eq_refl) as [_ (R0 & _)]. rewrite ER in R0. change (number (zeros 32)) with 0 in R0. lia.
  - destruct q as [xy cc st n]. cbn [pt_xy] in X. subst xy. apply verify_infinity; auto.
Qed.
End Sign.

(** ** Validity as in SEC 1 *)
Lemma zero_valid_refused : forall rz1 rz2 d q hash k r s id, random_below P rz1 -> random_below P rz2 -> 0 < d < N -> pt_xy q = point_bytes (ec_mul d gen) -> word256 hash -> number hash mod N = 0 ->
  ecdsa_signature d (number hash) k r s id ->
  ecdsa_valid (ec_mul d gen) (number hash) r s /\ pk_verify rz1 rz2 q (mkSig (be_bytes 32 r) (be_bytes 32 s) 0 0 0 id DONE 0) hash = Ok false.
Proof.
  intros rz1 rz2 d q hash k r s id R1 R2 RD X WH Z0 SG. split; [apply (signature_valid d _ k r s id); auto; lia|].
  apply (verify_zero rz1 rz2 q (ec_mul d gen) _ hash R1 R2 (ec_mul_point _ _ gen_point) X); cbn [sg_r sg_s]; auto; apply scalar_word.
Qed.
(** ** Key agreement *)
Lemma mul_mul : forall i j, 0 <= i -> 0 <= j -> ec_mul i (ec_mul j gen) = ec_mul (i * j) gen.
Proof.
  intros i j I J. pose proof gen_point as G. rewrite (ec_mul_smul i (ec_mul j gen)), (ec_mul_smul j gen), (ec_mul_smul (i * j) gen) by (try apply Z.mul_nonneg_nonneg; auto). symmetry. apply smul_smul. exact G.
Qed.
Lemma ecdh_symmetric : forall rz0 rz0' rz1 rz2 a b ca cb ka kb h, random_below P rz0 -> random_below P rz0' -> random_below P rz1 -> random_below P rz2 ->
  word256 a -> word256 b -> 0 < number a < N -> 0 < number b < N -> prv_make rz0 a ca = Ok ka -> prv_make rz0' b cb = Ok kb ->
  exists x y, ec_mul (number a * number b) gen = Some (x, y) /\ on_curve x y /\
    prv_ecdh rz1 ka (prv_pub kb) h = Ok (if h then sha256 (coords x y) else be_bytes 32 x) /\ prv_ecdh rz2 kb (prv_pub ka) h = Ok (if h then sha256 (coords x y) else be_bytes 32 x).
Proof.
  intros rz0 rz0' rz1 rz2 a b ca cb ka kb h R0 R0' R1 R2 WA WB RA RB EA EB. assert (SA : is_scalar a) by (split; [auto|lia]). assert (SB : is_scalar b) by (split; [auto|lia]).
  destruct (prv_make_ok rz0 a ca R0 SA) as (pa & E1 & X1 & _). rewrite E1 in EA. injection EA as <-. destruct (prv_make_ok rz0' b cb R0' SB) as (pb & E2 & X2 & _). rewrite E2 in EB. injection EB as <-. cbn [prv_pub].
  pose proof gen_point as G. assert (PT : is_point (ec_mul (number a * number b) gen)) by (apply ec_mul_point, G).
  assert (NN : ec_mul (number a * number b) gen <> None).
  { rewrite ec_mul_smul by (apply Z.mul_nonneg_nonneg; lia). apply (smul_ne gen gen_point); [discriminate|exact gen_order|]. intros D. apply (prime_mult _ order_prime) in D as [D|D]; apply Z.divide_pos_le in D; lia. }
  destruct (ec_mul (number a * number b) gen) as [[x y]|] eqn:M; [|contradiction]. exists x, y. split; [auto|]. split; [exact PT|].
  destruct (mul_curve _ RA) as (xa & ya & EA & _). destruct (mul_curve _ RB) as (xb & yb & EB & _). split.
  - apply (ecdh_ok rz1 a pa pb (ec_mul (number b) gen) h x y R1 SA); auto; [apply ec_mul_point; auto|rewrite EB; discriminate|]. rewrite mul_mul by lia. exact M.
  - apply (ecdh_ok rz2 b pb pa (ec_mul (number a) gen) h x y R2 SB); auto; [apply ec_mul_point; auto|rewrite EA; discriminate|]. rewrite mul_mul, Z.mul_comm by lia. exact M.
Qed.
