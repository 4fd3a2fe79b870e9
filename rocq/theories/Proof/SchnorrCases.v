(** Schnorr signatures through the key classes, and concrete cases. *)
From Coq Require Import Lia Znumtheory Setoid Morphisms.
From Verif Require Import Base.Bytes Base.BytesFacts Base.Curve Spec.Bignum Spec.Codecs Spec.Wire Spec.Objects Spec.Hash Spec.Keys Spec.Scalar Spec.Point Spec.Curve Spec.Schemes
  Model.Bignum Model.Scalar Model.Stream Model.Point Model.EC Model.ECDSA Model.Hash Model.Signature Model.PointOps
  Proof.IntVarint Proof.ScalarProps Proof.PointFacts Proof.PointProps Proof.CurveFacts Proof.EcField Proof.EcGroup Proof.HashInst
  Proof.EcMult Proof.EcTable Proof.EcOrder Proof.EcApi Proof.EcdsaFacts Proof.PointOpsFacts Proof.HashProps Proof.SchemeProps Proof.SchnorrProps Proof.SchemeMain Proof.SchemeMore Proof.SignHints Proof.SignExample Proof.SchemeCases.
Open Scope Z_scope.

Section Schnorr.
Variables K H : list Z.
Hypothesis C : fips_constants fips256 K H.
Notation tagged tag := (bip340_hash (fips_hash fips256 K H) (chars tag)).
Lemma schnorr_sign_verify : forall g g2 rz0 rz rz2 d c hash key, random_below P rz0 -> (forall i, random_below P (rz i)) -> (forall i, random_below P (rz2 i)) ->
  word256 d -> 0 < number d < N -> prv_make rz0 d c = Ok key -> word256 hash ->
  forall d' px, bip340_secret (number d) d' px ->
  let k := number (tagged "BIP0340/nonce" (be_bytes 32 d' ++ be_bytes 32 px ++ hash)) in 0 < k < N ->
  forall k' r, bip340_secret k k' r -> number (tagged "BIP0340/challenge" (be_bytes 32 r ++ be_bytes 32 px ++ hash)) < N ->
  exists s, schnorr_sign g rz key hash = Ok (mkSch (be_bytes 32 r) (be_bytes 32 s) DONE 0) /\
    bip340_signature (tagged "BIP0340/challenge") (number d) k hash r s /\ bip340_valid (tagged "BIP0340/challenge") px hash r s /\
    schnorr_verify g2 rz2 (prv_pub key) (mkSch (be_bytes 32 r) (be_bytes 32 s) DONE 0) hash = Ok true.
Proof.
  intros g g2 rz0 rz rz2 d c hash key R0 R R2 WD RD EK WH d' px SE k RK k' r SK LE. assert (SD : is_scalar d) by (split; [auto|lia]).
  destruct (prv_make_ok rz0 d c R0 SD) as (p & E & X & _). rewrite E in EK. injection EK as <-. cbn [prv_pub].
  exact (schnorr_round K H C g g2 rz rz2 d p p hash R R2 SD (proj1 RD) X X WH d' px SE RK k' r SK LE).
Qed.
Lemma word_of : forall v, 0 <= v < N -> is_scalar (be_bytes 32 v) /\ number (be_bytes 32 v) = v.
Proof. intros v V. pose proof order_range. assert (E : number (be_bytes 32 v) = v) by (apply scalar_of_num; lia). split; [split; [apply scalar_word|lia]|exact E]. Qed.
Lemma valid_accepted : forall g rz pub px py hash r s st n, (forall i, random_below P (rz i)) -> pt_xy pub = coords px py -> on_curve px py -> word256 hash ->
  bip340_valid (tagged "BIP0340/challenge") px hash r s -> number (tagged "BIP0340/challenge" (be_bytes 32 r ++ be_bytes 32 px ++ hash)) < N ->
  schnorr_verify g rz pub (mkSch (be_bytes 32 r) (be_bytes 32 s) st n) hash = Ok true /\
  schnorr_verify g rz pub (mkSch (be_bytes 32 r) (be_bytes 32 ((N - s) mod N)) st n) hash = Ok true.
Proof.
  intros g rz pub px py hash r s st n R X O WH V LE. pose proof V as (py2 & ry & _ & _ & OR & YR & RS & _). pose proof OR as (RX & _). pose proof P_range as PR. pose proof order_pos as OP. pose proof order_range as OR0.
  assert (NR : number (be_bytes 32 r) = r) by (apply scalar_of_num; lia). destruct (word_of s RS) as [SS NS]. destruct (word_of ((N - s) mod N) ltac:(apply Z.mod_pos_bound; lia)) as [SS2 NS2].
  assert (QQ : on_curve_x (number (be_bytes 32 r))) by (rewrite NR; exists ry; exact OR). split.
  - destruct (verify_bip340 K H C g rz pub px py (mkSch (be_bytes 32 r) (be_bytes 32 s) st n) hash R X O (scalar_word _) SS WH QQ LE) as (b & EB & HB).
    rewrite EB. f_equal. apply HB. left. cbn [sn_r sn_s]. rewrite NR, NS. exact V.
  - destruct (verify_bip340 K H C g rz pub px py (mkSch (be_bytes 32 r) (be_bytes 32 ((N - s) mod N)) st n) hash R X O (scalar_word _) SS2 WH QQ LE) as (b & EB & HB).
    rewrite EB. f_equal. apply HB. right. cbn [sn_r sn_s]. rewrite NR, NS2. replace ((N - (N - s) mod N) mod N) with s; [exact V|].
    clear - RS OP. destruct (Z.eq_dec s 0) as [->|NZ]; [vm_compute; reflexivity|]. rewrite (Z.mod_small (N - s)) by lia. rewrite Z.mod_small; lia.
Qed.
Lemma order_odd : N mod 2 = 1. Proof. reflexivity. Qed.
Lemma negated : forall g rz pub px py hash r s st n, (forall i, random_below P (rz i)) -> pt_xy pub = coords px py -> on_curve px py -> word256 hash ->
  bip340_valid (tagged "BIP0340/challenge") px hash r s -> s <> 0 -> number (tagged "BIP0340/challenge" (be_bytes 32 r ++ be_bytes 32 px ++ hash)) < N ->
  schnorr_verify g rz pub (mkSch (be_bytes 32 r) (be_bytes 32 (N - s)) st n) hash = Ok true /\ ~ bip340_valid (tagged "BIP0340/challenge") px hash r (N - s).
Proof.
  intros g rz pub px py hash r s st n R X O WH V NZ LE. pose proof V as (py2 & ry & _ & _ & OR & YR & RS & _). split.
  - destruct (valid_accepted g rz pub px py hash r s st n R X O WH V LE) as [_ A]. rewrite Z.mod_small in A by lia. exact A.
  - intros V2. pose proof (bip340_unique _ _ _ _ _ _ V V2) as Q. pose proof order_odd as OO. clear - Q OO. generalize dependent N. intros n Q OO. dlia.
Qed.
End Schnorr.

(** ** Cases *)
Notation sha := (fips_hash fips256 K256 H256).
Notation ch := (bip340_hash sha (chars "BIP0340/challenge")).
Lemma num_be : forall l, be_val 256 l = number l. Proof. reflexivity. Qed.
Definition case_s : Z := 0xe896858280149823b5f6df920c70f11dc052fa43ae3b51d6cdcaf8ba6fd07342.
Lemma secret_one : bip340_secret 1 1 gen_x.
Proof. split; [auto|]. exists gen_y. split; [exact gen_1|reflexivity]. Qed.
Lemma case_nonce : bip340_secret schnorr_k (N - schnorr_k) (fst schnorr_point).
Proof.
  split; [auto|]. exists (P - snd schnorr_point). pose proof schnorr_mul as M. assert (RK : 0 <= schnorr_k < N) by (split; [discriminate|reflexivity]).
  assert (EO : ec_mul (N - schnorr_k) gen = ec_neg (ec_mul schnorr_k gen)). { rewrite <- ec_mul_opp by auto. rewrite Z.mod_small; [reflexivity|]. pose proof RK as [_ RK2]. assert (0 < schnorr_k) by reflexivity. lia. }
  rewrite EO, M. assert (OS : snd schnorr_point mod 2 = 1) by (vm_compute; reflexivity). pose proof (ec_mul_point schnorr_k gen gen_point) as PT. rewrite M in PT. destruct schnorr_point as [sx sy]. cbn [fst snd]. destruct (neg_y sx sy PT) as (EN & _ & MN). split; [exact EN|]. rewrite MN.
  cbn [snd] in OS. rewrite OS. reflexivity.
Qed.
Lemma schnorr_case : forall g g2 rz0 rz rz2, random_below P rz0 -> (forall i, random_below P (rz i)) -> (forall i, random_below P (rz2 i)) ->
  exists key, prv_make rz0 (be_bytes 32 1) true = Ok key /\
    schnorr_sign g rz key (sha (chars "Satoshi Nakamoto")) = Ok (mkSch (be_bytes 32 (fst schnorr_point)) (be_bytes 32 case_s) DONE 0) /\
    schnorr_verify g2 rz2 (prv_pub key) (mkSch (be_bytes 32 (fst schnorr_point)) (be_bytes 32 case_s) DONE 0) (sha (chars "Satoshi Nakamoto")) = Ok true.
Proof.
  intros g g2 rz0 rz rz2 R0 R R2. rewrite <- satoshi_sha. fold one. destruct one_scalar as [S1 V1]. destruct (prv_make_ok rz0 one true R0 S1) as (p & E & X & _). exists (mkPrv one p). split; [exact E|].
  pose proof schnorr_nonce as SN. pose proof schnorr_challenge as SC. pose proof secret_one as SO. rewrite <- V1 in SO at 1. pose proof case_nonce as CN.
  assert (RK : 0 < schnorr_k < N) by (split; reflexivity). rewrite <- SN in RK, CN at 1.
  destruct (schnorr_sign_verify K256 H256 constants256 g g2 rz0 rz rz2 one true satoshi_hash _ R0 R R2 (proj1 S1) ltac:(rewrite V1; split; reflexivity) E satoshi_word 1 gen_x SO RK _ _ CN) as (s & ES & SG & V & EV); [rewrite SC; reflexivity|].
  assert (Q : s = case_s); [|rewrite Q in *; auto].
  destruct SG as (d1 & px1 & k1 & A & B & ->). rewrite V1 in A. destruct (secret_unique 1 _ _ _ _ ltac:(split; reflexivity) A secret_one) as [-> ->].
  destruct (secret_unique _ _ _ _ _ RK B CN) as [-> _]. rewrite num_be, SC. vm_compute. reflexivity.
Qed.
(** A signature whose r is 5, which no point has. *)
Definition five_e : Z := number (bip340_hash sha tag_c (be_bytes 32 5 ++ be_bytes 32 gen_x ++ satoshi_hash)).
Lemma five_def : number (bip340_hash sha tag_c (be_bytes 32 5 ++ be_bytes 32 gen_x ++ satoshi_hash)) = five_e. Proof. unfold five_e. reflexivity. Qed.
Lemma five_range : 0 <= five_e < N - 1.
Proof. vm_compute. split; [discriminate|reflexivity]. Qed.
Lemma five_case : forall rz pub, (forall i, random_below P (rz i)) -> pt_xy pub = point_bytes gen ->
  schnorr_verify (coords gen_x gen_y) rz pub (mkSch (be_bytes 32 5) (be_bytes 32 (five_e + 1)) DONE 0) satoshi_hash = Ok true.
Proof.
  intros rz pub R X. pose proof five_range as RE. destruct (word_of (five_e + 1) ltac:(lia)) as [SS NS]. pose proof gen_point as G. assert (N5 : number (be_bytes 32 5) = 5) by reflexivity.
  refine (proj1 (verify_garbage K256 H256 constants256 (coords gen_x gen_y) rz pub gen_x gen_y (mkSch (be_bytes 32 5) (be_bytes 32 (five_e + 1)) DONE 0) satoshi_hash gen_x gen_y R X G eq_refl (scalar_word _) SS satoshi_word _ eq_refl G _ _)).
  - cbn [sn_r]. rewrite N5. exact no_x_five.
  - cbn [sn_r]. rewrite five_def. lia.
  - cbn [sn_r sn_s]. rewrite five_def. fold gen. rewrite NS. pose proof (proj1 RE) as RE0. clear - RE0. generalize dependent five_e. intros e RE0. rewrite !ec_mul_smul by lia. rewrite smul_add, smul_1 by (exact gen_point || lia). reflexivity.
Qed.
