(** C45 and C46: BIP340 signatures of PrivateKey and PublicKey. *)
From Verif Require Import Base.Bytes Spec.Codecs Spec.Hash Spec.Keys Spec.Scalar Spec.Bignum Spec.Point Spec.Curve Spec.Schemes
  Model.Bignum Model.Stream Model.Point Model.Signature Model.Hash Model.ECDSA Model.PointOps Proof.PointOpsFacts Proof.SchemeProps Proof.SchnorrProps Proof.SchemeMain Proof.SchemeMore Proof.SignHints Proof.SignExample Proof.SchnorrCases.
Open Scope Z_scope.
Notation tagged K H tag := (bip340_hash (fips_hash fips256 K H) (chars tag)).

(** * C45: a produced Schnorr signature verifies *)
(** [d'] and [px] are the secret and the x coordinate that BIP340 signs with. The signature is the one of
    the standard with the nonce hash taken without auxiliary randomness; BIP340 accepts it, and so does
    the library. Missing: the nonce hash or the challenge hash is not below the order (next theorem). *)
Theorem C45_schnorr_sign_verify_partial : forall K H, fips_constants fips256 K H -> forall g g2 rz0 rz rz2 d c hash key,
  random_below field_prime rz0 -> (forall i, random_below field_prime (rz i)) -> (forall i, random_below field_prime (rz2 i)) ->
  word256 d -> 0 < number d < group_order -> prv_make rz0 d c = Ok key -> word256 hash ->
  forall d' px, bip340_secret (number d) d' px ->
  let k := number (tagged K H "BIP0340/nonce" (be_bytes 32 d' ++ be_bytes 32 px ++ hash)) in 0 < k < group_order ->
  forall k' r, bip340_secret k k' r -> number (tagged K H "BIP0340/challenge" (be_bytes 32 r ++ be_bytes 32 px ++ hash)) < group_order ->
  exists s, schnorr_sign g rz key hash = Ok (mkSch (be_bytes 32 r) (be_bytes 32 s) DONE 0) /\
    bip340_signature (tagged K H "BIP0340/challenge") (number d) k hash r s /\ bip340_valid (tagged K H "BIP0340/challenge") px hash r s /\
    schnorr_verify g2 rz2 (prv_pub key) (mkSch (be_bytes 32 r) (be_bytes 32 s) DONE 0) hash = Ok true.
Proof. exact schnorr_sign_verify. Qed.
Print Assumptions C45_schnorr_sign_verify_partial.
(** Every secret and every nonce has exactly one such even form. *)
Theorem C45_even_form : forall d, 0 < d < group_order -> (exists d' px, bip340_secret d d' px) /\
  (forall d1 x1 d2 x2, bip340_secret d d1 x1 -> bip340_secret d d2 x2 -> d1 = d2 /\ x1 = x2).
Proof. intros d D. split; [exact (secret_exists d D)|intros d1 x1 d2 x2; exact (secret_unique d d1 x1 d2 x2 D)]. Qed.
Print Assumptions C45_even_form.
(** A nonce hash that is not below the order is reduced by BIP340; here an
    assertion fails and stops the program. *)
Theorem C45_schnorr_nonce_refuted : forall K H, fips_constants fips256 K H -> forall g rz d pub hash,
  (forall i, random_below field_prime (rz i)) -> is_scalar d -> 0 < number d -> pt_xy pub = point_bytes (ec_mul (number d) gen) -> word256 hash ->
  forall d' px, bip340_secret (number d) d' px -> group_order <= number (tagged K H "BIP0340/nonce" (be_bytes 32 d' ++ be_bytes 32 px ++ hash)) ->
  schnorr_sign g rz (mkPrv d pub) hash = UB.
Proof. exact nonce_over. Qed.
Print Assumptions C45_schnorr_nonce_refuted.
(** The secret 1 and the SHA-256 of "Satoshi Nakamoto". *)
Example C45_schnorr_case : forall g g2 rz0 rz rz2, random_below field_prime rz0 -> (forall i, random_below field_prime (rz i)) -> (forall i, random_below field_prime (rz2 i)) ->
  exists key, prv_make rz0 (be_bytes 32 1) true = Ok key /\
    schnorr_sign g rz key (fips_hash fips256 K256 H256 (chars "Satoshi Nakamoto")) = Ok (mkSch (be_bytes 32 (fst schnorr_point)) (be_bytes 32 case_s) DONE 0) /\
    schnorr_verify g2 rz2 (prv_pub key) (mkSch (be_bytes 32 (fst schnorr_point)) (be_bytes 32 case_s) DONE 0) (fips_hash fips256 K256 H256 (chars "Satoshi Nakamoto")) = Ok true.
Proof. exact schnorr_case. Qed.

(** * C46: schnorr_verify against BIP340 *)
(** What the library decides, when r is the x coordinate of some point and s and the challenge are below the
    order: that BIP340 accepts s, or that it accepts the negated s. *)
Theorem C46_verify_partial : forall K H, fips_constants fips256 K H -> forall g rz pub px py sg hash,
  (forall i, random_below field_prime (rz i)) -> pt_xy pub = coords px py -> on_curve px py ->
  word256 (sn_r sg) -> is_scalar (sn_s sg) -> word256 hash -> on_curve_x (number (sn_r sg)) ->
  number (tagged K H "BIP0340/challenge" (sn_r sg ++ be_bytes 32 px ++ hash)) < group_order ->
  exists b, schnorr_verify g rz pub sg hash = Ok b /\
    (b = true <-> bip340_valid (tagged K H "BIP0340/challenge") px hash (number (sn_r sg)) (number (sn_s sg)) \/
                  bip340_valid (tagged K H "BIP0340/challenge") px hash (number (sn_r sg)) ((group_order - number (sn_s sg)) mod group_order)).
Proof. exact verify_bip340. Qed.
Print Assumptions C46_verify_partial.
(** In particular it accepts every signature that BIP340 accepts. *)
Theorem C46_complete_partial : forall K H, fips_constants fips256 K H -> forall g rz pub px py hash r s st n,
  (forall i, random_below field_prime (rz i)) -> pt_xy pub = coords px py -> on_curve px py -> word256 hash ->
  bip340_valid (tagged K H "BIP0340/challenge") px hash r s -> number (tagged K H "BIP0340/challenge" (be_bytes 32 r ++ be_bytes 32 px ++ hash)) < group_order ->
  schnorr_verify g rz pub (mkSch (be_bytes 32 r) (be_bytes 32 s) st n) hash = Ok true.
Proof. intros K H C g rz pub px py hash r s st n A B D E F G. exact (proj1 (valid_accepted K H C g rz pub px py hash r s st n A B D E F G)). Qed.
Print Assumptions C46_complete_partial.
(** BIP340 admits one s for a key, a message and an r. The library admits two, for every valid signature
    whose s is not 0: anyone can turn a signature into a second one. *)
Theorem C46_one_s : forall challenge px m r s s', bip340_valid challenge px m r s -> bip340_valid challenge px m r s' -> s = s'.
Proof. exact bip340_unique. Qed.
Print Assumptions C46_one_s.
Theorem C46_negated_s_refuted : forall K H, fips_constants fips256 K H -> forall g rz pub px py hash r s st n,
  (forall i, random_below field_prime (rz i)) -> pt_xy pub = coords px py -> on_curve px py -> word256 hash ->
  bip340_valid (tagged K H "BIP0340/challenge") px hash r s -> s <> 0 -> number (tagged K H "BIP0340/challenge" (be_bytes 32 r ++ be_bytes 32 px ++ hash)) < group_order ->
  schnorr_verify g rz pub (mkSch (be_bytes 32 r) (be_bytes 32 (group_order - s)) st n) hash = Ok true /\
  ~ bip340_valid (tagged K H "BIP0340/challenge") px hash r (group_order - s).
Proof. exact negated. Qed.
Print Assumptions C46_negated_s_refuted.
(** When no point has the x coordinate r, the point that the result is compared with is left as the stack
    memory [g] was. BIP340 accepts no such signature; the library does if that memory holds the right point. *)
Theorem C46_garbage_refuted : forall K H, fips_constants fips256 K H -> forall g rz pub px py sg hash gx gy,
  (forall i, random_below field_prime (rz i)) -> pt_xy pub = coords px py -> on_curve px py -> py mod 2 = 0 ->
  word256 (sn_r sg) -> is_scalar (sn_s sg) -> word256 hash -> ~ on_curve_x (number (sn_r sg)) -> g = coords gx gy -> on_curve gx gy ->
  let e := number (tagged K H "BIP0340/challenge" (sn_r sg ++ be_bytes 32 px ++ hash)) in e < group_order ->
  ec_mul (number (sn_s sg)) gen = ec_add (ec_mul e (Some (px, py))) (Some (gx, gy)) ->
  schnorr_verify g rz pub sg hash = Ok true /\ (forall s, ~ bip340_valid (tagged K H "BIP0340/challenge") px hash (number (sn_r sg)) s).
Proof. exact verify_garbage. Qed.
Print Assumptions C46_garbage_refuted.
(** An s or a challenge that is not below the order fails an assertion: such a signature stops the program. *)
Theorem C46_large_s_refuted : forall g rz pub sg hash, word256 (sn_r sg) -> word256 (sn_s sg) -> group_order <= number (sn_s sg) ->
  schnorr_verify g rz pub sg hash = UB.
Proof. exact verify_s_over. Qed.
Print Assumptions C46_large_s_refuted.
Theorem C46_large_challenge_refuted : forall K H, fips_constants fips256 K H -> forall g rz pub px py sg hash,
  pt_xy pub = coords px py -> on_curve px py -> word256 (sn_r sg) -> word256 (sn_s sg) -> word256 hash ->
  group_order <= number (tagged K H "BIP0340/challenge" (sn_r sg ++ be_bytes 32 px ++ hash)) ->
  schnorr_verify g rz pub sg hash = UB.
Proof. exact verify_e_over. Qed.
Print Assumptions C46_large_challenge_refuted.
(** r = 5, which is no x coordinate, with the generator in the stale memory and as the public key. *)
Example C46_garbage_case : ~ on_curve_x 5 /\ (forall rz pub, (forall i, random_below field_prime (rz i)) -> pt_xy pub = point_bytes gen ->
  schnorr_verify (coords gen_x gen_y) rz pub (mkSch (be_bytes 32 5) (be_bytes 32 (five_e + 1)) DONE 0) (fips_hash fips256 K256 H256 (chars "Satoshi Nakamoto")) = Ok true).
Proof. split; [exact no_x_five|rewrite <- satoshi_sha; exact five_case]. Qed.
Example C46_large_s_case : word256 (be_bytes 32 group_order) /\ group_order <= number (be_bytes 32 group_order).
Proof. split; [exact (ScalarProps.scalar_word group_order)|vm_compute; discriminate]. Qed.
