(** C45, C69, C70, C72: ECDSA signatures of PrivateKey and PublicKey. *)
From Verif Require Import Base.Bytes Spec.Codecs Spec.Hash Spec.Keys Spec.Scalar Spec.Bignum Spec.Point Spec.Curve Spec.Schemes
  Model.Bignum Model.Stream Model.Point Model.Signature Model.Hash Model.ECDSA Model.PointOps Proof.PointOpsFacts Proof.EcApi Proof.EcdsaFacts Proof.EcdsaSign Proof.SchemeProps Proof.SchemeMain Proof.SignHints Proof.SignExample Proof.SchemeCases.
Open Scope Z_scope.

(** * C45: a produced signature verifies and has low s *)
(** [rz], [randk] and so on are the random numbers drawn on the way: the statements hold whatever they are.
    A PrivateKey can be made of every secret from 1 to the order minus 1. *)
Theorem C45_key : forall rz d c, random_below field_prime rz -> word256 d -> 0 < number d < group_order ->
  exists key, prv_make rz d c = Ok key /\ prv_num key = d /\ pt_xy (prv_pub key) = point_bytes (ec_mul (number d) gen) /\ pt_comp (prv_pub key) = c.
Proof. exact key_made. Qed.
Print Assumptions C45_key.
(** Signing returns, the signature has low s, and the public key accepts it; if the hash is not a multiple
    of the order and one of the first 10000 nonces is usable. *)
Theorem C45_sign_verify_partial : forall K H, fips_constants fips256 K H -> forall rz0 rz randk rz1 rz2 d c hash key,
  random_below field_prime rz0 -> (forall i, random_below field_prime (rz i)) -> (forall i, random_below group_order (randk i)) ->
  random_below field_prime rz1 -> random_below field_prime rz2 ->
  word256 d -> 0 < number d < group_order -> prv_make rz0 d c = Ok key -> word256 hash -> number hash mod group_order <> 0 ->
  (exists j, (j < Z.to_nat 10000)%nat /\ ecdsa_usable (number d) (number hash) (rfc6979_number (rfc2104 (fips_hash fips256 K H) 64) d hash j)) ->
  exists g, prv_sign rz randk key hash = Ok g /\ pk_verify rz1 rz2 (prv_pub key) g hash = Ok true /\
    0 < number (sg_s g) /\ 2 * number (sg_s g) <= group_order.
Proof. exact sign_verify. Qed.
Print Assumptions C45_sign_verify_partial.
(** Two calls give the same r and s, whatever the random numbers. *)
Theorem C45_deterministic : forall K H, fips_constants fips256 K H -> forall rz randk rz' randk' d p p' hash,
  (forall i, random_below field_prime (rz i)) -> (forall i, random_below group_order (randk i)) ->
  (forall i, random_below field_prime (rz' i)) -> (forall i, random_below group_order (randk' i)) ->
  is_scalar d -> word256 hash ->
  exists g g', prv_sign rz randk (mkPrv d p) hash = Ok g /\ prv_sign rz' randk' (mkPrv d p') hash = Ok g' /\ sg_r g = sg_r g' /\ sg_s g = sg_s g'.
Proof. exact sign_deterministic. Qed.
Print Assumptions C45_deterministic.
(** A hash that is a multiple of the order (0, or the order itself) can be signed but not verified. *)
Theorem C45_zero_hash_refuted : forall K H, fips_constants fips256 K H -> forall rz0 rz randk rz1 rz2 d c hash key,
  random_below field_prime rz0 -> (forall i, random_below field_prime (rz i)) -> (forall i, random_below group_order (randk i)) ->
  random_below field_prime rz1 -> random_below field_prime rz2 ->
  word256 d -> 0 < number d < group_order -> prv_make rz0 d c = Ok key -> word256 hash -> number hash mod group_order = 0 ->
  exists g, prv_sign rz randk key hash = Ok g /\ pk_verify rz1 rz2 (prv_pub key) g hash = Ok false.
Proof. exact sign_zero_refused. Qed.
Print Assumptions C45_zero_hash_refuted.
(** If no nonce of the first 10000 is usable the caller gets zeros, with nothing to tell them from a
    signature but that no key accepts them. *)
Theorem C45_exhausted : forall K H, fips_constants fips256 K H -> forall rz randk rz1 rz2 d p a q hash,
  (forall i, random_below field_prime (rz i)) -> (forall i, random_below group_order (randk i)) -> random_below field_prime rz1 -> random_below field_prime rz2 ->
  is_scalar d -> word256 hash ->
  (forall j, (j < Z.to_nat 10000)%nat -> ~ ecdsa_usable (number d) (number hash) (rfc6979_number (rfc2104 (fips_hash fips256 K H) 64) d hash j)) ->
  is_point a -> pt_xy q = point_bytes a ->
  exists g, prv_sign rz randk (mkPrv d p) hash = Ok g /\ sg_status g = DONE /\ sg_r g = zeros 32 /\ sg_s g = zeros 32 /\ pk_verify rz1 rz2 q g hash = Ok false.
Proof. exact sign_exhausted. Qed.
Print Assumptions C45_exhausted.
(** The secret 1 and the SHA-256 of "Satoshi Nakamoto": the signature of the well-known test vector. *)
Example C45_case : forall rz0 rz randk rz1 rz2, random_below field_prime rz0 -> (forall i, random_below field_prime (rz i)) -> (forall i, random_below group_order (randk i)) ->
  random_below field_prime rz1 -> random_below field_prime rz2 ->
  exists key g, prv_make rz0 (be_bytes 32 1) true = Ok key /\
    prv_sign rz randk key (fips_hash fips256 K256 H256 (chars "Satoshi Nakamoto")) = Ok g /\
    sg_r g = be_bytes 32 0x934b1ea10a4b3c1757e2b0c017d0b6143ce3c9a7e6a4a49860d7a6ab210ee3d8 /\
    sg_s g = be_bytes 32 0x2442ce9d2b916064108014783e923ec36b49743e2ffa1c4496f01a512aafd9e5 /\ sg_index g = 1 /\
    pk_verify rz1 rz2 (prv_pub key) g (fips_hash fips256 K256 H256 (chars "Satoshi Nakamoto")) = Ok true.
Proof. exact satoshi_case. Qed.
Example C45_random_case : random_below field_prime [5; 0; 0; 0; 0; 0; 0; 0; 0] /\ random_below group_order [5; 0; 0; 0; 0; 0; 0; 0; 0].
Proof. exact random_five. Qed.

(** * C69: verify accepts exactly the valid ECDSA signatures *)
Theorem C69_verify_partial : forall rz rz' p x y g hash, random_below field_prime rz -> random_below field_prime rz' ->
  pt_xy p = coords x y -> on_curve x y -> word256 (sg_r g) -> word256 (sg_s g) -> word256 hash ->
  exists b, pk_verify rz rz' p g hash = Ok b /\
    (b = true <-> number hash mod group_order <> 0 /\ ecdsa_valid (Some (x, y)) (number hash) (number (sg_r g)) (number (sg_s g))).
Proof. exact verify_exact. Qed.
Print Assumptions C69_verify_partial.
(** The point at infinity accepts nothing. *)
Theorem C69_infinity : forall rz rz' c st n g hash, word256 (sg_r g) -> word256 (sg_s g) -> pk_verify rz rz' (mkPt (zeros 64) c st n) g hash = Ok false.
Proof. exact verify_infinity. Qed.
Print Assumptions C69_infinity.
(** Missing: valid signatures of a hash that is a multiple of the order are refused. *)
Theorem C69_zero_hash_refuted : forall rz1 rz2 d q hash k r s id, random_below field_prime rz1 -> random_below field_prime rz2 -> 0 < d < group_order ->
  pt_xy q = point_bytes (ec_mul d gen) -> word256 hash -> number hash mod group_order = 0 -> ecdsa_signature d (number hash) k r s id ->
  ecdsa_valid (ec_mul d gen) (number hash) r s /\ pk_verify rz1 rz2 q (mkSig (be_bytes 32 r) (be_bytes 32 s) 0 0 0 id DONE 0) hash = Ok false.
Proof. exact zero_valid_refused. Qed.
Print Assumptions C69_zero_hash_refuted.
Example C69_case : ecdsa_valid gen (number (fips_hash fips256 K256 H256 (chars "Satoshi Nakamoto")))
  0x934b1ea10a4b3c1757e2b0c017d0b6143ce3c9a7e6a4a49860d7a6ab210ee3d8 0x2442ce9d2b916064108014783e923ec36b49743e2ffa1c4496f01a512aafd9e5 /\
  number (fips_hash fips256 K256 H256 (chars "Satoshi Nakamoto")) mod group_order <> 0.
Proof. exact satoshi_valid. Qed.
Example C69_zero_case : exists r s id, ecdsa_signature 1 (number (zeros 32)) 1 r s id.
Proof. exact zero_case. Qed.

(** * C70: signature, hash and recovery byte give the public key back *)
Theorem C70_recover : forall rz1 rz2 rz3 d digest k r s id x y, random_below field_prime rz1 -> random_below field_prime rz2 -> random_below field_prime rz3 ->
  0 < d < group_order -> word256 digest -> ecdsa_signature d (number digest) k r s id -> ec_mul d gen = Some (x, y) ->
  recover_pub rz1 rz2 rz3 (be_bytes 32 r ++ be_bytes 32 s) digest id = Ok (Some (4 :: coords x y)).
Proof. exact recover_ok. Qed.
Print Assumptions C70_recover.
Example C70_case : exists x y, ec_mul 1 gen = Some (x, y) /\ ecdsa_signature 1 (number (fips_hash fips256 K256 H256 (chars "Satoshi Nakamoto"))) satoshi_k
  0x934b1ea10a4b3c1757e2b0c017d0b6143ce3c9a7e6a4a49860d7a6ab210ee3d8 0x2442ce9d2b916064108014783e923ec36b49743e2ffa1c4496f01a512aafd9e5 1.
Proof. exact recover_case. Qed.

(** * C72: nonces are those of RFC 6979 *)
(** The signature is made with the first usable candidate of RFC 6979, for hashes below the order. *)
Theorem C72_nonce_partial : forall K H, fips_constants fips256 K H -> forall rz randk d p hash j r s id,
  (forall i, random_below field_prime (rz i)) -> (forall i, random_below group_order (randk i)) -> is_scalar d -> word256 hash -> number hash < group_order ->
  (j < Z.to_nat 10000)%nat ->
  (forall j', (j' < j)%nat -> ~ ecdsa_usable (number d) (number hash) (rfc6979_nonce (rfc2104 (fips_hash fips256 K H) 64) (number d) hash j')) ->
  ecdsa_signature (number d) (number hash) (rfc6979_nonce (rfc2104 (fips_hash fips256 K H) 64) (number d) hash j) r s id ->
  exists g, prv_sign rz randk (mkPrv d p) hash = Ok g /\ sg_r g = be_bytes 32 r /\ sg_s g = be_bytes 32 s /\ sg_index g = id.
Proof. exact sign_rfc. Qed.
Print Assumptions C72_nonce_partial.
(** The example of C45 above is one with j = 0. *)
Example C72_case : rfc6979_nonce (rfc2104 (fips_hash fips256 K256 H256) 64) 1 (fips_hash fips256 K256 H256 (chars "Satoshi Nakamoto")) 0 = satoshi_k.
Proof. exact satoshi_rfc. Qed.
(** Missing: a hash that is not below the order is not reduced before it enters the nonce (bits2octets is left
    out), so that the signature is another one. *)
Theorem C72_wide_hash_refuted : exists d hash, is_scalar d /\ 0 < number d /\ word256 hash /\
  ecdsa_usable (number d) (number hash) (rfc6979_number (rfc2104 (fips_hash fips256 K256 H256) 64) d hash 0) /\
  forall rz randk p, (forall i, random_below field_prime (rz i)) -> (forall i, random_below group_order (randk i)) ->
  exists g, prv_sign rz randk (mkPrv d p) hash = Ok g /\ forall id,
    ~ ecdsa_signature (number d) (number hash) (rfc6979_nonce (rfc2104 (fips_hash fips256 K256 H256) 64) (number d) hash 0) (number (sg_r g)) (number (sg_s g)) id.
Proof. exact wide_refuted. Qed.
Print Assumptions C72_wide_hash_refuted.
