(** The schemes on secp256k1: ECDSA (SEC 1, 4.1), its recovery byte, deterministic nonces (RFC 6979,
    3.2), Schnorr signatures (BIP340), Diffie-Hellman. *)
From Verif Require Import Base.Bytes Spec.Codecs Spec.Keys Spec.Bignum Spec.Point Spec.Curve.
Open Scope Z_scope.

(** The 64 bytes that stand for a point: its coordinates, or zeros for the point at infinity. *)
Definition point_bytes (a : point) : list Z := match a with Some (x, y) => coords x y | None => zeros 64 end.
(** A random number from 1 to m - 1, in limbs. *)
Definition random_below (m : Z) (x : list Z) : Prop := normalized x /\ 0 < bn_val x < m.

(** ** ECDSA *)
(** [z] is the hash as a number, [q] the public key. *)
Definition ecdsa_valid (q : point) (z r s : Z) : Prop :=
  1 <= r < group_order /\ 1 <= s < group_order /\
  exists w x y, (s * w) mod group_order = 1 /\
    ec_add (ec_mul ((z * w) mod group_order) gen) (ec_mul ((r * w) mod group_order) q) = Some (x, y) /\ x mod group_order = r.
(** The signature made with the secret [d] and the nonce [k], with the smaller s. The recovery byte:
    bit 0 is the parity of the y coordinate of the point that goes with the smaller s, bit 1 says that
    its x coordinate is not below the order. *)
Definition ecdsa_signature (d z k r s recid : Z) : Prop :=
  0 < k < group_order /\
  exists x y w t, ec_mul k gen = Some (x, y) /\ (k * w) mod group_order = 1 /\
    r = x mod group_order /\ r <> 0 /\ t = (w * (z + r * d)) mod group_order /\ t <> 0 /\
    s = Z.min t (group_order - t) /\
    recid = (if t <=? group_order - t then y mod 2 else 1 - y mod 2) + (if x <? group_order then 0 else 2).

(** The nonce [k] yields a signature: no number in it is zero. *)
Definition ecdsa_usable (d z k : Z) : Prop := exists r s recid, ecdsa_signature d z k r s recid.

(** ** RFC 6979 with HMAC-SHA256 for a group order of 256 bits *)
Section Nonce.
Variable hmac : list Z -> list Z -> list Z.
(** Steps b to g; the state is (K, V). *)
Definition rfc6979_start (x h : list Z) : list Z * list Z :=
  let K0 := zeros 32 in
  let V0 := repeat 1 32 in
  let K1 := hmac K0 (V0 ++ [0] ++ x ++ h) in
  let V1 := hmac K1 V0 in
  let K2 := hmac K1 (V1 ++ [1] ++ x ++ h) in
  (K2, hmac K2 V1).
(** Step h: the candidate, and the state after a candidate that is not used. *)
Definition rfc6979_candidate (st : list Z * list Z) : Z := be_val 256 (hmac (fst st) (snd st)).
Definition rfc6979_retry (st : list Z * list Z) : list Z * list Z :=
  let V := hmac (fst st) (snd st) in
  let K := hmac (fst st) (V ++ [0]) in
  (K, hmac K V).
(** Candidate number i when the steps d and f take the strings [x] and [h]. *)
Definition rfc6979_number (x h : list Z) (i : nat) : Z := rfc6979_candidate (Nat.iter i rfc6979_retry (rfc6979_start x h)).
(** The candidate number i for the secret [d] and the hash [h], a string of 32 bytes: the hash goes
    through bits2octets (2.3.4), which takes it modulo the order. *)
Definition rfc6979_nonce (d : Z) (h : list Z) (i : nat) : Z :=
  rfc6979_number (be_bytes 32 d) (be_bytes 32 (be_val 256 h mod group_order)) i.
End Nonce.

(** ** BIP340 *)
Definition bip340_hash (sha : list Z -> list Z) (tag m : list Z) : list Z := sha (sha tag ++ sha tag ++ m).
(** [challenge] is the tagged hash; [px] the x coordinate that is the public key. *)
Definition bip340_valid (challenge : list Z -> list Z) (px : Z) (m : list Z) (r s : Z) : Prop :=
  exists py ry, on_curve px py /\ py mod 2 = 0 /\ on_curve r ry /\ ry mod 2 = 0 /\ 0 <= s < group_order /\
    let e := be_val 256 (challenge (be_bytes 32 r ++ be_bytes 32 px ++ m)) mod group_order in
    ec_add (ec_mul s gen) (ec_neg (ec_mul e (Some (px, py)))) = Some (r, ry).
(** Of the secrets [d] and [order - d], which have public keys with the same x coordinate, [d'] is the one
    with an even y. *)
Definition bip340_secret (d d' x : Z) : Prop :=
  (d' = d \/ d' = group_order - d) /\ exists y, ec_mul d' gen = Some (x, y) /\ y mod 2 = 0.
(** The signature of BIP340 with the nonce [k]. *)
Definition bip340_signature (challenge : list Z -> list Z) (d k : Z) (m : list Z) (r s : Z) : Prop :=
  exists d' px k', bip340_secret d d' px /\ bip340_secret k k' r /\
    s = (k' + be_val 256 (challenge (be_bytes 32 r ++ be_bytes 32 px ++ m)) * d') mod group_order.
