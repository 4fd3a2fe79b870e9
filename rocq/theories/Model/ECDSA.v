(** Signing and verification: src/utility/trezor/ecdsa.c:644-1129, src/utility/trezor/rfc6979.c. *)
From Verif Require Import Base.Bytes Model.Bignum Model.Scalar Model.Inverse Model.Stream Model.Point Model.EC Model.Hash.
Open Scope Z_scope.

(** secp256k1.c:40-42. *)
Definition order_half : bn :=
  [0x281b20a0; 0x3fa4bd19; 0x3a4501dd; 0x15db9cd5; 0x3fffff5d; 0x3fffffff; 0x3fffffff; 0x3fffffff; 0x7fff].

(** ecdsa.c writes a point as bn_write_be of x and of y (651-652, 848-849, 863-864, 1071-1072). *)
Definition cp_bytes (p : cpoint) : list Z := bn_write_be (fst p) ++ bn_write_be (snd p).

(** ecdsa.c:825-837 [ecdsa_get_public_key33]; [rz] is the random number of [scalar_multiply]. *)
Definition get_public_key33 (rz : bn) (priv : list Z) : outcome (list Z) :=
  let! r := scalar_multiply rz (bn_read_be priv) in
  Ok (Z.lor 2 (Z.land (limb (snd r) 0) 1) :: bn_write_be (fst r)).
(** ecdsa.c:839-852 [ecdsa_get_public_key65]. *)
Definition get_public_key65 (rz : bn) (priv : list Z) : outcome (list Z) :=
  let! r := scalar_multiply rz (bn_read_be priv) in Ok (4 :: cp_bytes r).

(** ecdsa.c:644-662 [ecdh_multiply]: the return value and session_key. *)
Definition ecdh_multiply (rz : bn) (priv pub_key session : list Z) : outcome (Z * list Z) :=
  let! p := read_pubkey pub_key in
  match p with
  | None => Ok (1, session)
  | Some p => let! p := point_multiply rz (bn_read_be priv) p in Ok (0, 4 :: cp_bytes p)
  end.

(** rfc6979.h:31-34 [rfc6979_state]: v and k. *)
Record rfc6979 := mkRng { rng_v : list Z; rng_k : list Z }.
(** rfc6979.c:30-54 [init_rfc6979]. *)
Definition init_rfc6979 (priv hash : list Z) : rfc6979 :=
  let bx := firstn 32 priv ++ firstn 32 hash in
  let v := repeat 1 32 in
  let k := zeros 32 in
  let k := sha256Hmac k (v ++ [0] ++ bx) in
  let v := sha256Hmac k v in
  let k := sha256Hmac k (v ++ [1] ++ bx) in
  let v := sha256Hmac k v in
  mkRng v k.
(** rfc6979.c:57-68 [generate_rfc6979]: rnd and the new state. *)
Definition generate_rfc6979 (st : rfc6979) : list Z * rfc6979 :=
  let v := sha256Hmac (rng_k st) (rng_v st) in
  let k := sha256Hmac (rng_k st) (v ++ [0]) in
  (v, mkRng (sha256Hmac k v) k).

(** ecdsa.c:751-813: one round for the number [k]. [rz] and [randk] are the random numbers of
    [scalar_multiply] and of line 775. [None] stands for [continue]; otherwise the 64 bytes of the
    signature and [by]. The callback is_canonical always returns 1 (Bitcoin.cpp:643-645). *)
Definition sign_try (rz randk k z : bn) (priv : list Z) : outcome (option (list Z * Z)) :=
  if bn_is_zero k || negb (bn_is_less k order_limbs) then Ok None
  else
    let! R := scalar_multiply rz k in
    let '(x, y) := R in
    let by_ := Z.land (limb y 0) 1 in
    let over := negb (bn_is_less x order_limbs) in
    let x := if over then bn_subtract x order_limbs else x in
    let by_ := if over then Z.lor by_ 2 else by_ in
    if bn_is_zero x then Ok None
    else
      let! k := bn_mul randk k order_limbs in
      let! k := bn_inverse k order_limbs in
      let s := bn_read_be priv in
      let! s := bn_mul x s order_limbs in
      let s := bn_add s z in
      let! s := bn_mul k s order_limbs in
      let! s := bn_mul randk s order_limbs in
      let s := bn_mod s order_limbs in
      if bn_is_zero s then Ok None
      else
        let high := bn_is_less order_half s in
        let s := if high then bn_subtract order_limbs s else s in
        let by_ := if high then Z.lxor by_ 1 else by_ in
        Ok (Some (bn_write_be x ++ bn_write_be s, by_)).

Section Sign.
(** The random numbers of round i. *)
Variables rz randk : nat -> bn.

(** ecdsa.c:747-813: at most [n] rounds, the first of them being round [i]. *)
Fixpoint sign_loop (n i : nat) (st : rfc6979) (z : bn) (priv : list Z) : outcome (option (list Z * Z)) :=
  match n with
  | O => Ok None
  | S n =>
      let '(rnd, st) := generate_rfc6979 st in
      let! r := sign_try (rz i) (randk i) (bn_read_be rnd) z priv in
      match r with
      | Some s => Ok (Some s)
      | None => sign_loop n (S i) st z priv
      end
  end.
Definition sign_rounds : nat := Z.to_nat 10000.
(** ecdsa.c:732-823 [ecdsa_sign_digest]: [None] stands for the return value -1, when neither
    signature nor [by] is stored. *)
Definition sign_digest (priv digest : list Z) : outcome (option (list Z * Z)) :=
  sign_loop sign_rounds 0 (init_rfc6979 priv digest) (bn_read_be digest) priv.
End Sign.

(** ecdsa.c:1077-1129 [ecdsa_verify_digest]; [rz] and [rz'] are the random numbers of
    [scalar_multiply] and [point_multiply]. *)
Definition verify_digest (rz rz' : bn) (pub_key sig digest : list Z) : outcome Z :=
  let! p := read_pubkey pub_key in
  match p with
  | None => Ok 1
  | Some pub =>
      let! rs := slice sig 0 32 in
      let! ss := slice sig 32 32 in
      let r := bn_read_be rs in
      let s := bn_read_be ss in
      let z := bn_read_be digest in
      if bn_is_zero r || bn_is_zero s || negb (bn_is_less r order_limbs) || negb (bn_is_less s order_limbs) then Ok 2
      else
        let! s := bn_inverse s order_limbs in
        let! z := bn_mul s z order_limbs in
        let z := bn_mod z order_limbs in
        let! s := bn_mul r s order_limbs in
        let s := bn_mod s order_limbs in
        if bn_is_zero z then Ok 3
        else
          let! res := scalar_multiply rz z in
          let! pub := point_multiply rz' s pub in
          let! res := point_add pub res in
          let x := bn_mod (fst res) order_limbs in
          Ok (if bn_is_equal x r then 0 else 5)
  end.

(** ecdsa.c:1028-1074 [ecdsa_recover_pub_from_sig]: [None] stands for the return value 1, otherwise
    pub_key. [rz1], [rz2] and [rz3] are the random numbers of lines 1063, 1065 and 1069. *)
Definition recover_pub (rz1 rz2 rz3 : bn) (sig digest : list Z) (recid : Z) : outcome (option (list Z)) :=
  let! rs := slice sig 0 32 in
  let! ss := slice sig 32 32 in
  let r := bn_read_be rs in
  let s := bn_read_be ss in
  if negb (bn_is_less r order_limbs) || bn_is_zero r then Ok None
  else if negb (bn_is_less s order_limbs) || bn_is_zero s then Ok None
  else
    let high := negb (Z.land recid 2 =? 0) in
    let x := if high then bn_add r order_limbs else r in
    if high && negb (bn_is_less x prime_limbs) then Ok None
    else
      let! y := uncompress_coords (Z.land recid 1) x in
      let! ok := validate_pubkey (x, y) in
      if negb ok then Ok None
      else
        let e := bn_subtractmod order_limbs (bn_read_be digest) order_limbs in
        let e := bn_mod (bn_fast_mod e order_limbs) order_limbs in
        let! r := bn_inverse r order_limbs in
        let! cp := point_multiply rz1 s (x, y) in
        let! cp2 := scalar_multiply rz2 e in
        let! cp := point_add cp2 cp in
        let! cp := point_multiply rz3 r cp in
        Ok (Some (4 :: cp_bytes cp)).
