(** Operators of ECPoint (src/BitcoinCurve.cpp, src/BitcoinCurve.h), and what PrivateKey and PublicKey
    do with them (src/Bitcoin.cpp, src/Bitcoin.h). *)
From Verif Require Import Base.Bytes Model.Bignum Model.Scalar Model.Stream Model.Point Model.EC Model.ECDSA Model.Hash Model.Signature.
Open Scope Z_scope.

(** BitcoinCurve.h:84-85 [operator==]. *)
Definition pt_eq (a b : ecpoint) : bool := if list_eq_dec Z.eq_dec (pt_xy a) (pt_xy b) then true else false.
(** BitcoinCurve.cpp:7 [InfinityPoint]. *)
Definition InfinityPoint : ecpoint := pt_new.
(** BitcoinCurve.cpp:8 [GeneratorPoint]: the bytes that its constructor parses, and the object that comes out. *)
Definition generator_sec : list Z :=
  [0x02;
   0x79; 0xbe; 0x66; 0x7e; 0xf9; 0xdc; 0xbb; 0xac; 0x55; 0xa0; 0x62; 0x95; 0xce; 0x87; 0x0b; 0x07;
   0x02; 0x9b; 0xfc; 0xdb; 0x2d; 0xce; 0x28; 0xd9; 0x59; 0xf2; 0x81; 0x5b; 0x16; 0xf8; 0x17; 0x98].
Definition GeneratorPoint : ecpoint := mkPt
  [0x79; 0xbe; 0x66; 0x7e; 0xf9; 0xdc; 0xbb; 0xac; 0x55; 0xa0; 0x62; 0x95; 0xce; 0x87; 0x0b; 0x07;
   0x02; 0x9b; 0xfc; 0xdb; 0x2d; 0xce; 0x28; 0xd9; 0x59; 0xf2; 0x81; 0x5b; 0x16; 0xf8; 0x17; 0x98;
   0x48; 0x3a; 0xda; 0x77; 0x26; 0xa3; 0xc4; 0x65; 0x5d; 0xa4; 0xfb; 0xfc; 0x0e; 0x11; 0x08; 0xa8;
   0xfd; 0x17; 0xb4; 0x48; 0xa6; 0x85; 0x54; 0x19; 0x9c; 0x47; 0xd0; 0x8f; 0xfb; 0x10; 0xd4; 0xb8] true DONE 33.
(** BitcoinCurve.cpp:117-119 [isEven]. *)
Definition pt_even (a : ecpoint) : bool := Z.land (nth 63 (pt_xy a) 0) 1 =? 0.
(** BitcoinCurve.h:29-35 [x] into 32 bytes. *)
Definition pt_x (a : ecpoint) : list Z := firstn 32 (pt_xy a).

(** ecdsa.c:954-971 [ecdsa_read_pubkey]: what *pub is afterwards, also when the point is refused. *)
Definition load_pubkey (pub_key : list Z) : outcome cpoint :=
  let! b := aget pub_key 0 in
  let! xs := slice pub_key 1 32 in
  let x := bn_read_be xs in
  if b =? 4 then let! ys := slice pub_key 33 32 in Ok (x, bn_read_be ys)
  else if (b =? 2) || (b =? 3) then let! y := uncompress_coords b x in Ok (x, y)
  else UB.
(** BitcoinCurve.cpp:130-131, 132-133: [sec] and [ecdsa_read_pubkey], whose result is not looked at. *)
Definition pt_load (a : ecpoint) : outcome cpoint :=
  let! s := pt_sec a 65 in load_pubkey (snd s).
(** BitcoinCurve.cpp:121-139 [operator+]. *)
Definition pt_add (a b : ecpoint) : outcome ecpoint :=
  if pt_eq a InfinityPoint then Ok b
  else if pt_eq b InfinityPoint then Ok a
  else
    let! p1 := pt_load a in
    let! p2 := pt_load b in
    let! r := point_add p1 p2 in
    Ok (mkPt (cp_bytes r) true DONE 0).
(** BitcoinCurve.cpp:271-291 [operator*]; [rz] is the random number of the multiplication. *)
Definition pt_mul (rz : bn) (num : list Z) (p : ecpoint) : outcome ecpoint :=
  if pt_eq p GeneratorPoint then
    let! pub := get_public_key65 rz num in
    let! r := pt_parse (zeros 64) (pt_new, 0) pub in
    let '((r, _), _, _) := r in
    Ok (mkPt (pt_xy r) (pt_comp p) (pt_status r) (pt_parsed r))
  else
    let! xs := slice (pt_xy p) 0 32 in
    let! ys := slice (pt_xy p) 32 32 in
    let! r := point_multiply rz (bn_read_be num) (bn_read_be xs, bn_read_be ys) in
    Ok (mkPt (cp_bytes r) (pt_comp p) DONE 0).

(** memcmp on arrays of the same length: its sign. *)
Fixpoint memcmp (a b : list Z) : comparison :=
  match a, b with
  | x :: a', y :: b' => match x ?= y with Eq => memcmp a' b' | c => c end
  | _, _ => Eq
  end.
(** BitcoinCurve.cpp:264-270 [operator<]. *)
Definition pt_less (a b : ecpoint) : outcome bool :=
  let! s1 := pt_sec a 65 in
  let! s2 := pt_sec b 65 in
  Ok (match memcmp (snd s1) (snd s2) with Gt => true | _ => false end).

(** Bitcoin.h:113 [PublicKey(const ECPoint)]. *)
Definition pk_of (p : ecpoint) : ecpoint := mkPt (pt_xy p) (pt_comp p) DONE 0.
(** Bitcoin.h:161-164: [num] and [pubKey] of a PrivateKey. *)
Record prvkey := mkPrv { prv_num : list Z; prv_pub : ecpoint }.
(** Bitcoin.cpp:508-514: PrivateKey(secret_arr, use_compressed). *)
Definition prv_make (rz : bn) (secret : list Z) (compressed : bool) : outcome prvkey :=
  let! p := pt_mul rz secret GeneratorPoint in
  Ok (mkPrv secret (mkPt (pt_xy p) compressed DONE 0)).

(** Bitcoin.cpp:437-443 [PublicKey::verify]. *)
Definition pk_verify (rz rz' : bn) (pub : ecpoint) (g : signature) (hash : list Z) : outcome bool :=
  let! sig := sig_bin g (zeros 64) in
  let! s := serialize (pt_to_stream pub) 65 0 in
  let! c := verify_digest rz rz' (snd s) sig hash in
  Ok (c =? 0).
(** Bitcoin.cpp:647-654 [PrivateKey::sign]. *)
Definition prv_sign (rz randk : nat -> bn) (key : prvkey) (hash : list Z) : outcome signature :=
  let! r := sign_digest rz randk (prv_num key) hash in
  let '(sig, i) := match r with Some s => s | None => (zeros 64, 0) end in
  Ok (mkSig (firstn 32 sig) (skipn 32 sig) 0 0 0 i DONE 0).
(** Bitcoin.cpp:628-641 [PrivateKey::ecdh]: shared_secret. *)
Definition prv_ecdh (rz : bn) (key : prvkey) (pub : ecpoint) (use_hash : bool) : outcome (list Z) :=
  let! m := pt_mul rz (prv_num key) pub in
  let! s := pt_sec (mkPt (pt_xy m) false (pt_status m) (pt_parsed m)) 65 in
  let! xy := slice (snd s) 1 64 in
  Ok (if use_hash then sha256 xy else firstn 32 xy).

Section Garbage.
(** What the uninitialised array of BitcoinCurve.cpp:51 holds, see Model/Point.v. *)
Variable garbage : list Z.

(** BitcoinCurve.cpp:140-155 [operator-]. *)
Definition pt_neg (a : ecpoint) : outcome ecpoint :=
  if pt_eq a InfinityPoint then Ok a
  else
    let! r := pt_parse garbage (pt_new, 0) ((if pt_even a then 3 else 2) :: pt_x a) in
    let '((r, _), _, _) := r in
    Ok (mkPt (pt_xy r) (pt_comp a) (pt_status r) (pt_parsed r)).
(** BitcoinCurve.cpp:156-159 [operator-]. *)
Definition pt_sub (a b : ecpoint) : outcome ecpoint :=
  let! n := pt_neg b in pt_add a n.
(** BitcoinCurve.h:37-44 [from_x] of an array of 32 bytes, on a new point. *)
Definition pt_from_x (xs : list Z) : outcome ecpoint :=
  let! r := pt_parse garbage (pt_new, 0) (2 :: xs) in
  let '((r, _), _, _) := r in Ok r.

Variable rz : nat -> bn.
(** Bitcoin.cpp:656-700 [PrivateKey::schnorr_sign]: r and s. The pieces written to a hash are joined. The
    numbers [rz i] are those of the multiplications of lines 661, 676, 680, 693 and 695. *)
Definition schnorr_sign (key : prvkey) (hash : list Z) : outcome schnorr :=
  let! dp := (if pt_even (prv_pub key) then Ok (prv_num key, prv_pub key)
              else let! d := prv_make (rz 0%nat) (sc_neg (prv_num key)) true in
                   let! p := pt_neg (prv_pub key) in
                   Ok (prv_num d, pk_of p)) in
  let '(d, pub) := dp in
  let nonce := tagged_hash (chars "BIP0340/nonce") (d ++ pt_x pub ++ hash) in
  let! k := prv_make (rz 1%nat) nonce true in
  let! kR := (if pt_even (prv_pub k) then Ok (prv_num k, prv_pub k)
              else let! k' := prv_make (rz 2%nat) (sc_neg (prv_num k)) true in
                   let! p := pt_neg (prv_pub k) in
                   Ok (prv_num k', pk_of p)) in
  let '(k, R) := kR in
  let e := tagged_hash (chars "BIP0340/challenge") (pt_x R ++ pt_x pub ++ hash) in
  let! challenge := prv_make (rz 3%nat) e true in
  let! t := sc_mul (prv_num challenge) d in
  let! sk := prv_make (rz 4%nat) (sc_add k t) true in
  Ok (mkSch (pt_x R) (prv_num sk) DONE 0).
(** Bitcoin.cpp:444-471 [PublicKey::schnorr_verify]. The numbers [rz i] are those of the multiplications
    of lines 465, 466 and 468. *)
Definition schnorr_verify (pub : ecpoint) (g : schnorr) (hash : list Z) : outcome bool :=
  let! pub := (if pt_even pub then Ok pub else let! p := pt_neg pub in Ok (pk_of p)) in
  let! q := serialize (sch_to_stream g) 64 0 in
  let rs := snd q in
  let! r := slice rs 0 32 in
  let! R := pt_from_x r in
  let e := tagged_hash (chars "BIP0340/challenge") (r ++ pt_x pub ++ hash) in
  let! challenge := prv_make (rz 0%nat) e true in
  let! c := pt_mul (rz 1%nat) (prv_num challenge) pub in
  let! sum := pt_add c R in
  let! ss := slice rs 32 32 in
  let! s := prv_make (rz 2%nat) ss true in
  Ok (if list_eq_dec Z.eq_dec (pt_x sum) (pt_x (prv_pub s)) then true else false).
End Garbage.

(** The operators on points as 64 bytes, the way Model/HD.v passes points. What the code leaves undefined
    is zeros here; no statement that uses them depends on that. *)
(** BitcoinCurve.cpp:271-291, a scalar times the generator. *)
Definition code_mulG (rz : bn) (num : list Z) : list Z := match pt_mul rz num GeneratorPoint with Ok p => pt_xy p | UB => zeros 64 end.
(** BitcoinCurve.cpp:121-139. *)
Definition code_padd (a b : list Z) : list Z := match pt_add (mkPt a true DONE 0) (mkPt b true DONE 0) with Ok p => pt_xy p | UB => zeros 64 end.
