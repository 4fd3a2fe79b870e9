(** Public keys: ECPoint of src/BitcoinCurve.cpp and the functions of
    src/utility/trezor/ecdsa.c that read and check encoded points. *)
From Verif Require Import Base.Bytes Model.Bignum Model.Scalar Model.Stream.
Open Scope Z_scope.

(** utility/trezor/secp256k1.c:43-48: a = 0 and the limbs of b. *)
Definition curve_b : bn := [7; 0; 0; 0; 0; 0; 0; 0; 0].
(** utility/trezor/ecdsa.h:33-35 [curve_point]. *)
Definition cpoint : Type := (bn * bn)%type.
(** bignum.c:488-494 [bn_multiply] with its assertions: a failed one is [UB]. *)
Definition bn_mul (k x prime : bn) : outcome bn :=
  if bn_multiply_assert k x prime then Ok (bn_multiply k x prime) else UB.
(** bignum.c:907-912 [bn_subi] with its assertion; here the argument is -a = 0. *)
Definition bn_subi_o (x : bn) (i : Z) (prime : bn) : outcome bn :=
  if bn_subi_assert i prime then Ok (bn_subi x i prime) else UB.

(** ecdsa.c:144-147 [point_is_infinity]. *)
Definition point_is_infinity (p : cpoint) : bool := bn_is_zero (fst p) && bn_is_zero (snd p).

(** ecdsa.c:940-952 [uncompress_coords]. *)
Definition uncompress_coords (odd : Z) (x : bn) : outcome bn :=
  let! y := bn_mul x x prime_limbs in
  let! y := bn_subi_o y 0 prime_limbs in
  let! y := bn_mul x y prime_limbs in
  let y := bn_add y curve_b in
  let y := bn_sqrt y prime_limbs in
  Ok (if Z.land odd 1 =? Z.land (limb y 0) 1 then y else bn_subtract prime_limbs y).

(** ecdsa.c:978-1009 [ecdsa_validate_pubkey]. *)
Definition validate_pubkey (pub : cpoint) : outcome bool :=
  let '(x, y) := pub in
  if point_is_infinity pub then Ok false
  else if negb (bn_is_less x prime_limbs) || negb (bn_is_less y prime_limbs) then Ok false
  else
    let! y2 := bn_mul y y prime_limbs in
    let y2 := bn_mod y2 prime_limbs in
    let! x3 := bn_mul x x prime_limbs in
    let! x3 := bn_subi_o x3 0 prime_limbs in
    let! x3 := bn_mul x x3 prime_limbs in
    let x3 := bn_addmod x3 curve_b prime_limbs in
    let x3 := bn_mod x3 prime_limbs in
    Ok (bn_is_equal x3 y2).

(** [n] bytes read from offset [off] of an array. *)
Definition slice (l : list Z) (off n : nat) : outcome (list Z) :=
  if (off + n <=? length l)%nat then Ok (firstn n (skipn off l)) else UB.

(** ecdsa.c:954-971 [ecdsa_read_pubkey]; [pub_key] is the whole array it is given. *)
Definition read_pubkey (pub_key : list Z) : outcome (option cpoint) :=
  let! b := aget pub_key 0 in
  if b =? 4 then
    let! xs := slice pub_key 1 32 in
    let! ys := slice pub_key 33 32 in
    let pub := (bn_read_be xs, bn_read_be ys) in
    let! ok := validate_pubkey pub in
    Ok (if ok then Some pub else None)
  else if (b =? 2) || (b =? 3) then
    let! xs := slice pub_key 1 32 in
    let x := bn_read_be xs in
    let! y := uncompress_coords b x in
    let! ok := validate_pubkey (x, y) in
    Ok (if ok then Some (x, y) else None)
  else Ok None.

(** ecdsa.c:854-867 [ecdsa_uncompress_pubkey]: what is in uncompressed[1..64] afterwards,
    given what was there before. The byte in front of it is not used by the callers modelled. *)
Definition uncompress_pubkey (pub_key before : list Z) : outcome (list Z) :=
  let! r := read_pubkey pub_key in
  Ok (match r with
      | Some (x, y) => bn_write_be x ++ bn_write_be y
      | None => before
      end).

(** BitcoinCurve.h:12-16 and Streamable: the members of an ECPoint. *)
Record ecpoint := mkPt { pt_xy : list Z; pt_comp : bool; pt_status : pstatus; pt_parsed : Z }.
(** BitcoinCurve.h:17 [reset]; also the default constructor, BitcoinCurve.h:19. *)
Definition pt_new : ecpoint := mkPt (zeros 64) true DONE 0.
(** BitcoinCurve.h:18 [length]. *)
Definition pt_length (compressed : bool) : Z := 33 + 32 * (1 - if compressed then 1 else 0).

(** BitcoinCurve.cpp:67-74: the first byte. *)
Definition pt_first (xy : list Z) (compressed : bool) : Z :=
  if compressed then 2 + Z.land (nth 63 xy 0) 1 else 4.
(** BitcoinCurve.cpp:62-81 [to_stream]. *)
Definition pt_to_stream (k : ecpoint) : serializer := fun cap offset =>
  let w := mkWst offset cap [] in
  if negb (w_available w) then Ok []
  else
    let w := if offset =? 0 then w_put w (pt_first (pt_xy k) (pt_comp k)) else w in
    let! w := write_loop 64 1 (pt_length (pt_comp k) - 1) (pt_xy k) w in
    Ok (w_out w).
(** BitcoinCurve.cpp:82-85 [sec] into a cleared buffer of [n] bytes. *)
Definition pt_sec (k : ecpoint) (n : nat) : outcome (Z * list Z) := serialize (pt_to_stream k) n 0.

(** BitcoinCurve.cpp:108-116 [isValid]. *)
Definition pt_is_valid (k : ecpoint) : outcome bool :=
  match pt_status k with
  | DONE =>
      let! r := pt_sec k 65 in
      let! p := read_pubkey (snd r) in
      Ok (match p with Some _ => true | None => false end)
  | _ => Ok false
  end.

Section Parse.
(** What the uninitialised array of line 51 holds at index 1..64. *)
Variable garbage : list Z.

(** BitcoinCurve.cpp:41-58: the data bytes and what follows the last one. [pos] is
    bytes_parsed+bytes_read; [start] is bytes_parsed; [first] is the static first_byte. *)
Definition pt_data (xy : list Z) (compressed : bool) (first start pos : Z) (s : list Z)
  : outcome ((ecpoint * Z) * Z * list Z) :=
  let! r := read_loop_o (pt_length compressed) pos (fun a p c => aset a (p - 1) c) xy s in
  let '(xy, pos, rest) := r in
  if pos =? pt_length compressed then
    let! xy := if compressed then uncompress_pubkey (first :: firstn 32 xy) garbage else Ok xy in
    let! ok := pt_is_valid (mkPt xy compressed DONE start) in
    Ok ((mkPt xy compressed (if ok then DONE else FAILED) pos, first), pos - start, rest)
  else Ok ((mkPt xy compressed INCOMPLETE pos, first), pos - start, rest).

(** BitcoinCurve.cpp:10-61 [from_stream]. The function's static variable first_byte is shared by
    all points: it is the second component of the state. *)
Definition pt_parse (st : ecpoint * Z) (s : list Z) : outcome ((ecpoint * Z) * Z * list Z) :=
  let '(k, first) := st in
  match pt_status k with
  | FAILED => Ok (st, 0, s)
  | _ =>
      let start := match pt_status k with DONE => 0 | _ => pt_parsed k end in
      if 0 <? start then pt_data (pt_xy k) (pt_comp k) first start start s
      else match s with
           | [] => Ok ((mkPt (pt_xy k) (pt_comp k) INCOMPLETE start, first), 0, [])
           | c :: t =>
               if (c <? 2) || (4 <? c) then Ok ((mkPt (pt_xy k) (pt_comp k) FAILED (start + 1), first), 1, t)
               else pt_data (pt_xy k) (negb (c =? 4)) c start (start + 1) t
           end
  end.
End Parse.
Definition pt_state_status (st : ecpoint * Z) : pstatus := pt_status (fst st).
(** BitcoinCurve.cpp:108-116 on the compressed point of an HDPublicKey (HDWallet.cpp:651-655), as a
    value for the parameter of Model/HD.v; [isValid] is never undefined (see Proof/PointProps.v). *)
Definition pt_valid_bytes (xy : list Z) : bool :=
  match pt_is_valid (mkPt xy true DONE 0) with Ok b => b | UB => false end.
(** BitcoinCurve.h:14-17: an object that no parse is under way for, with 64 bytes in [point]. *)
Definition pt_ready (k : ecpoint) : Prop := pt_status k = DONE /\ length (pt_xy k) = 64%nat /\ bytes_ok (pt_xy k).
