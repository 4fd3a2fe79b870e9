(** Arithmetic on scalars: src/BitcoinCurve.cpp:198-263, src/BitcoinCurve.h:101-157.
    A scalar is its 32 bytes [num]; the results are new scalars with status PARSING_DONE. *)
From Verif Require Import Base.Bytes Model.Bignum.
Open Scope Z_scope.

(** utility/trezor/secp256k1.c:26-31, 36-38: the limbs of the field prime and of the order. *)
Definition prime_limbs : bn :=
  [0x3ffffc2f; 0x3ffffffb; 0x3fffffff; 0x3fffffff; 0x3fffffff; 0x3fffffff; 0x3fffffff; 0x3fffffff; 0xffff].
Definition order_limbs : bn :=
  [0x10364141; 0x3f497a33; 0x348a03bb; 0x2bb739ab; 0x3ffffeba; 0x3fffffff; 0x3fffffff; 0x3fffffff; 0xffff].

(** BitcoinCurve.cpp:198-207. *)
Definition sc_add (a b : list Z) : list Z :=
  bn_write_be (bn_mod (bn_addmod (bn_read_be a) (bn_read_be b) order_limbs) order_limbs).
(** BitcoinCurve.cpp:208-216. *)
Definition sc_add_u32 (a : list Z) (i : Z) : list Z :=
  bn_write_be (bn_mod (bn_addi (bn_read_be a) i) order_limbs).
(** BitcoinCurve.cpp:217-224. *)
Definition sc_neg (a : list Z) : list Z := bn_write_be (bn_subtract order_limbs (bn_read_be a)).
(** BitcoinCurve.cpp:225-233; a failed assertion ends the program and is [UB] here. *)
Definition sc_sub_u32 (a : list Z) (i : Z) : outcome (list Z) :=
  if bn_subi_assert i order_limbs then Ok (bn_write_be (bn_mod (bn_subi (bn_read_be a) i order_limbs) order_limbs))
  else UB.
(** BitcoinCurve.cpp:234-236. *)
Definition sc_sub (a b : list Z) : list Z := sc_add a (sc_neg b).
(** BitcoinCurve.cpp:237-246; likewise for the assertions of [bn_multiply]. *)
Definition sc_mul (a b : list Z) : outcome (list Z) :=
  if bn_multiply_assert (bn_read_be b) (bn_read_be a) order_limbs
  then Ok (bn_write_be (bn_mod (bn_multiply (bn_read_be b) (bn_read_be a) order_limbs) order_limbs))
  else UB.
(** BitcoinCurve.cpp:258-263. *)
Definition sc_less (a b : list Z) : bool := bn_is_less (bn_read_be a) (bn_read_be b).
(** BitcoinCurve.h:139, 141: [isValid] and [operator==]. *)
Definition sc_eq (a b : list Z) : bool := if list_eq_dec Z.eq_dec a b then true else false.
Definition sc_valid (a : list Z) : bool := negb (sc_eq a (zeros 32)).
(** BitcoinCurve.h:116 [ECScalar(uint32_t)]; Conversion.cpp [intToBigEndian] into 32 bytes. *)
Definition sc_of_u32 (i : Z) : list Z := map (fun j => i / 256 ^ Z.of_nat (31 - j) mod 256) (seq 0 32).
(** BitcoinCurve.cpp:182-185. *)
Definition sc_reduce (num : list Z) : list Z := bn_write_be (bn_mod (bn_read_be num) order_limbs).
