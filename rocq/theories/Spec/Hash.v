(** What the hash functions should compute: FIPS 180-4 (SHA-256, SHA-512), RIPEMD-160
    (Dobbertin, Bosselaers, Preneel 1996), RFC 2104 (HMAC), RFC 8018 (PBKDF2), BIP39 (seed),
    BIP340 (tagged hashes). Nothing here refers to the model: no constant tables are copied from
    the code, they are characterised as the standards do (roots of the first primes). *)
From Verif Require Import Base.Bytes Base.Groups Spec.Codecs.
Open Scope Z_scope.

(** * Words of [w] bits *)
Definition word_ok (w x : Z) : Prop := 0 <= x < 2 ^ w.
Definition rotr (w n x : Z) : Z := x / 2 ^ n + (x mod 2 ^ n) * 2 ^ (w - n).
Definition rotl (w n x : Z) : Z := (x mod 2 ^ (w - n)) * 2 ^ n + x / 2 ^ (w - n).
Definition shr (n x : Z) : Z := x / 2 ^ n.
Definition compl (w x : Z) : Z := 2 ^ w - 1 - x.
Definition ch (w x y z : Z) : Z := Z.lxor (Z.land x y) (Z.land (compl w x) z).
Definition maj (x y z : Z) : Z := Z.lxor (Z.lxor (Z.land x y) (Z.land x z)) (Z.land y z).
Definition xor3 (x y z : Z) : Z := Z.lxor (Z.lxor x y) z.

(** The message, a 1 bit, as few 0 bits as possible, and the length in bits in [n] bytes, so that
    the whole is a multiple of the block length [B] (FIPS 180-4 section 5.1). [enc]: byte order
    of the length. *)
Definition md_pad (B n : nat) (enc : nat -> Z -> list Z) (m : list Z) : list Z :=
  m ++ [128] ++ zeros (Z.to_nat ((- (len m + 1 + Z.of_nat n)) mod Z.of_nat B))
    ++ enc n (8 * len m).

(** * FIPS 180-4 *)
(** [k] is the first [w] bits of the fractional part of the [e]-th root of [p]. *)
Definition root_bits (e w p k : Z) : Prop :=
  0 <= k < 2 ^ w /\
  exists i, 0 <= i /\ (i * 2 ^ w + k) ^ e <= p * 2 ^ (w * e) < (i * 2 ^ w + k + 1) ^ e.
(** The first eighty primes. *)
Definition primes : list Z :=
  [2; 3; 5; 7; 11; 13; 17; 19; 23; 29; 31; 37; 41; 43; 47; 53; 59; 61; 67; 71;
   73; 79; 83; 89; 97; 101; 103; 107; 109; 113; 127; 131; 137; 139; 149; 151; 157; 163; 167; 173;
   179; 181; 191; 193; 197; 199; 211; 223; 227; 229; 233; 239; 241; 251; 257; 263; 269; 271; 277; 281;
   283; 293; 307; 311; 313; 317; 331; 337; 347; 349; 353; 359; 367; 373; 379; 383; 389; 397; 401; 409].

(** Word size, number of rounds, rotation and shift amounts (sections 4.1.2, 4.1.3). *)
Record fips := mkFips {
  f_w : Z; f_rounds : nat;
  f_Sum0 : Z -> Z; f_Sum1 : Z -> Z; f_sig0 : Z -> Z; f_sig1 : Z -> Z }.
Definition fips256 : fips :=
  mkFips 32 64
    (fun x => xor3 (rotr 32 2 x) (rotr 32 13 x) (rotr 32 22 x))
    (fun x => xor3 (rotr 32 6 x) (rotr 32 11 x) (rotr 32 25 x))
    (fun x => xor3 (rotr 32 7 x) (rotr 32 18 x) (shr 3 x))
    (fun x => xor3 (rotr 32 17 x) (rotr 32 19 x) (shr 10 x)).
Definition fips512 : fips :=
  mkFips 64 80
    (fun x => xor3 (rotr 64 28 x) (rotr 64 34 x) (rotr 64 39 x))
    (fun x => xor3 (rotr 64 14 x) (rotr 64 18 x) (rotr 64 41 x))
    (fun x => xor3 (rotr 64 1 x) (rotr 64 8 x) (shr 7 x))
    (fun x => xor3 (rotr 64 19 x) (rotr 64 61 x) (shr 6 x)).

(** Sections 4.2.2, 4.2.3, 5.3.3, 5.3.5: the constants and the initial value. *)
Definition fips_constants (F : fips) (K H : list Z) : Prop :=
  Forall2 (root_bits 3 (f_w F)) (firstn (f_rounds F) primes) K /\
  Forall2 (root_bits 2 (f_w F)) (firstn 8 primes) H.

Section Fips.
Variable F : fips.
Variable K : list Z.
Notation w := (f_w F).

(** Sections 6.2.2 and 6.4.2, step 1: the message schedule, extended to [n] more words. *)
Fixpoint schedule (n : nat) (W : list Z) : list Z :=
  match n with
  | O => W
  | S n' =>
      let t := length W in
      schedule n' (W ++ [(f_sig1 F (nth (t - 2) W 0) + nth (t - 7) W 0
                          + f_sig0 F (nth (t - 15) W 0) + nth (t - 16) W 0) mod 2 ^ w])
  end.
(** Step 3. *)
Definition fips_round (abc : list Z) (kw : Z * Z) : list Z :=
  match abc with
  | [a; b; c; d; e; f; g; h] =>
      let T1 := h + f_Sum1 F e + ch w e f g + fst kw + snd kw in
      let T2 := f_Sum0 F a + maj a b c in
      [(T1 + T2) mod 2 ^ w; a; b; c; (d + T1) mod 2 ^ w; e; f; g]
  | _ => abc
  end.
(** Steps 1 to 4 for one block of bytes. *)
Definition fips_block (H block : list Z) : list Z :=
  let M := map (be_val 256) (groups (Z.to_nat (w / 8)) block) in
  let abc := fold_left fips_round (combine K (schedule (f_rounds F - 16) M)) H in
  map (fun xy => (fst xy + snd xy) mod 2 ^ w) (combine H abc).
(** Section 6.2 / 6.4 on a message of bytes. *)
Definition fips_hash (H msg : list Z) : list Z :=
  let n := Z.to_nat (w / 8) in
  flat_map (be_bytes n)
    (fold_left fips_block (groups (16 * n) (md_pad (16 * n) (2 * n) be_bytes msg)) H).
End Fips.

(** * RIPEMD-160 *)
(** Functions of the five rounds. *)
Definition rmd_f (j : nat) (x y z : Z) : Z :=
  match j with
  | 0%nat => xor3 x y z
  | 1%nat => Z.lor (Z.land x y) (Z.land (compl 32 x) z)
  | 2%nat => Z.lxor (Z.lor x (compl 32 y)) z
  | 3%nat => Z.lor (Z.land x z) (Z.land y (compl 32 z))
  | _ => Z.lxor x (Z.lor y (compl 32 z))
  end.
(** Added constants: integer parts of 2^30 times square roots (left) and cube roots (right) of
    2, 3, 5, 7, and 0. *)
Definition root30 (e p k : Z) : Prop := 0 <= k /\ k ^ e <= p * 2 ^ (30 * e) < (k + 1) ^ e.
Definition rmd_constants (K K' : list Z) : Prop :=
  (exists k1 k2 k3 k4, K = [0; k1; k2; k3; k4] /\
     root30 2 2 k1 /\ root30 2 3 k2 /\ root30 2 5 k3 /\ root30 2 7 k4) /\
  (exists k1 k2 k3 k4, K' = [k1; k2; k3; k4; 0] /\
     root30 3 2 k1 /\ root30 3 3 k2 /\ root30 3 5 k3 /\ root30 3 7 k4).
(** Selection of message words: the permutations rho and pi(i) = 9i + 5 mod 16. *)
Definition rho (i : nat) : nat :=
  nth i [7; 4; 13; 1; 10; 6; 15; 3; 12; 0; 9; 5; 2; 14; 11; 8]%nat O.
Definition pi (i : nat) : nat := ((9 * i + 5) mod 16)%nat.
Definition rmd_r (round i : nat) : nat := Nat.iter round rho i.
Definition rmd_r' (round i : nat) : nat := Nat.iter round rho (pi i).
(** Shifts, by round and message word, for both lines. *)
Definition rmd_shifts : list (list Z) :=
  [[11; 14; 15; 12; 5; 8; 7; 9; 11; 13; 14; 15; 6; 7; 9; 8];
   [12; 13; 11; 15; 6; 9; 9; 7; 12; 15; 11; 13; 7; 8; 7; 7];
   [13; 15; 14; 11; 7; 7; 6; 8; 13; 14; 13; 12; 5; 5; 6; 9];
   [14; 11; 12; 14; 8; 6; 5; 5; 15; 12; 15; 14; 9; 9; 8; 6];
   [15; 12; 13; 13; 9; 5; 8; 6; 14; 11; 12; 11; 8; 6; 5; 5]].
Definition rmd_shift (round word : nat) : Z := nth word (nth round rmd_shifts []) 0.

(** One step of one line: [f] the function, [k] the constant, [x] the message word, [s] the shift. *)
Definition rmd_step (f : Z -> Z -> Z -> Z) (k x s : Z) (v : list Z) : list Z :=
  match v with
  | [A; B; C; D; E] =>
      let T := (rotl 32 s ((A + f B C D + x + k) mod 2 ^ 32) + E) mod 2 ^ 32 in
      [E; T; B; rotl 32 10 C; D]
  | _ => v
  end.
(** The eighty steps: (round, index in the round). *)
Definition rmd_steps : list (nat * nat) :=
  flat_map (fun j => map (fun i => (j, i)) (seq 0 16)) (seq 0 5).
Definition rmd_left (K X : list Z) (h : list Z) : list Z :=
  fold_left (fun v ji => let r := rmd_r (fst ji) (snd ji) in
     rmd_step (rmd_f (fst ji)) (nth (fst ji) K 0) (nth r X 0) (rmd_shift (fst ji) r) v) rmd_steps h.
Definition rmd_right (K' X : list Z) (h : list Z) : list Z :=
  fold_left (fun v ji => let r := rmd_r' (fst ji) (snd ji) in
     rmd_step (rmd_f (4 - fst ji)) (nth (fst ji) K' 0) (nth r X 0) (rmd_shift (fst ji) r) v)
     rmd_steps h.
Definition rmd_block (K K' : list Z) (h block : list Z) : list Z :=
  let X := map (le_val 256) (groups 4 block) in
  match h, rmd_left K X h, rmd_right K' X h with
  | [h0; h1; h2; h3; h4], [A; B; C; D; E], [A'; B'; C'; D'; E'] =>
      map (fun x => x mod 2 ^ 32)
          [h1 + C + D'; h2 + D + E'; h3 + E + A'; h4 + A + B'; h0 + B + C']
  | _, _, _ => []
  end.
Definition rmd_initial : list Z :=
  [0x67452301; 0xEFCDAB89; 0x98BADCFE; 0x10325476; 0xC3D2E1F0].
Definition rmd_hash (K K' : list Z) (msg : list Z) : list Z :=
  flat_map (le_bytes 4)
    (fold_left (rmd_block K K') (groups 64 (md_pad 64 8 le_bytes msg)) rmd_initial).

(** The part of a byte string that is seen when its length is kept in 32 bits. *)
Definition trunc32 (l : list Z) : list Z := firstn (Z.to_nat (len l mod 2 ^ 32)) l.

(** * RFC 2104, RFC 8018 *)
Definition xor_bytes (a b : list Z) : list Z := map (fun xy => Z.lxor (fst xy) (snd xy)) (combine a b).
Section Hmac.
Variable H : list Z -> list Z.    (* the hash function *)
Variable B : nat.                 (* its block length *)
Definition rfc2104_key (key : list Z) : list Z :=
  let k := if Nat.ltb B (length key) then H key else key in
  k ++ zeros (B - length k).
Definition rfc2104 (key msg : list Z) : list Z :=
  let k := rfc2104_key key in
  H (xor_bytes k (repeat 0x5c B) ++ H (xor_bytes k (repeat 0x36 B) ++ msg)).
End Hmac.

Section Pbkdf2.
Variable prf : list Z -> list Z -> list Z.
(** U, PRF(P, U), PRF(P, PRF(P, U)), ... : [n] of them. *)
Fixpoint rfc8018_us (n : nat) (P U : list Z) : list (list Z) :=
  match n with
  | O => []
  | S n' => U :: rfc8018_us n' P (prf P U)
  end.
(** The block T_i with [c] iterations. *)
Definition rfc8018_T (P S : list Z) (c i : Z) : list Z :=
  match rfc8018_us (Z.to_nat c) P (prf P (S ++ be_bytes 4 i)) with
  | [] => []
  | U :: rest => fold_left xor_bytes rest U
  end.
(** [dkLen] bytes of key. *)
Definition rfc8018 (hLen : Z) (P S : list Z) (c dkLen : Z) : list Z :=
  let l := (dkLen + hLen - 1) / hLen in
  firstn (Z.to_nat dkLen)
    (flat_map (fun i => rfc8018_T P S c (Z.of_nat i)) (seq 1 (Z.to_nat l))).
End Pbkdf2.
