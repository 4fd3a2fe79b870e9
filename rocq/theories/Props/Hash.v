(** C41, C42, C64: hashes, HMAC, PBKDF2. The constants [K], [H] of the standards are not written
    down: they are whatever satisfies [fips_constants] and [rmd_constants] (roots of the first
    primes); C41_constants says that there are such constants. *)
From Verif Require Import Base.Bytes Spec.Codecs Spec.Hash Model.Hash Proof.HashProps Proof.HashInst Proof.HashRmd.
Open Scope Z_scope.

(** The digest an object gives for a sequence of writes, from a given context on. *)
Definition digest (o : hash_obj) (start : hctx) (chunks : list (list Z)) : list Z :=
  fst (o_end o (fold_left (o_write o) chunks start)).

(** * C41 *)
Theorem C41_constants : (exists K H, fips_constants fips256 K H) /\ (exists K H, fips_constants fips512 K H) /\
  (exists K K', rmd_constants K K').
Proof. exact (conj (ex_intro _ _ (ex_intro _ _ constants256)) (conj (ex_intro _ _ (ex_intro _ _ constants512)) (ex_intro _ _ (ex_intro _ _ rmd_consts_ok)))). Qed.
Print Assumptions C41_constants.
Theorem C41_sha256_writes : forall K H chunks, fips_constants fips256 K H -> Forall bytes_ok chunks ->
  len (concat chunks) < 2 ^ 61 ->
  digest SHA256_obj (o_new SHA256_obj) chunks = fips_hash fips256 K H (concat chunks).
Proof. exact sha256_any. Qed.
Print Assumptions C41_sha256_writes.
Theorem C41_sha512_writes : forall K H chunks, fips_constants fips512 K H -> Forall bytes_ok chunks ->
  len (concat chunks) < 2 ^ 125 -> Forall (fun d => len d < 2 ^ 61) chunks ->
  digest SHA512_obj (o_new SHA512_obj) chunks = fips_hash fips512 K H (concat chunks).
Proof. exact sha512_any. Qed.
Print Assumptions C41_sha512_writes.
(** The full statement asks this of every sequence of writes; a single write of 2^32 bytes or more
    is excluded here, and C41_rmd160_long_writes_refuted says what happens to it. *)
Theorem C41_rmd160_writes_partial : forall K K' chunks, rmd_constants K K' -> Forall bytes_ok chunks ->
  Forall (fun d => len d < 2 ^ 32) chunks -> len (concat chunks) < 2 ^ 61 ->
  digest RMD160_obj (o_new RMD160_obj) chunks = rmd_hash K K' (concat chunks).
Proof. exact rmd160_any. Qed.
Print Assumptions C41_rmd160_writes_partial.
(** Every write loses all but the first (length mod 2^32) bytes. *)
Theorem C41_rmd160_long_writes_refuted : forall K K' chunks, rmd_constants K K' -> Forall bytes_ok chunks ->
  len (concat (map trunc32 chunks)) < 2 ^ 61 ->
  digest RMD160_obj (o_new RMD160_obj) chunks = rmd_hash K K' (concat (map trunc32 chunks)).
Proof. exact rmd160_trunc. Qed.
Print Assumptions C41_rmd160_long_writes_refuted.
Theorem C41_hash160_writes : forall K H C C' chunks, fips_constants fips256 K H -> rmd_constants C C' ->
  Forall bytes_ok chunks -> len (concat chunks) < 2 ^ 61 ->
  digest Hash160_obj (o_new Hash160_obj) chunks = rmd_hash C C' (fips_hash fips256 K H (concat chunks)).
Proof. exact hash160_any. Qed.
Print Assumptions C41_hash160_writes.
Theorem C41_doubleSha_writes : forall K H chunks, fips_constants fips256 K H -> Forall bytes_ok chunks ->
  len (concat chunks) < 2 ^ 61 ->
  digest DoubleSha_obj (o_new DoubleSha_obj) chunks = fips_hash fips256 K H (fips_hash fips256 K H (concat chunks)).
Proof. exact doubleSha_any. Qed.
Print Assumptions C41_doubleSha_writes.
(** BIP340: SHA256(SHA256(tag) || SHA256(tag) || message). *)
Theorem C41_tagged_writes : forall K H tag chunks, fips_constants fips256 K H -> bytes_ok tag -> Forall bytes_ok chunks ->
  len tag < 2 ^ 61 -> len (concat chunks) < 2 ^ 60 ->
  let th := fips_hash fips256 K H tag in
  digest (TaggedHash_obj tag) (o_new (TaggedHash_obj tag)) chunks = fips_hash fips256 K H (th ++ th ++ concat chunks).
Proof. exact tagged_any. Qed.
Print Assumptions C41_tagged_writes.
(** The one-line functions. *)
Theorem C41_one_line : forall K H K5 H5 C C' data, fips_constants fips256 K H -> fips_constants fips512 K5 H5 ->
  rmd_constants C C' -> bytes_ok data -> len data < 2 ^ 32 ->
  sha256 data = fips_hash fips256 K H data /\ sha512 data = fips_hash fips512 K5 H5 data /\
  rmd160 data = rmd_hash C C' data /\ hash160 data = rmd_hash C C' (fips_hash fips256 K H data) /\
  doubleSha data = fips_hash fips256 K H (fips_hash fips256 K H data).
Proof. exact one_shots. Qed.
Print Assumptions C41_one_line.
(** FIPS 180-4 and RIPEMD-160 test vectors, in two writes. *)
Example C41_sha256_abc : be_val 256 (digest SHA256_obj (o_new SHA256_obj) [chars "a"; chars "bc"])
  = 0xba7816bf8f01cfea414140de5dae2223b00361a396177a9cb410ff61f20015ad.
Proof. vm_compute. reflexivity. Qed.
Example C41_sha512_abc : be_val 256 (digest SHA512_obj (o_new SHA512_obj) [chars "a"; chars "bc"])
  = 0xddaf35a193617abacc417349ae20413112e6fa4e89a97ea20a9eeee64b55d39a2192992a274fc1a836ba3c23a3feebbd454d4423643ce80e2a9ac94fa54ca49f.
Proof. vm_compute. reflexivity. Qed.
Example C41_rmd160_abc : be_val 256 (digest RMD160_obj (o_new RMD160_obj) [chars "a"; chars "bc"])
  = 0x8eb208f7e05d987a9b044a8e98c6b087f15a0bfc.
Proof. vm_compute. reflexivity. Qed.
(** The specification itself, on the same message and with the constants found. *)
Example C41_spec_abc : be_val 256 (fips_hash fips256 K256 H256 (chars "abc"))
  = 0xba7816bf8f01cfea414140de5dae2223b00361a396177a9cb410ff61f20015ad.
Proof. vm_compute. reflexivity. Qed.

(** * C42 *)
Theorem C42_hmac_sha256 : forall K H key msg, fips_constants fips256 K H -> bytes_ok key -> bytes_ok msg ->
  len key < 2 ^ 32 -> len msg < 2 ^ 32 -> sha256Hmac key msg = rfc2104 (fips_hash fips256 K H) 64 key msg.
Proof. exact hmac256_eq. Qed.
Print Assumptions C42_hmac_sha256.
Theorem C42_hmac_sha512 : forall K H key msg, fips_constants fips512 K H -> bytes_ok key -> bytes_ok msg ->
  len key < 2 ^ 32 -> len msg < 2 ^ 32 -> sha512Hmac key msg = rfc2104 (fips_hash fips512 K H) 128 key msg.
Proof. exact hmac512_eq. Qed.
Print Assumptions C42_hmac_sha512.
(** Keys and messages of any length: lengths are kept in 32 bits. *)
Theorem C42_hmac_long_refuted : forall K H K5 H5 key msg, fips_constants fips256 K H -> fips_constants fips512 K5 H5 ->
  bytes_ok key -> bytes_ok msg ->
  sha256Hmac key msg = rfc2104 (fips_hash fips256 K H) 64 (trunc32 key) (trunc32 msg) /\
  sha512Hmac key msg = rfc2104 (fips_hash fips512 K5 H5) 128 (trunc32 key) (trunc32 msg).
Proof. exact (fun K H K5 H5 key msg a b c d => conj (hmac256_once K H key msg a c d) (hmac512_once K5 H5 key msg b c d)). Qed.
Print Assumptions C42_hmac_long_refuted.
(** beginHMAC, any sequence of writes, endHMAC. *)
Theorem C42_hmac_sha256_writes : forall K H key chunks, fips_constants fips256 K H -> bytes_ok key ->
  Forall bytes_ok chunks -> len key < 2 ^ 32 -> len (concat chunks) < 2 ^ 60 ->
  hmac_Final SHA_256 (fold_left (hmac_write SHA_256) chunks (hmac_Init SHA_256 key))
  = rfc2104 (fips_hash fips256 K H) 64 key (concat chunks).
Proof. exact hmac256_writes. Qed.
Print Assumptions C42_hmac_sha256_writes.
Theorem C42_hmac_sha512_writes : forall K H key chunks, fips_constants fips512 K H -> bytes_ok key ->
  Forall bytes_ok chunks -> len key < 2 ^ 32 -> len (concat chunks) < 2 ^ 60 ->
  hmac_Final SHA_512 (fold_left (hmac_write SHA_512) chunks (hmac_Init SHA_512 key))
  = rfc2104 (fips_hash fips512 K H) 128 key (concat chunks).
Proof. exact hmac512_writes. Qed.
Print Assumptions C42_hmac_sha512_writes.
(** RFC 4231, test case 2. *)
Example C42_hmac_jefe : be_val 256 (sha256Hmac (chars "Jefe") (chars "what do ya want for nothing?"))
  = 0x5bdcc146bf60754e6a042426089575c75a003f089d2739839dec58b964ec3843.
Proof. vm_compute. reflexivity. Qed.

(** [junk]: what the uninitialised buffer of the context holds. *)
Theorem C42_pbkdf2_sha256 : forall K H junk pass salt c keylen, fips_constants fips256 K H -> length junk = 64%nat ->
  bytes_ok pass -> bytes_ok salt -> len pass < 2 ^ 31 -> len salt < 2 ^ 31 -> 1 <= c -> 1 <= keylen < 2 ^ 31 ->
  pbkdf2 SHA_256 junk pass salt c keylen = rfc8018 (rfc2104 (fips_hash fips256 K H) 64) 32 pass salt c keylen.
Proof. exact pbkdf2_256. Qed.
Print Assumptions C42_pbkdf2_sha256.
Theorem C42_pbkdf2_sha512 : forall K H junk pass salt c keylen, fips_constants fips512 K H -> length junk = 128%nat ->
  bytes_ok pass -> bytes_ok salt -> len pass < 2 ^ 31 -> len salt < 2 ^ 31 -> 1 <= c -> 1 <= keylen < 2 ^ 31 ->
  pbkdf2 SHA_512 junk pass salt c keylen = rfc8018 (rfc2104 (fips_hash fips512 K H) 128) 64 pass salt c keylen.
Proof. exact pbkdf2_512. Qed.
Print Assumptions C42_pbkdf2_sha512.
(** 40 bytes, two rounds: two blocks, the second cut. *)
Example C42_pbkdf2_case : be_val 256 (pbkdf2 SHA_256 (repeat 77 64) (chars "password") (chars "salt") 2 40)
  = 0xae4d0c95af6b46d32d0adff928f06dd02a303f8ef3c251dfd6e2d85a95474c43830651afcb5c862f.
Proof. vm_compute. reflexivity. Qed.
(** The seed an HD wallet takes from a mnemonic. *)
Theorem C42_wallet_seed : forall K H mnemonic password, fips_constants fips512 K H ->
  bytes_ok mnemonic -> bytes_ok password -> len mnemonic < 2 ^ 32 -> len password < 2 ^ 32 ->
  mnemonic_seed mnemonic password
  = rfc8018 (rfc2104 (fips_hash fips512 K H) 128) 64 mnemonic (chars "mnemonic" ++ password) 2048 64.
Proof. exact seed_eq. Qed.
Print Assumptions C42_wallet_seed.
(** mnemonic_to_seed: the same for passphrases up to 256 bytes; with longer ones it writes past
    its salt array. *)
Theorem C42_mnemonic_to_seed : forall K H junk mnemonic password, fips_constants fips512 K H -> length junk = 128%nat ->
  bytes_ok mnemonic -> bytes_ok password -> len mnemonic < 2 ^ 32 -> len password <= 256 ->
  mnemonic_to_seed junk mnemonic password
  = Ok (rfc8018 (rfc2104 (fips_hash fips512 K H) 128) 64 mnemonic (chars "mnemonic" ++ password) 2048 64).
Proof. exact to_seed_eq. Qed.
Print Assumptions C42_mnemonic_to_seed.
Theorem C42_mnemonic_to_seed_long_refuted : forall junk mnemonic password, 256 < len password ->
  mnemonic_to_seed junk mnemonic password = UB.
Proof. exact to_seed_long. Qed.
Print Assumptions C42_mnemonic_to_seed_long_refuted.
(** A case that meets the hypotheses of both (two thousand rounds are too many to run here). *)
Example C42_seed_case : bytes_ok (chars "abandon") /\ len (chars "TREZOR") <= 256 /\ len (chars "abandon") < 2 ^ 32.
Proof. split; [apply Base.BytesFacts.bytes_ok_bool; reflexivity|split; [intro; discriminate|reflexivity]]. Qed.

(** * C64: using an object again *)
Theorem C64_begin_again : forall o, In o [RMD160_obj; SHA256_obj; SHA512_obj; Hash160_obj; DoubleSha_obj] ->
  forall chunks, digest o (o_begin o) chunks = digest o (o_new o) chunks.
Proof. exact begin_again. Qed.
Print Assumptions C64_begin_again.
(** Without begin() the next digest is computed from an all-zero state, whatever came before. *)
Theorem C64_reuse_refuted : forall K H K5 H5, fips_constants fips256 K H -> fips_constants fips512 K5 H5 ->
  (forall c chunks, Forall bytes_ok chunks -> len (concat chunks) < 2 ^ 61 ->
    digest SHA256_obj (snd (o_end SHA256_obj c)) chunks = fips_hash fips256 K (zeros 8) (concat chunks) /\
    digest SHA512_obj (snd (o_end SHA512_obj c)) chunks = fips_hash fips512 K5 (zeros 8) (concat chunks)) /\
  forall c, digest SHA256_obj (snd (o_end SHA256_obj c)) [chars "abc"] <> digest SHA256_obj (o_new SHA256_obj) [chars "abc"].
Proof. exact reuse_wrong. Qed.
Print Assumptions C64_reuse_refuted.
(** begin() on a tagged hash forgets the tag. *)
Theorem C64_tagged_begin_refuted :
  (forall tag chunks, digest (TaggedHash_obj tag) (o_begin (TaggedHash_obj tag)) chunks = digest SHA256_obj (o_new SHA256_obj) chunks) /\
  let o := TaggedHash_obj (chars "BIP0340/challenge") in
  digest o (o_begin o) [chars "abc"] <> digest o (o_new o) [chars "abc"].
Proof. exact tagged_begin. Qed.
Print Assumptions C64_tagged_begin_refuted.
