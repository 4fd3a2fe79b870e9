(** C39, C40, C65 and the seed cache part of C42: mnemonics. *)
From Verif Require Import Base.Bytes Spec.Hash Spec.Bip39 Model.Hash Model.WordList Model.Bip39 Proof.HashInst Proof.BipWords Proof.BipProps.
Open Scope Z_scope.

(** * C39 *)
(** The word list: 2048 words of lower-case letters, all different, and different already in
    their first four letters. *)
Theorem C39_word_list : len wordlist = 2048 /\ NoDup wordlist /\ NoDup (map (firstn 4) wordlist) /\
  forall w, In w wordlist -> 3 <= len w <= 8 /\ Forall (fun c => 97 <= c <= 122) w.
Proof. exact wordlist_facts. Qed.
Print Assumptions C39_word_list.
(** mnemonicFromEntropy gives the sentence of BIP39 for the five permitted lengths, and nothing
    for other lengths. [junk] is an uninitialised byte. *)
Theorem C39_from_entropy : forall K H junk e, fips_constants fips256 K H -> byte_ok junk -> bytes_ok e ->
  (length e = 16 \/ length e = 20 \/ length e = 24 \/ length e = 28 \/ length e = 32)%nat ->
  mnemonicFromEntropy junk e = Ok (Some (bip39_sentence (fips_hash fips256 K H) wordlist e)).
Proof. exact from_entropy. Qed.
Print Assumptions C39_from_entropy.
Theorem C39_from_entropy_other : forall junk e, len e < 2 ^ 31 ->
  ~ (length e = 16 \/ length e = 20 \/ length e = 24 \/ length e = 28 \/ length e = 32)%nat ->
  mnemonicFromEntropy junk e = Ok None.
Proof. exact from_entropy_other. Qed.
Print Assumptions C39_from_entropy_other.
(** generateMnemonic with user entropy: the sentence of the first bytes of its SHA-256. *)
Theorem C39_generate : forall K H junk n data, fips_constants fips256 K H -> byte_ok junk -> bytes_ok data -> len data < 2 ^ 32 ->
  n = 12 \/ n = 15 \/ n = 18 \/ n = 21 \/ n = 24 ->
  generateMnemonic junk n data =
  Ok (Some (bip39_sentence (fips_hash fips256 K H) wordlist (firstn (Z.to_nat (4 * n / 3)) (fips_hash fips256 K H data)))).
Proof. exact gen_hash. Qed.
Print Assumptions C39_generate.
(** generateMnemonic from the random source ([rnd] is what it delivers). *)
Theorem C39_generate_random : forall K H junk n rnd, fips_constants fips256 K H -> byte_ok junk -> bytes_ok rnd -> length rnd = 32%nat ->
  n = 12 \/ n = 15 \/ n = 18 \/ n = 21 \/ n = 24 ->
  generateMnemonic_random junk rnd n =
  Ok (Some (bip39_sentence (fips_hash fips256 K H) wordlist (firstn (Z.to_nat (4 * n / 3)) rnd))).
Proof. exact gen_random. Qed.
Print Assumptions C39_generate_random.
Theorem C39_round_trip : forall junk e, byte_ok junk -> bytes_ok e -> (length e = 16 \/ length e = 24 \/ length e = 32)%nat ->
  exists s, mnemonicFromEntropy junk e = Ok (Some s) /\ checkMnemonic s = Ok true /\
    (forall outLen, len e <= outLen -> mnemonicToEntropy s outLen = Ok e) /\
    (forall outLen, outLen < len e -> mnemonicToEntropy s outLen = Ok []).
Proof. exact round_trip. Qed.
Print Assumptions C39_round_trip.
(** BIP39 test vector: 16 times 0x7f. *)
Example C39_case :
  mnemonicFromEntropy 99 (repeat 0x7f 16) = Ok (Some (chars "legal winner thank year wave sausage worth useful legal winner thank yellow")) /\
  mnemonicToEntropy (chars "legal winner thank year wave sausage worth useful legal winner thank yellow") 16 = Ok (repeat 0x7f 16).
Proof. vm_compute. split; reflexivity. Qed.

(** * C40 *)
Theorem C40_check_exact : forall K H s, fips_constants fips256 K H -> len s < 2 ^ 32 - 1 ->
  checkMnemonic s = Ok true <->
  exists e, bytes_ok e /\ (length e = 16 \/ length e = 24 \/ length e = 32)%nat /\ s = bip39_sentence (fips_hash fips256 K H) wordlist e.
Proof. exact exact_acceptance. Qed.
Print Assumptions C40_check_exact.
Theorem C40_check_in_bounds : forall s, len s < 2 ^ 32 - 1 -> exists b, checkMnemonic s = Ok b.
Proof. exact check_defined. Qed.
Print Assumptions C40_check_in_bounds.
Theorem C40_to_entropy_in_bounds : forall s outLen, len s < 2 ^ 29 - 1 ->
  exists e, mnemonicToEntropy s outLen = Ok e /\ (e = [] \/ len e <= outLen).
Proof. exact to_entropy_defined. Qed.
Print Assumptions C40_to_entropy_in_bounds.
(** mnemonicToEntropy does not verify the checksum: any 12, 18 or 24 words of the list will do. *)
Theorem C40_to_entropy_checksum_refuted :
  (forall ks q outLen, Forall (fun k => 0 <= k < 2048) ks -> length ks = (3 * q)%nat -> (q = 4 \/ q = 6 \/ q = 8)%nat -> 32 <= outLen ->
    exists e, mnemonicToEntropy (join_words (map (fun k => nth (Z.to_nat k) wordlist []) ks)) outLen = Ok e /\ length e = (4 * q)%nat) /\
  exists s, checkMnemonic s = Ok false /\ mnemonicToEntropy s 32 = Ok (zeros 16).
Proof. exact (conj no_checksum (ex_intro _ _ bad_sentence)). Qed.
Print Assumptions C40_to_entropy_checksum_refuted.
Example C40_case : checkMnemonic (chars "legal winner thank year wave sausage worth useful legal winner thank yellow") = Ok true /\
  checkMnemonic (chars "legal winner thank year wave sausage worth useful legal winner thank year") = Ok false /\
  checkMnemonic (chars "legal  winner thank year wave sausage worth useful legal winner thank") = Ok false /\
  checkMnemonic (chars "") = Ok false.
Proof. vm_compute. repeat split. Qed.

(** * C65 *)
(** The library generates sentences of 15 and 21 words, and refuses all of them. *)
Theorem C65_15_21_words_refuted : forall junk e, byte_ok junk -> bytes_ok e -> (length e = 20 \/ length e = 28)%nat ->
  exists s, mnemonicFromEntropy junk e = Ok (Some s) /\ checkMnemonic s = Ok false /\
    forall outLen, mnemonicToEntropy s outLen = Ok [].
Proof. exact words_15_21. Qed.
Print Assumptions C65_15_21_words_refuted.
Theorem C65_other_counts_partial : forall junk n data, byte_ok junk -> bytes_ok data -> len data < 2 ^ 32 ->
  n = 12 \/ n = 18 \/ n = 24 ->
  exists s, generateMnemonic junk n data = Ok (Some s) /\ checkMnemonic s = Ok true.
Proof. exact generated_ok. Qed.
Print Assumptions C65_other_counts_partial.

(** * C42: mnemonic_to_seed keeps the last seeds in a cache; for every history of calls it gives
    the seeds of the standard. *)
Theorem C42_seed_cache : forall K H calls, fips_constants fips512 K H ->
  Forall (fun call => let '(junk, m, p) := call in length junk = 128%nat /\ bytes_ok m /\ bytes_ok p /\ len m < 2 ^ 32 /\ len p <= 256) calls ->
  seed_calls seed_cache0 calls = Ok (map (fun call => let '(_, m, p) := call in
    rfc8018 (rfc2104 (fips_hash fips512 K H) 128) 64 m (chars "mnemonic" ++ p) 2048 64) calls).
Proof. exact (fun K H calls C => seed_calls_ok K H calls seed_cache0 C cache0_ok). Qed.
Print Assumptions C42_seed_cache.
