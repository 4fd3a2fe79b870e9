(** C86, C87: choices made from random words, and where the words come from. *)
From Coq Require Import Lia Permutation.
From Verif Require Import Base.Bytes Spec.Codecs Spec.Bignum Spec.Schemes Spec.Random Model.Bignum Model.Scalar Model.EC Model.Bip39 Model.Rand
  Proof.RandFacts Proof.RandMore.
Open Scope Z_scope.

(** * C86 Random bytes, numbers, permutations, scalars and mnemonics prefer nothing, if the random words do not *)
(** n random bytes are the first n bytes of the words, least significant byte first; no word more than needed is taken. *)
Theorem C86_bytes : forall n ws, (n <= 4 * length ws)%nat ->
  random_buffer n ws = Some (firstn n (flat_map (le_bytes 4) ws), skipn ((n + 3) / 4) ws).
Proof. exact buffer_spec. Qed.
Print Assumptions C86_bytes.
(** Any bytes come from exactly one sequence of words. *)
Theorem C86_bytes_bijective : forall k bs, bytes_ok bs -> length bs = (4 * k)%nat ->
  exists ws, length ws = k /\ Forall word32 ws /\
    forall vs rest, length vs = k -> Forall word32 vs -> (random_buffer (4 * k) (vs ++ rest) = Some (bs, rest) <-> vs = ws).
Proof. exact buffer_bijection. Qed.
Print Assumptions C86_bytes_bijective.
(** random_uniform(n): each number below n comes from equally many words; words beyond those are not used. *)
Theorem C86_uniform : forall n, 1 <= n < 2 ^ 32 ->
  1 <= share n /\
  (forall w r, 0 <= r < n -> word32 w -> (random_uniform n [w] = Ok (Some (r, [])) <-> r * share n <= w < (r + 1) * share n)) /\
  (forall w ws r rest, 0 <= r < n -> 0 <= w < n * share n ->
     (random_uniform n (w :: ws) = Ok (Some (r, rest)) <-> r * share n <= w < (r + 1) * share n /\ rest = ws)) /\
  (forall w ws, n * share n <= w -> random_uniform n (w :: ws) = random_uniform n ws) /\
  2 ^ 31 <= n * share n + 1.
Proof. exact uniform_all. Qed.
Print Assumptions C86_uniform.
Theorem C86_uniform_zero : forall ws, random_uniform 0 ws = UB.
Proof. exact uniform_zero. Qed.
Print Assumptions C86_uniform_zero.
(** random_permute rearranges, whatever the words and the characters. *)
Theorem C86_permute_rearranges : forall l ws p rest, len l < 2 ^ 31 -> Forall word32 ws ->
  random_permute l ws = Ok (Some (p, rest)) -> Permutation l p.
Proof. exact permute_rearranges. Qed.
Print Assumptions C86_permute_rearranges.
Theorem C86_permute_defined : forall l ws, len l < 2 ^ 31 -> Forall word32 ws -> random_permute l ws <> UB.
Proof. exact permute_defined. Qed.
Print Assumptions C86_permute_defined.
(** Each arrangement of different characters comes from one sequence of positions, and each position from [share] words: all
    arrangements come from equally many sequences of words. *)
Theorem C86_permute_fair : forall l p, l <> [] -> len l < 2 ^ 31 -> NoDup l -> Permutation l p ->
  exists js, picks_ok (length l - 1) js /\ forall ws, Forall word32 ws -> length ws = (length l - 1)%nat ->
    (random_permute l ws = Ok (Some (p, [])) <-> words_pick (length l - 1) js ws).
Proof. exact permute_fair. Qed.
Print Assumptions C86_permute_fair.
(** The random numbers that hide the secrets in computations on the curve are between 0 and the modulus, as the theorems about these
    computations assume. *)
Theorem C86_scalar_range : forall m rounds k, normalized m -> Forall (fun w => length w = 9%nat) rounds ->
  generate_k_random rounds m = Some k -> random_below (bn_val m) k.
Proof. exact scalar_range. Qed.
Print Assumptions C86_scalar_range.
(** Each of them comes from equally many words: the two (sixteen) upper bits of the first eight words (the last word) are free. Other
    words are not used. *)
Theorem C86_scalar_fair : forall m w k, normalized m -> length w = 9%nat -> random_below (bn_val m) k ->
  (generate_k_random [w] m = Some k <-> map (fun v => v mod 2 ^ 30) (firstn 8 w) ++ [nth 8 w 0 mod 2 ^ 16] = k).
Proof. exact scalar_exact. Qed.
Print Assumptions C86_scalar_fair.
Theorem C86_scalar_next : forall m w t, normalized m -> length w = 9%nat ->
  let x := bn_val (map (fun v => v mod 2 ^ 30) (firstn 8 w) ++ [nth 8 w 0 mod 2 ^ 16]) in
  x = 0 \/ bn_val m <= x -> generate_k_random (w :: t) m = generate_k_random t m.
Proof. exact scalar_next. Qed.
Print Assumptions C86_scalar_next.
(** generateMnemonic(n): the mnemonic of each entropy comes from exactly one choice of the first n / 3 words. *)
Theorem C86_mnemonic : forall junk n e, byte_ok junk -> n = 12 \/ n = 18 \/ n = 24 -> bytes_ok e -> len e = 4 * (n / 3) ->
  exists us, length us = Z.to_nat (n / 3) /\ Forall word32 us /\
    forall ws, length ws = 8%nat -> Forall word32 ws ->
      (generateMnemonic_words junk n ws = Some (mnemonicFromEntropy junk e) <-> firstn (Z.to_nat (n / 3)) ws = us).
Proof. exact generate_every. Qed.
Print Assumptions C86_mnemonic.
(** The same for 15 and 21 words, but without uniqueness. *)
Theorem C86_mnemonic_of_words : forall junk n ws, byte_ok junk -> n = 12 \/ n = 15 \/ n = 18 \/ n = 21 \/ n = 24 -> (8 <= length ws)%nat ->
  generateMnemonic_words junk n ws = Some (mnemonicFromEntropy junk (flat_map (le_bytes 4) (firstn (Z.to_nat (n / 3)) ws))).
Proof. exact generate_is. Qed.
Print Assumptions C86_mnemonic_of_words.
Example C86_case :
  random_buffer 6 [0x12345678; 0x87654321; 7] = Some ([0x78; 0x56; 0x34; 0x12; 0x21; 0x43], [7]) /\
  (share 6 = 715827882 /\ random_uniform 6 [4294967295; 4294967292; 4294967291] = Ok (Some (5, []))) /\
  random_permute [1; 2; 3; 4] [0; 4000000000; 4294967295; 77] = Ok (Some ([2; 4; 3; 1], [])) /\
  generate_k_random [[0; 0; 0; 0; 0; 0; 0; 0; 0x10000]; repeat 0xFFFFFFFF 9; [0x40000005; 0; 0; 0; 0; 0; 0; 0; 0x30002]] order_limbs =
    Some [5; 0; 0; 0; 0; 0; 0; 0; 2].
Proof. vm_compute. repeat split. Qed.
(** The hypotheses of C86_permute_fair. *)
Example C86_permute_case : exists js, picks_ok 2 js /\ forall ws, Forall word32 ws -> length ws = 2%nat ->
  (random_permute [97; 98; 99] ws = Ok (Some ([99; 97; 98], [])) <-> words_pick 2 js ws).
Proof.
  apply (C86_permute_fair [97; 98; 99] [99; 97; 98]); [discriminate|reflexivity| |].
  - repeat constructor; cbn; intuition discriminate.
  - apply (Permutation_app_comm [97; 98] [99]).
Qed.

(** * C87 Where the random words come from *)
(** "On every platform, generateMnemonic can give the mnemonic of any entropy." On a PC it gives that of an entropy only if none of its
    words exceeds RAND_MAX: (RAND_MAX + 1)^(n/3) of 2^(32 n/3), which for 12 words is 2^124 if RAND_MAX is 2^31 - 1 and 2^60 if it is
    2^15 - 1. *)
Theorem C87_pc_exact : forall junk n us RAND_MAX, byte_ok junk -> n = 12 \/ n = 18 \/ n = 24 -> Forall word32 us -> len us = n / 3 ->
  0 <= RAND_MAX < 2 ^ 31 ->
  (exists rs, length rs = 8%nat /\ Forall (fun r => 0 <= r <= RAND_MAX) rs /\
    generateMnemonic_words junk n (map random32_pc rs) = Some (mnemonicFromEntropy junk (flat_map (le_bytes 4) us))) <->
  Forall (fun u => u <= RAND_MAX) us.
Proof. exact pc_reach. Qed.
Print Assumptions C87_pc_exact.
Theorem C87_pc_refuted : forall junk n e i RAND_MAX rs, byte_ok junk -> n = 12 \/ n = 18 \/ n = 24 -> bytes_ok e -> len e = 4 * (n / 3) ->
  0 <= i < n / 3 -> 128 <= nth (Z.to_nat (4 * i + 3)) e 0 ->
  RAND_MAX < 2 ^ 31 -> length rs = 8%nat -> Forall (fun r => 0 <= r <= RAND_MAX) rs ->
  generateMnemonic_words junk n (map random32_pc rs) <> Some (mnemonicFromEntropy junk e).
Proof. exact pc_never. Qed.
Print Assumptions C87_pc_refuted.
(** On an ESP8266 four 32 bit readings are shifted into each other and combined with "or": what the bits are. *)
Theorem C87_esp8266_exact : forall v0 v1 v2 v3 k, word32 v0 -> word32 v1 -> word32 v2 -> word32 v3 -> 0 <= k < 32 ->
  Z.testbit (random32_esp8266 v0 v1 v2 v3) k =
  Z.testbit v3 k || (8 <=? k) && Z.testbit v2 (k - 8) || (16 <=? k) && Z.testbit v1 (k - 16) || (24 <=? k) && Z.testbit v0 (k - 24).
Proof. exact esp_bits. Qed.
Print Assumptions C87_esp8266_exact.
(** "Each bit of a random word is as often 0 as 1." Each of the eight upper bits is 0 only if four bits of the hardware all are 0,
    which is so in one of 16 cases. *)
Theorem C87_esp8266_refuted : forall v0 v1 v2 v3 i, word32 v0 -> word32 v1 -> word32 v2 -> word32 v3 -> 0 <= i < 8 ->
  (Z.testbit (random32_esp8266 v0 v1 v2 v3) (24 + i) = false <->
   Z.testbit v0 i = false /\ Z.testbit v1 (8 + i) = false /\ Z.testbit v2 (16 + i) = false /\ Z.testbit v3 (24 + i) = false).
Proof. exact esp_top. Qed.
Print Assumptions C87_esp8266_refuted.
(** "A mnemonic is random, or there is none." On an STM32 whose generator is not ready within 10 ms the words are 0, and so is the
    entropy. *)
Theorem C87_stm32_refuted : forall junk n, byte_ok junk -> n = 12 \/ n = 15 \/ n = 18 \/ n = 21 \/ n = 24 ->
  generateMnemonic_words junk n (map random32_stm32 (repeat None 8)) = Some (mnemonicFromEntropy junk (zeros (Z.to_nat (4 * n / 3)))).
Proof. exact stm_timeout. Qed.
Print Assumptions C87_stm32_refuted.
(** "Two devices have different mnemonics." Where there is no generator, the first mnemonic after every start is that of these bytes. *)
Theorem C87_fallback_refuted : forall junk n, byte_ok junk -> n = 12 \/ n = 15 \/ n = 18 \/ n = 21 \/ n = 24 ->
  generateMnemonic_words junk n (prng_words 8 prng_init) = Some (mnemonicFromEntropy junk (firstn (Z.to_nat (4 * n / 3))
    [6; 8; 91; 191; 94; 88; 52; 115; 157; 123; 12; 188; 222; 90; 236; 189;
     104; 45; 241; 165; 3; 162; 140; 151; 3; 226; 226; 140; 21; 206; 178; 55])).
Proof. exact prng_same. Qed.
Print Assumptions C87_fallback_refuted.
Example C87_case :
  random32_esp8266 0x01 0x0200 0x040000 0x08000000 = 0x0F000000 /\
  generateMnemonic_words 0 12 (prng_words 8 prng_init) =
    Some (Ok (Some (chars "alcohol drift used royal local degree invest ghost rubber version robot knife"))) /\
  generateMnemonic_words 0 12 (map random32_stm32 (repeat None 8)) =
    Some (Ok (Some (chars "abandon abandon abandon abandon abandon abandon abandon abandon abandon abandon abandon about"))).
Proof. vm_compute. repeat split. Qed.
