{
 "claims": [
  {
   "property": "C01",
   "status": "proved",
   "theorems": [
    "C01_varint_roundtrip",
    "C01_varint_shortest",
    "C01_varint_canonical",
    "C01_varint_reads_every_form",
    "C01_varint_prefix_free",
    "C01_varint_small_buffer",
    "C01_varint_truncated"
   ],
   "note": "Write/read round trip for all 64-bit values, shortest form, prefix-freeness, refusal of short buffers; truncated input reads as 0."
  },
  {
   "property": "C02",
   "status": "proved",
   "theorems": [
    "C02_fixed_width_roundtrip",
    "C02_wide_is_undefined"
   ],
   "note": "All widths up to 8 bytes; wider is undefined behaviour (C02_wide_is_undefined)."
  },
  {
   "property": "C03",
   "status": "proved",
   "theorems": [
    "C03_hex_roundtrip",
    "C03_hex_refuses_small_buffer"
   ],
   "note": ""
  },
  {
   "property": "C04",
   "status": "partial",
   "theorems": [
    "C04_fromHex_bounds_partial",
    "C04_fromHex_bounds_refuted"
   ],
   "note": "The property is false as stated: C04_fromHex_bounds_refuted. It holds when the array is at least half the text length."
  },
  {
   "property": "C05",
   "status": "partial",
   "theorems": [
    "C05_bin_roundtrip_partial",
    "C05_bin_roundtrip_refuted"
   ],
   "note": "False beyond 256 bytes (C05_bin_roundtrip_refuted): the byte index is 8 bits wide. Proved up to 256 bytes."
  },
  {
   "property": "C06",
   "status": "proved",
   "theorems": [
    "C06_base64_roundtrip"
   ],
   "note": "All four option combinations, all non-empty inputs."
  },
  {
   "property": "C07",
   "status": "partial",
   "theorems": [
    "C07_base64_empty_refuted"
   ],
   "note": "False: the empty input is undefined behaviour (out-of-bounds read/write)."
  },
  {
   "property": "C08",
   "status": "proved",
   "theorems": [
    "C08_base58_encoding",
    "C08_base58_refuses_small_buffer"
   ],
   "note": "Inputs shorter than 2^50 bytes (size arithmetic does not wrap)."
  },
  {
   "property": "C09",
   "status": "partial",
   "theorems": [
    "C09_base58_roundtrip_refuted",
    "C09_base58_roundtrip_exact_partial"
   ],
   "note": "False in general (C09_base58_roundtrip_refuted, four zero bytes). C09_base58_roundtrip_exact_partial gives the exact criterion for inputs under 2^20 bytes with fewer than 256 leading zeros."
  },
  {
   "property": "C10",
   "status": "proved",
   "theorems": [
    "C10_base58_roundtrip_no_leading_zero",
    "C10_base58_roundtrip_address"
   ],
   "note": ""
  },
  {
   "property": "C11",
   "status": "proved",
   "theorems": [
    "C11_base58check_roundtrip",
    "C11_base58check_sound",
    "C11_base58check_canonical"
   ],
   "note": "The hash is universally quantified with its length and byte range. Uniqueness of the accepted text is shown for texts over the alphabet that do not start with 1."
  },
  {
   "property": "C12",
   "status": "proved",
   "theorems": [
    "C12_base43_encoding",
    "C12_base43_roundtrip"
   ],
   "note": "Inputs under 2^15 bytes without leading zero byte for the round trip."
  },
  {
   "property": "C13",
   "status": "proved",
   "theorems": [
    "C13_hex_raw_reads",
    "C13_raw_reads_bytes",
    "C13_stream_writes",
    "C13_empty_hex_read_refuted"
   ],
   "note": "Any sequence of reads/writes. read() on an empty hex stream without asking available() first is out of bounds (C13_empty_hex_read_refuted)."
  },
  {
   "property": "C14",
   "status": "proved",
   "theorems": [
    "C14_script_serializes",
    "C14_script_parses_back"
   ],
   "note": ""
  },
  {
   "property": "C15",
   "status": "partial",
   "theorems": [
    "C15_xprv_slices",
    "C15_xpub_slices",
    "C15_scalar_slices",
    "C15_psbt_refuted",
    "C15_point_slices",
    "C15_schnorr_slices",
    "C15_script_slices",
    "C15_txin_slices",
    "C15_txout_slices",
    "C15_witness_slices",
    "C15_tx_slices"
   ],
   "note": "Script, Witness, TxIn, TxOut, transactions of at most 252 inputs, outputs and witness items, DER and Schnorr signatures, scalars, points, private keys, extended keys. Refuted for PSBT. Missing: larger transactions (whose serialization is already wrong, C19)."
  },
  {
   "property": "C16",
   "status": "partial",
   "theorems": [
    "C16_xprv_chunks",
    "C16_xpub_chunks",
    "C16_scalar_chunks",
    "C16_point_chunks",
    "C16_schnorr_chunks",
    "C16_script_chunks",
    "C16_txin_chunks",
    "C16_txout_chunks",
    "C16_script_feed",
    "C16_txin_feed",
    "C16_txin_parses_back",
    "C16_txout_feed",
    "C16_txout_parses_back",
    "C16_empty_chunk_refuted"
   ],
   "note": "Script, TxIn, TxOut, Schnorr signatures, scalars, points, extended keys: any bytes, any cut into non-empty chunks. Empty chunks do break a fresh Script (C16_empty_chunk_refuted)."
  },
  {
   "property": "C17",
   "status": "partial",
   "theorems": [
    "C17_psbt_start_refuted",
    "C17_psbt_cut_refuted",
    "C17_der_cut_refuted",
    "C17_der_pieces_partial",
    "C17_tx_legacy_chunks_partial",
    "C17_tx_legacy_wire",
    "C17_tx_cut_refuted",
    "C17_witness_boundary_refuted",
    "C17_long_output_refuted",
    "C17_tx_segwit_chunks_partial",
    "C17_tx_last_witness_partial",
    "C17_inner_witness_refuted",
    "C17_witness_cut_refuted",
    "C17_tx_long_item_refuted",
    "C17_witness_chunks_partial"
   ],
   "note": "Proved for transactions without witnesses: any cutting gives the object, count and rest of one parse. Proved for segwit transactions: any cuts before the last byte in front of the witnesses (except at unlucky places inside the length of the last output's script, see Spec/Pieces.v), inside the last witness (except at unlucky places inside the length of one of its elements) and inside the lock time work. Proved for a witness read alone: it can be cut anywhere except at unlucky places inside the length of an element. Proved for DER signatures: exactly which first pieces work (all up to a byte of s that is not zero), with any pieces after it; every other cutting fails. Refuted for all other places: every segwit transaction fails when cut in front of the witnesses, inside a witness that is not the last one, between two of them, or at an unlucky place inside the length of the last output's script, and is read as another one when cut at an unlucky place inside the length of its last witness item; every DER signature fails when cut before the length of s; every PSBT fails when its first piece has at most seven bytes, and a cut inside an entry loses it. Missing: what happens at unlucky places inside the length of a witness element that is not the last, and which cuts of PSBT work."
  },
  {
   "property": "C18",
   "status": "proved",
   "theorems": [
    "C18_tx_round_trip",
    "C18_tx_parses",
    "C18_witness_round_trip"
   ],
   "note": ""
  },
  {
   "property": "C19",
   "status": "partial",
   "theorems": [
    "C19_serialize_refuted",
    "C19_parse_bound",
    "C19_parse_refuted",
    "C19_witness_refuted",
    "C19_parse_253_refuted"
   ],
   "note": "False: refuted for serialization (253 or more inputs or outputs always read out of bounds), for parsing (more than 255 never parse; 253 give a wrong transaction), and for witnesses with 253 or more items. The true part is C18."
  },
  {
   "property": "C20",
   "status": "proved",
   "theorems": [
    "C20_txid",
    "C20_txid_ignores_witness",
    "C20_txid_of_serialized"
   ],
   "note": ""
  },
  {
   "property": "C21",
   "status": "proved",
   "theorems": [
    "C21_sighash",
    "C21_sighash_commits"
   ],
   "note": "The hash is a parameter; commitment is up to an explicit collision."
  },
  {
   "property": "C22",
   "status": "proved",
   "theorems": [
    "C22_sighash_segwit",
    "C22_preimage_commits"
   ],
   "note": "The hash is a parameter; commitment is up to an explicit collision."
  },
  {
   "property": "C23",
   "status": "partial",
   "theorems": [
    "C23_legacy_like_all",
    "C23_segwit_like_all",
    "C23_none_refuted",
    "C23_single_refuted",
    "C23_segwit_none_refuted",
    "C23_segwit_type_byte_refuted",
    "C23_legacy_type_byte_refuted"
   ],
   "note": "False: other types are hashed like SIGHASH_ALL except for the type bytes, and the attached type byte is always 1. Refuted for NONE and SINGLE (legacy) and NONE (segwit); what is hashed instead is proved for all types."
  },
  {
   "property": "C24",
   "status": "proved",
   "theorems": [
    "C24_der",
    "C24_der_unique",
    "C24_round_trip"
   ],
   "note": "der() and serialize() give the unique DER encoding (8 to 72 bytes); parsing it back gives the numbers and consumes exactly it."
  },
  {
   "property": "C25",
   "status": "partial",
   "theorems": [
    "C25_strict_refuted",
    "C25_strict_partial",
    "C25_total"
   ],
   "note": "Refuted as stated: the total-length byte is ignored (any value up to 70 is accepted). Proved: everything else in an accepted string is the strict DER encoding; every byte string is handled without undefined behaviour."
  },
  {
   "property": "C26",
   "status": "proved",
   "theorems": [
    "C26_bin",
    "C26_fromBin",
    "C26_there_and_back",
    "C26_back_and_there",
    "C26_schnorr_parse"
   ],
   "note": "bin/fromBin described for arrays of every length and mutually inverse at 65 bytes; Schnorr signatures parse from and serialize to 64 bytes."
  },
  {
   "property": "C27",
   "status": "proved",
   "theorems": [
    "C27_round_trip",
    "C27_exact",
    "C27_unique"
   ],
   "note": "Encoding, decoding in both cases, exactness of the decoder and uniqueness of the address, for all prefixes, versions and programs."
  },
  {
   "property": "C28",
   "status": "proved",
   "theorems": [
    "C28_detects_four_errors",
    "C28_distance",
    "C28_bech32"
   ],
   "note": "For segwit_addr_decode (any position and replacement) and for bech32_decode with up to 89 data characters."
  },
  {
   "property": "C29",
   "status": "partial",
   "theorems": [
    "C29_long_program_refuted",
    "C29_no_separator_refuted",
    "C29_long_data_refuted",
    "C29_overruns",
    "C29_short_addresses_partial"
   ],
   "note": "Refuted: a valid address of a 33-40 byte program overruns prog[32]; 85-100 characters without separator overrun hrp_actual[84]; more than 90 data characters overrun data[84]. C29_overruns says exactly which texts overrun a buffer; every other text is read safely."
  },
  {
   "property": "C30",
   "status": "proved",
   "theorems": [
    "C30_address",
    "C30_no_address",
    "C30_round_trip",
    "C30_checked",
    "C30_key_addresses"
   ],
   "note": "All four script types, all networks the claim names (and base-58 on Regtest); the writing side for every buffer; only checksummed strings are accepted."
  },
  {
   "property": "C31",
   "status": "partial",
   "theorems": [
    "C31_every_network_refuted",
    "C31_short_address_refuted",
    "C31_regtest_refuted",
    "C31_versions_refuted",
    "C31_bech32m_refuted"
   ],
   "note": "Refuted for P2PKH Mainnet addresses shorter than 33 characters (exact characterisation), all Regtest bech32 addresses, witness versions above 0 and all bech32m addresses. What does come back is C30_round_trip."
  },
  {
   "property": "C32",
   "status": "proved",
   "theorems": [
    "C32_wif_roundtrip",
    "C32_regtest_refuted"
   ],
   "note": "The secret, compression flag and version byte come back. Regtest and testnet share a version byte, so a regtest key comes back as testnet (C32_regtest_refuted)."
  },
  {
   "property": "C33",
   "status": "partial",
   "theorems": [
    "C33_flag_refuted",
    "C33_range_refuted",
    "C33_sound_partial"
   ],
   "note": "Refuted: any flag byte and any 32-byte secret are accepted. What an accepted text must be is shown in C33_sound_partial."
  },
  {
   "property": "C34",
   "status": "partial",
   "theorems": [
    "C34_path_partial",
    "C34_upper_case_refuted",
    "C34_second_character_refuted",
    "C34_refuse_partial",
    "C34_refuse_pub_partial",
    "C34_sound_partial"
   ],
   "note": "Refuted for the mark H (always refused) and for the character after a leading m (skipped, whatever it is). Proved for h and '; what an accepted path can be is C34_sound_partial."
  },
  {
   "property": "C35",
   "status": "partial",
   "theorems": [
    "C35_ten_digits_refuted",
    "C35_pub_digits_refuted",
    "C35_bounds_partial",
    "C35_pub_bounds_partial"
   ],
   "note": "Refuted: every ten-digit number is accepted modulo 2^32 (any length for public keys); the empty path, m and m/ read outside the string. No other path does."
  },
  {
   "property": "C36",
   "status": "partial",
   "theorems": [
    "C36_xprv_roundtrip",
    "C36_xpub_roundtrip",
    "C36_xprv_text_roundtrip",
    "C36_xpub_text_roundtrip",
    "C36_xprv_sound",
    "C36_xpub_sound",
    "C36_order_refuted",
    "C36_type_refuted",
    "C36_regtest_refuted",
    "C36_text_length_refuted",
    "C36_reuse_refuted",
    "C36_xpub_points",
    "C36_xpub_overread_refuted"
   ],
   "note": "Round trips of bytes and text, and soundness of what is accepted; C36_xpub_points uses the modelled point decompression, the other public theorems leave it abstract. Refuted: types without a prefix, regtest, secret equal to n, texts of another payload length, reuse of a failed public key, a key starting with 4 (read past the end)."
  },
  {
   "property": "C37",
   "status": "proved",
   "theorems": [
    "C37_child_agree",
    "C37_derive_agree",
    "C37_path_agree",
    "C37_code_child_agree",
    "C37_code_derive_agree"
   ],
   "note": "For any HMAC and hash with the addition law as a hypothesis, and again with the modelled point operators, HMAC-SHA512 and Hash160, without hypothesis."
  },
  {
   "property": "C38",
   "status": "proved",
   "theorems": [
    "C38_derive_compose",
    "C38_derive_compose_pub",
    "C38_path_compose"
   ],
   "note": ""
  },
  {
   "property": "C39",
   "status": "proved",
   "theorems": [
    "C39_word_list",
    "C39_from_entropy",
    "C39_from_entropy_other",
    "C39_generate",
    "C39_generate_random",
    "C39_round_trip"
   ],
   "note": "Proved, including equality with the BIP39 sentence for all five lengths and for generateMnemonic."
  },
  {
   "property": "C40",
   "status": "partial",
   "theorems": [
    "C40_check_exact",
    "C40_check_in_bounds",
    "C40_to_entropy_in_bounds",
    "C40_to_entropy_checksum_refuted"
   ],
   "note": "checkMnemonic proved exact and in bounds for strings below 2^32-1 characters. mnemonicToEntropy in bounds below 2^29-1 characters, but it does not verify the checksum (refuted)."
  },
  {
   "property": "C41",
   "status": "partial",
   "theorems": [
    "C41_constants",
    "C41_sha256_writes",
    "C41_sha512_writes",
    "C41_rmd160_writes_partial",
    "C41_rmd160_long_writes_refuted",
    "C41_hash160_writes",
    "C41_doubleSha_writes",
    "C41_tagged_writes",
    "C41_one_line"
   ],
   "note": "SHA-256, SHA-512, Hash160, DoubleSha and tagged hashes: proved for every sequence of writes against a specification that defines the constants as roots of primes. RIPEMD-160: proved when each single write is below 2^32 bytes; longer single writes are cut to length mod 2^32, and what they give is stated exactly."
  },
  {
   "property": "C42",
   "status": "partial",
   "theorems": [
    "C42_seed_cache",
    "C42_hmac_sha256",
    "C42_hmac_sha512",
    "C42_hmac_long_refuted",
    "C42_hmac_sha256_writes",
    "C42_hmac_sha512_writes",
    "C42_pbkdf2_sha256",
    "C42_pbkdf2_sha512",
    "C42_wallet_seed",
    "C42_mnemonic_to_seed",
    "C42_mnemonic_to_seed_long_refuted"
   ],
   "note": "HMAC-SHA256/512 = RFC 2104 and PBKDF2 = RFC 8018 for keys and messages below 2^32 bytes; beyond that lengths are cut to 32 bits, stated exactly. Wallet seed proved for all mnemonics and passwords below 2^32 bytes. bip39.c mnemonic_to_seed proved up to 256-byte passphrases; longer ones overrun an array (refuted). The seed cache is proved transparent for every history of calls."
  },
  {
   "property": "C43",
   "status": "proved",
   "theorems": [
    "C43_moduli",
    "C43_read_write",
    "C43_write",
    "C43_from_integers",
    "C43_compare",
    "C43_add_subtract",
    "C43_small",
    "C43_modular_add_subtract",
    "C43_reduce",
    "C43_multiply",
    "C43_multiply_small",
    "C43_halve",
    "C43_shift",
    "C43_sqrt_power"
   ],
   "note": "Limb level model of bignum.c, every operation related to integers; also the square root power. Inversion is C66."
  },
  {
   "property": "C44",
   "status": "partial",
   "theorems": [
    "C44_add",
    "C44_subtract",
    "C44_multiply",
    "C44_compare",
    "C44_negate_partial",
    "C44_negate_zero_refuted",
    "C44_add_integer_exact",
    "C44_add_integer_refuted",
    "C44_subtract_integer_partial",
    "C44_subtract_integer_refuted",
    "C44_integer_operands",
    "C44_value_models"
   ],
   "note": "Sums, differences, products and comparisons proved. Refuted: minus zero gives the order; + uint32 loses 2^32 when the low limb overflows; - uint32 above 0x10364141 fails an assertion."
  },
  {
   "property": "C45",
   "status": "partial",
   "theorems": [
    "C45_key",
    "C45_sign_verify_partial",
    "C45_deterministic",
    "C45_zero_hash_refuted",
    "C45_exhausted",
    "C45_schnorr_sign_verify_partial",
    "C45_even_form",
    "C45_schnorr_nonce_refuted"
   ],
   "note": "ECDSA: for every secret and every hash that is not 0 modulo the order, the signature made with the first usable nonce verifies and has low s; if none of 10000 nonces is usable zeros are returned. Schnorr: the signature is BIP340's and verifies when nonce and challenge hash are below the order. Refuted: hashes that are multiples of the order are signed but do not verify; a nonce hash from the order on fails an assertion."
  },
  {
   "property": "C46",
   "status": "partial",
   "theorems": [
    "C46_verify_partial",
    "C46_complete_partial",
    "C46_one_s",
    "C46_negated_s_refuted",
    "C46_garbage_refuted",
    "C46_large_s_refuted",
    "C46_large_challenge_refuted"
   ],
   "note": "Decided exactly for r that is an x coordinate and s, challenge below the order: accepted iff BIP340 accepts s or the negated s. Refuted: the negated s is accepted for every valid signature; an r that is no x coordinate is compared with stale memory; s or challenge from the order on fail an assertion."
  },
  {
   "property": "C47",
   "status": "proved",
   "theorems": [
    "C47_symmetric",
    "C47_infinity_refuted"
   ],
   "note": "For all pairs of valid secrets, hashed or not. With the point at infinity as the other key the call reads out of bounds (C47_infinity_refuted)."
  },
  {
   "property": "C48",
   "status": "partial",
   "theorems": [
    "C48_serialize",
    "C48_parse",
    "C48_accepts_partial",
    "C48_accepts_refuted",
    "C48_valid",
    "C48_valid_refuted"
   ],
   "note": "Round trip for every point of the curve, exact acceptance when the uninitialised stack array does not start with the x coordinate of a point. Refuted otherwise: an invalid compressed key is accepted as the point left in that array; isValid() of a compressed point ignores y."
  },
  {
   "property": "C49",
   "status": "partial",
   "theorems": [
    "C49_interleaved_partial",
    "C49_interleaved_refuted",
    "C49_overread_refuted"
   ],
   "note": "Any interleaving of two keys with equal first bytes is harmless. Refuted for different first bytes: the point comes out negated, or 65 bytes are read from a buffer of 33."
  },
  {
   "property": "C50",
   "status": "partial",
   "theorems": [
    "C50_multi",
    "C50_multi_refuses",
    "C50_sorted_refuted"
   ],
   "note": "multi() gives the m-of-n template for all 1<=m<=n<=16 keys and an empty script otherwise. sortedmulti() does not sort (refuted for every other order of the keys)."
  },
  {
   "property": "C51",
   "status": "partial",
   "theorems": [
    "C51_push_key",
    "C51_push_sig",
    "C51_push_script_partial",
    "C51_push_script_refuted",
    "C51_limit",
    "C51_full_key_refuted",
    "C51_full_sig_refuted"
   ],
   "note": "Pushes of keys, signatures and scripts of 1..75 bytes append exactly one pushed item; no sequence of pushes exceeds 10000 bytes. Refuted: push(Script) of 76 or more bytes; a push that does not fit leaves part of itself behind."
  },
  {
   "property": "C52",
   "status": "partial",
   "theorems": [
    "C52_script",
    "C52_clear_refuted",
    "C52_assign_refuted",
    "C52_push_refuted",
    "C52_reparse_refuted",
    "C52_parse_refuted",
    "C52_witness_partial"
   ],
   "note": "Scripts: proved for all histories of calls. Witnesses: refuted in five ways (clear, assignment of an empty one, push over the limit, second parse, oversized element); proved for histories in which no witness is emptied and no parse fails."
  },
  {
   "property": "C53",
   "status": "partial",
   "theorems": [
    "C53_fee_partial",
    "C53_fee_exact",
    "C53_zero_refuted",
    "C53_wrap_refuted"
   ],
   "note": "The fee of every accepted PSBT is given exactly, for all amounts (C53_fee_exact). It is inputs minus outputs when every amount is known, none is zero and the sums fit in 64 bits, and 0 when one is not known. Refuted: an input worth nothing makes the fee 0; sums wrap round 2^64."
  },
  {
   "property": "C54",
   "status": "partial",
   "theorems": [
    "C54_round_trip_partial",
    "C54_fields_refuted",
    "C54_types_refuted",
    "C54_sections_refuted",
    "C54_length_refuted"
   ],
   "note": "What is written is a PSBT with the same transaction and signatures and reads back as such, from any object in a usable state. Refuted: every other field is lost; the signature type becomes ALL; 255 inputs and outputs; transactions of 252 bytes. Missing: the fields that are not written, more than 255 signatures."
  },
  {
   "property": "C55",
   "status": "partial",
   "theorems": [
    "C55_checked_partial",
    "C55_bytes_partial",
    "C55_override_refuted"
   ],
   "note": "In every accepted PSBT each previous transaction hashes to what its input names and has that output. Refuted: a witness utxo entry beside it replaces the checked output."
  },
  {
   "property": "C56",
   "status": "partial",
   "theorems": [
    "C56_derives_partial",
    "C56_script_refuted",
    "C56_bounds_refuted"
   ],
   "note": "A yes means that the wallet derives the key of an entry of that output. Refuted: the script of the output is not looked at; output numbers are not checked."
  },
  {
   "property": "C57",
   "status": "partial",
   "theorems": [
    "C57_bip380",
    "C57_string",
    "C57_short",
    "C57_foreign",
    "C57_detects",
    "C57_foreign_refuted"
   ],
   "note": "Equal to BIP380 for every text without a zero character, foreign characters refused, every change confined to four consecutive characters changes the checksum. Refuted: the version with an explicit length accepts the zero character, which is outside the set."
  },
  {
   "property": "C58",
   "status": "partial",
   "theorems": [
    "C58_script_sound_partial",
    "C58_script_sound_refuted",
    "C58_witness_refuted"
   ],
   "note": "Proved for scripts, refuted for witnesses."
  },
  {
   "property": "C59",
   "status": "partial",
   "theorems": [
    "C59_wtxid",
    "C59_no_witness_refuted"
   ],
   "note": "Proved for transactions with a witness, refuted for all others."
  },
  {
   "property": "C60",
   "status": "proved",
   "theorems": [
    "C60_sign_segwit",
    "C60_sign_legacy"
   ],
   "note": "Hash functions, public key bytes and the signer are parameters; the script code is at most 9000 bytes. For scripts of 76 bytes or more the pushed length is not a valid push, see C51."
  },
  {
   "property": "C61",
   "status": "proved",
   "theorems": [
    "C61_fromBin",
    "C61_fromBin_refuses"
   ],
   "note": ""
  },
  {
   "property": "C62",
   "status": "partial",
   "theorems": [
    "C62_scalar_parse_partial",
    "C62_scalar_range_refuted"
   ],
   "note": "True below the group order; refuted from it on: the number is reduced and accepted."
  },
  {
   "property": "C63",
   "status": "partial",
   "theorems": [
    "C63_child_partial",
    "C63_master_partial",
    "C63_invalid_child_refuted",
    "C63_invalid_master_refuted",
    "C63_depth_refuted",
    "C63_public_hardened_refuted",
    "C63_regtest_refuted"
   ],
   "note": "Proved wherever BIP32 defines the key. Refuted: invalid children and master keys are not refused, the depth wraps at 255, public keys derive hardened children, regtest becomes testnet."
  },
  {
   "property": "C64",
   "status": "partial",
   "theorems": [
    "C64_begin_again",
    "C64_reuse_refuted",
    "C64_tagged_begin_refuted"
   ],
   "note": "After begin() the untagged objects are fresh (proved). Reuse without begin() hashes from an all-zero state; begin() on a tagged hash drops the tag (both refuted)."
  },
  {
   "property": "C65",
   "status": "partial",
   "theorems": [
    "C65_15_21_words_refuted",
    "C65_other_counts_partial"
   ],
   "note": "12, 18 and 24 words proved; every 15- and 21-word sentence the library makes is refused by it (refuted)."
  },
  {
   "property": "C66",
   "status": "partial",
   "theorems": [
    "C66_inverse",
    "C66_divide_partial",
    "C66_divide_multiply",
    "C66_divide_zero_refuted"
   ],
   "note": "The fast inverse (binary extended gcd on packed registers, Montgomery-style division by powers of two) is proved correct and free of assertion failures for every odd modulus in range and every number coprime to it; scalar division is exact for every divisor not zero modulo the order (the order is proved prime by Pocklington certificates). Refuted: dividing by zero (or by the order) reads before the array."
  },
  {
   "property": "C67",
   "status": "partial",
   "theorems": [
    "C67_destroy_partial",
    "C67_failed_refuted",
    "C67_reuse_refuted",
    "C67_short_refuted",
    "C67_signatures_refuted"
   ],
   "note": "Any object fed any bytes in any pieces can be destroyed unless a parse failed. Refuted: failed parses, reuse after a wrong first byte, derivations of less than four bytes, 256 signatures."
  },
  {
   "property": "C68",
   "status": "partial",
   "theorems": [
    "C68_magic_partial",
    "C68_global_partial",
    "C68_utxo_partial",
    "C68_loose_refuted"
   ],
   "note": "A wrong magic byte or a first key other than 0 is refused, and so is a cut-off output in the first entry of a map (previous transactions: C55). Refuted: bytes after the output and repeated keys are accepted."
  },
  {
   "property": "C69",
   "status": "partial",
   "theorems": [
    "C69_verify_partial",
    "C69_infinity",
    "C69_zero_hash_refuted"
   ],
   "note": "Exact for every key on the curve, r, s and hash, except that hashes equal to 0 modulo the order are always refused (refuted)."
  },
  {
   "property": "C70",
   "status": "proved",
   "theorems": [
    "C70_recover"
   ],
   "note": "All secrets, hashes, nonces and recovery numbers."
  },
  {
   "property": "C71",
   "status": "partial",
   "theorems": [
    "C71_add",
    "C71_neg",
    "C71_sub",
    "C71_mul_partial",
    "C71_large_scalar_refuted",
    "C71_add_laws",
    "C71_neg_laws",
    "C71_mul_laws_partial",
    "C71_generator"
   ],
   "note": "Addition, negation, subtraction for all points; multiplication for finite points and scalars below the order. Larger scalars fail an assertion (refuted); infinity is C75."
  },
  {
   "property": "C72",
   "status": "partial",
   "theorems": [
    "C72_nonce_partial",
    "C72_wide_hash_refuted"
   ],
   "note": "Proved for hashes below the order; refuted for a hash above it, which RFC 6979 reduces first."
  },
  {
   "property": "C73",
   "status": "partial",
   "theorems": [
    "C73_public_key",
    "C73_injective",
    "C73_large_secret_refuted"
   ],
   "note": "Proved for secrets below the order, with injectivity; larger secrets are not refused but fail an assertion (refuted)."
  },
  {
   "property": "C74",
   "status": "partial",
   "theorems": [
    "C74_less",
    "C74_lexicographic_refuted"
   ],
   "note": "The order is described exactly; it is the reverse of the lexicographic one (refuted)."
  },
  {
   "property": "C75",
   "status": "partial",
   "theorems": [
    "C75_infinity_refuted"
   ],
   "note": "Refuted for every scalar but zero."
  },
  {
   "property": "C76",
   "status": "partial",
   "theorems": [
    "C76_sign_partial",
    "C76_parsed",
    "C76_written_partial",
    "C76_paths_refuted",
    "C76_count_refuted"
   ],
   "note": "Proved if no path of the wallet is shorter than the hardened part of its first one, all its paths have BIP32 keys, and there is room in each input. Otherwise undefined (refuted); the count wraps at 256 (refuted)."
  },
  {
   "property": "C77",
   "status": "partial",
   "theorems": [
    "C77_scripts_refuted",
    "C77_unknown_refuted",
    "C77_type_refuted"
   ],
   "note": "Refuted for all three checks, universally; the PSBT of the examples shows each case."
  },
  {
   "property": "C78",
   "status": "partial",
   "theorems": [
    "C78_deterministic_partial",
    "C78_again_refuted"
   ],
   "note": "Reproducible; but signatures are doubled by a second call (refuted)."
  },
  {
   "property": "C79",
   "status": "partial",
   "theorems": [
    "C79_segwit_partial",
    "C79_chunks_same_partial",
    "C79_chunks_partial",
    "C79_legacy",
    "C79_legacy_chunks",
    "C79_magic",
    "C79_plain",
    "C79_five_bytes_refuted",
    "C79_many_inputs_refuted",
    "C79_unknown_key_refuted",
    "C79_off_curve_refuted"
   ],
   "note": "Segwit transactions with one to five inputs, legacy ones with up to 252. In pieces: any pieces that are not empty, for legacy ones the same object as in one parse, for segwit ones the same transaction, keys, indexes and amounts if no piece ends at an unlucky place inside the length of the last output's script (C17), and the same object when the first piece goes beyond the first bytes of the inputs' data. Another magic and scripts of another length are refused. False, with proofs, for the five bytes in front of a legacy key (not compared), for six to thirteen segwit inputs (wrong amount, status done), for keys of unknown kind (the parser never returns) and keys off the curve."
  },
  {
   "property": "C80",
   "status": "partial",
   "theorems": [
    "C80_fee",
    "C80_unknown",
    "C80_wraps_refuted",
    "C80_legacy_refuted",
    "C80_unfinished_refuted"
   ],
   "note": "Exact when the sums are below 2^64, 0 when an amount is 0. False for larger sums, for legacy transactions (uninitialised memory) and for objects that are not complete (NULL pointer)."
  },
  {
   "property": "C81",
   "status": "partial",
   "theorems": [
    "C81_sign_partial",
    "C81_file_partial",
    "C81_chain_refuted"
   ],
   "note": "All inputs of the account and no others, up to 256 inputs, with the code's derivation, hashes and signatures; from bytes to bytes for up to five inputs. False: keys are compared without chain code. Missing: indexes without a BIP32 key (a chance of about 2^-127)."
  },
  {
   "property": "C82",
   "status": "partial",
   "theorems": [
    "C82_tx_same",
    "C82_tx_copy",
    "C82_tx_reuse",
    "C82_tx_halfway_refuted",
    "C82_psbt_copy",
    "C82_psbt_assign",
    "C82_psbt_knows",
    "C82_psbt_assign_knows",
    "C82_psbt_failed_refuted",
    "C82_psbt_halfway_refuted",
    "C82_psbt_assign_halfway_refuted",
    "C82_electrum_copy",
    "C82_electrum_assign",
    "C82_electrum_unfinished_refuted",
    "C82_electrum_halfway_refuted",
    "C82_electrum_assign_halfway_refuted"
   ],
   "note": "Copies and assignments of complete, destroyable objects agree with the original in everything that can be read, written, hashed, signed or parsed again, whatever the target held. Refuted for objects that are half read or failed. Not covered: which memory a copy owns (values only), assignment of an object to itself."
  },
  {
   "property": "C83",
   "status": "partial",
   "theorems": [
    "C83_to_string",
    "C83_substring",
    "C83_offset_refuted",
    "C83_text_read",
    "C83_tx_round_trip",
    "C83_bad_digit_refuted",
    "C83_tx_refuted",
    "C83_script_refuted",
    "C83_schnorr_refuted",
    "C83_secret_refuted",
    "C83_base64_hex",
    "C83_psbt_base64",
    "C83_psbt_refuses",
    "C83_psbt_again_refuted"
   ],
   "note": "Proved: toString, serialize(offset, len) within the object, reading of text, round trips of transactions, and of PSBTs through base64. Refuted: text with characters that are not hexadecimal digits is read as bytes 255 and accepted; offsets beyond the end; parseBase64 on a failed object."
  },
  {
   "property": "C84",
   "status": "partial",
   "theorems": [
    "C84_flags_exact_partial",
    "C84_flags_one_meaning",
    "C84_flags_refuted",
    "C84_base64_exact_partial",
    "C84_trailing_refuted",
    "C84_last_group_refuted"
   ],
   "note": "Proved: for every combination of flags the exact set of texts that fromBase64 takes, and the bytes. Refuted: text after padding, spare bits, a fourth character other than '=', both alphabets with the url-safe flag and padding with the flag against it are accepted."
  },
  {
   "property": "C85",
   "status": "partial",
   "theorems": [
    "C85_key",
    "C85_accounts",
    "C85_watch_same",
    "C85_fingerprints",
    "C85_imported_refuted",
    "C85_multisig_refuted"
   ],
   "note": "Proved: addresses of keys and of BIP 44, 49 and 84 accounts, equality of private and public derivation, fingerprints. The imported wallet agrees exactly if its type is not P2PKH and, on Regtest, only for P2SH-P2WPKH: the claim for all accounts is refuted. Multisig types show single-key addresses."
  },
  {
   "property": "C86",
   "status": "proved",
   "theorems": [
    "C86_bytes",
    "C86_bytes_bijective",
    "C86_uniform",
    "C86_uniform_zero",
    "C86_permute_rearranges",
    "C86_permute_defined",
    "C86_permute_fair",
    "C86_scalar_range",
    "C86_scalar_fair",
    "C86_scalar_next",
    "C86_mnemonic",
    "C86_mnemonic_of_words"
   ],
   "note": "Exact preimages of every outcome. For 15 and 21 word mnemonics the entropy is characterised, and that different entropies have different mnemonics is proved for 12, 18 and 24 words. permute_fair is for different characters, as usual for permutations."
  },
  {
   "property": "C87",
   "status": "partial",
   "theorems": [
    "C87_pc_exact",
    "C87_pc_refuted",
    "C87_esp8266_exact",
    "C87_esp8266_refuted",
    "C87_stm32_refuted",
    "C87_fallback_refuted"
   ],
   "note": "False on four of five platforms, each refuted universally with an exact description of what the words are; ESP32 relies on esp_random(), which is external."
  },
  {
   "property": "C88",
   "status": "partial",
   "theorems": [
    "C88_hex",
    "C88_bin",
    "C88_base58",
    "C88_base43",
    "C88_base58check_partial",
    "C88_base58check_refuted",
    "C88_base64_partial",
    "C88_base64_refuted"
   ],
   "note": "hex, bin, base58 and base43 for all bytes; base58check for bytes that are not all zero and base64 for at least one byte. The rest is refuted: memory past the array is read."
  },
  {
   "property": "C89",
   "status": "partial",
   "theorems": [
    "C89_input",
    "C89_input_script",
    "C89_input_txid",
    "C89_output",
    "C89_build",
    "C89_spaces_refuted",
    "C89_prefix_refuted",
    "C89_short_refuted",
    "C89_junk_refuted",
    "C89_output_refuted",
    "C89_key_refuted"
   ],
   "note": "Inputs from 64 digits, outputs from addresses that are understood (C30), the transaction put together from them, all proved. False of other texts: refuted for spaces, prefixes, short texts, uninitialised memory, addresses not understood and private keys."
  },
  {
   "property": "C90",
   "status": "proved",
   "theorems": [
    "C90_xprv",
    "C90_xpub",
    "C90_wif",
    "C90_address_form",
    "C90_script_address",
    "C90_no_address",
    "C90_key_addresses"
   ],
   "note": "Extended keys, WIF and addresses on the four networks; the hash functions are arbitrary functions of the right length."
  },
  {
   "property": "C91",
   "status": "proved",
   "theorems": [
    "C91_address",
    "C91_keys",
    "C91_same"
   ],
   "note": "C91_address: from any words, password and path of BIP 44/49/84, the address of the standards with the library's own hashes and multiplication. C91_keys: the same for xprv() and xpub(). C91_same: independent of the random numbers in the multiplications and of the network given to the constructor. Words and password of up to 2^32 - 1 bytes; the hypothesis that BIP 32 calls no key invalid is part of the property."
  },
  {
   "property": "C92",
   "status": "partial",
   "theorems": [
    "C92_private",
    "C92_public",
    "C92_again",
    "C92_large_refuted",
    "C92_zero_refuted",
    "C92_off_curve_refuted"
   ],
   "note": "Proved for every secret from 1 to the order minus 1 and every point of the curve. Refuted: a secret from the order on fails an assertion, the secret 0 and points off the curve are accepted (what is serialized from them is refused or read as another point)."
  },
  {
   "property": "C93",
   "status": "partial",
   "theorems": [
    "C93_type",
    "C93_keys",
    "C93_scripts",
    "C93_addresses",
    "C93_multisig",
    "C93_fifteen",
    "C93_sixteen_refuted",
    "C93_other_type_refuted"
   ],
   "note": "Forms, addresses and type() are proved. False: 16 keys in sh(multi) give an output that cannot be spent, and constructors with a type that does not fit give an empty script."
  },
  {
   "property": "C94",
   "status": "partial",
   "theorems": [
    "C94_small_partial",
    "C94_small_differ_partial",
    "C94_close",
    "C94_order",
    "C94_five_refuted",
    "C94_neighbour_refuted",
    "C94_hidden_refuted"
   ],
   "note": "Proved: the satoshis can be read off the number up to 12500000 satoshis (an eighth of a bitcoin), relative error below 2^-22 and order kept for all amounts. Refuted above that bound: of every five amounts in a row two look the same, and from 2^25 on every amount looks like a neighbour."
  },
  {
   "property": "C95",
   "status": "proved",
   "theorems": [
    "C95_transform",
    "C95_sha256",
    "C95_sha512",
    "C95_same"
   ],
   "note": "Both transforms for all registers and data; whole hash equal to FIPS 180-4 for all data and writes within the standard's lengths, and equal to the other build for all data."
  },
  {
   "property": "C96",
   "status": "partial",
   "theorems": [
    "C96_text",
    "C96_room",
    "C96_returned_refuted"
   ],
   "note": "The text in the buffer is proved for all data and buffers; the returned pointer is refuted: it always points to the empty text."
  },
  {
   "property": "C97",
   "status": "partial",
   "theorems": [
    "C97_der_partial",
    "C97_object_partial",
    "C97_zero_s_refuted",
    "C97_zero_r_refuted"
   ],
   "note": "Proved for numbers from 1 on, equal to Signature.der(); refuted for s = 0 (reads behind the array) and r = 0 (not DER)."
  }
 ]
}