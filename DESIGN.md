# Formal model of uBitcoin in Rocq: design

Source: `/repo` (micro-bitcoin/uBitcoin, C++/C). Tool: Coq 8.16.1, standard library.

## Method

* One Gallina function per C/C++ function. Each carries a comment with file and lines.
* Machine integers are `Z` with the wrap-around of their C type written out
  (`u8 x = x mod 2^8`, `u32`, `u64`); `size_t` is 64 bits. Bytes are `Z` in
  `0..255`. Arrays and strings are lists.
* `char` is treated as signed only where the code's result depends on it; this is said in the comment.
* Undefined behaviour (out-of-range index, shift by too much, read of freed
  memory, failing `assert`) is a distinct outcome `UB`, not assumed away.
* A `while(available && pos < limit)` reading loop is one recursive function
  (`read_loop`) over the bytes still in the stream. A parser is a state
  transformer: object state and chunk in, object state and rest of chunk out. This makes
  "any way to cut the input" a statement about lists of chunks.
* Loops with a data-dependent bound have explicit fuel; running out of fuel is `UB`.
* Cryptographic hashes are modelled concretely (SHA-256, SHA-512, RIPEMD-160).
  Higher layers are parametric in the hash where only its type matters.
* The elliptic curve: see "Trusted base".

## Layout (`rocq/theories`)

* `Base/`  machine integers, byte lists, outcome monad, reading loops.
* `Model/` the code. No proofs.
* `Spec/`  small independent specifications (protocol formats, mathematics).
* `Proof/` lemmas.
* `Props/` one file per property group: the property theorems only, each closed by
  `exact`, each with a concrete instance and `Print Assumptions`.

A theorem ending `_refuted` shows that the natural statement is false of the code,
by a concrete witness; it documents a defect. A theorem ending `_partial` proves
part of a property; the comment above it says what is missing.

## Plan per property

| id | what is modelled | how it is proved |
|----|------------------|------------------|
| C01 | lenVarInt, readVarInt, writeVarInt | case split on the four ranges; spec is a separate compact-size definition |
| C02 | the four endian functions | induction on width; shift >= 64 is UB |
| C03 | toHex, fromHex, hexToVal | 256-value sweep lifted to lists by induction |
| C04 | fromHex with bounds | refuted by witness; exact safe condition proved |
| C05 | toBin, fromBin with the 8-bit index | round trip up to 256 bytes; refuted beyond |
| C06, C07 | base64 functions | 3-byte group lemma + induction; empty input refuted |
| C08 | toBase58 | invariant of the division loop: value preserved; size bound 183/134 |
| C09, C10 | fromBase58 | refuted in general; proved under the length condition |
| C11 | Base58Check | from C10 with a hash of 32 bytes |
| C12 | base43 | same proof as base58, generic in the base |
| C13 | ParseByteStream, SerializeByteStream | simulation with a byte list |
| C14 | Script streams | state machine, induction on chunk |
| C15 | all to_stream | slice lemma composed along the format |
| C16, C17 | all from_stream | chunk-composition law of `read_loop`; refutations by witness |
| C18, C19 | Tx streams | composition of the field lemmas; refutation at 253 |
| C20-C23 | hash, sigHash, sigHashSegwit, sign* | equality with a protocol spec; injectivity by parsing |
| C24-C26 | Signature, SchnorrSignature | case analysis on leading zero bytes |
| C27-C29 | segwit_addr.c | bit-regrouping lemma; linearity of the checksum; finite sweep over error patterns lifted by linearity |
| C30, C31 | Script::address, fromAddress | from C10 and C27; refutations by witness |
| C32, C33 | wif, fromWIF | from C11; refutations by witness |
| C34, C35 | path parsers | printer specification, induction on digits; refutations by witness |
| C36 | HD key streams | field-by-field |
| C37, C38 | child, derive | abstract group for the curve; list induction; then instantiated with the modelled operators and hashes |
| C39, C40 | bip39.c with the English word list | bit-packing lemma, word list checked distinct by computation |
| C41 | sha2.c, ripemd160.c | buffer invariant: state = blocks processed + pending bytes |
| C42 | hmac.c, pbkdf2.c, Hash.cpp, fromMnemonic | unfolding to the RFC definition, loop induction |
| C43, C44 | bignum.c | limb value function, carry invariants |
| C45-C47 | ecdsa.c, rfc6979.c, Bitcoin.cpp: sign, verify, schnorr_sign, schnorr_verify, ecdh | limb level point arithmetic refined to the group of the curve (associativity, prime field and prime order all proved), then the signature equations; refutations by witness or for all inputs |
| C48, C49 | ECPoint streams | state machine including the function-static byte |
| C50, C51 | multi, sortedmulti, push | direct; refutations by witness |
| C52 | allocation behaviour of Script and Witness | ownership state machine, invariant by induction over histories |
| C53-C56 | PSBT.cpp: from_stream, add, to_stream, length, fee, isMine | state machine of the parser refined to a list of maps of key/value pairs; fee, previous transaction and derivation checks read off the maps; refutations by witness |
| C57 | descriptorChecksum | linearity of the checksum + finite sweep |
| C58 | Script, Witness parsers | the consumed bytes equal the serialization; refuted for wrapped lengths |
| C59 | Tx::whash, wtxid | from the serialization theorems |
| C60 | signInput, signSegwitInput | equality with the standard input forms |
| C61 | fromBin | induction on the text |
| C62 | ECScalar::from_stream | value of the bytes against the group order; refuted from the order on |
| C63 | fromSeed, child | equality with CKDpriv of BIP32; invalid keys are not refused (refuted) |
| C64 | hashing classes | the context left by end() is all zero (refuted without begin()); begin() of a tagged hash drops the tag (refuted) |
| C65 | bip39.c, Bitcoin.cpp | 12/18/24 words from C39; 15 and 21 words refuted for every entropy |
| C66 | bn_inverse (fast variant), ECScalar::operator/ | model of the packed registers; invariants of the almost inverse; Euclid for termination; division by zero refuted |
| C67 | PSBT: from_stream, add, destructor | invariant of the two arrays of metadata over every sequence of pieces; refutations by witness |
| C68 | PSBT: from_stream, add | the parse stops at a wrong magic byte, key or cut-off output; trailing bytes and repeated keys refuted by construction |
| C69 | PublicKey::verify | exact equivalence with the ECDSA equation; refuted for hashes that are 0 modulo the order |
| C70 | ecdsa_recover_pub_from_sig | algebra in the proved group, all four recovery numbers |
| C71 | ECPoint operators, point_add, point_multiply, scalar_multiply, the table of the generator | refinement to the group law; the table is checked entry by entry by computation |
| C72 | ecdsa_sign_digest, rfc6979.c | HMAC theorem of C42 gives the RFC 6979 candidates; refuted for hashes from the order on |
| C73 | PrivateKey constructor | from C71; refuted for secrets from the order on |
| C74 | ECPoint::operator< | value of the compared bytes; the order is reversed (refuted) |
| C75 | operator* at the point at infinity | the conversion from Jacobian coordinates meets z = 0, whose inverse loop reads before its array (refuted) |
| C76 | PSBT::sign (`Model/PSBTSign.v`) with derivation, sighash, ECDSA and the partial signature entries of the code | loop invariant over inputs and entries against an abstract PSBT (`Spec/PSBTSign.v`), what the object knows from the parsed bytes, and the bytes written; the read past short paths and the counter refuted |
| C77 | the same | universally refuted: equal signatures for different outputs, unknown outputs, ignored types |
| C78 | the same, twice | RFC 6979 makes the signatures a function of the PSBT; the second call doubles them (refuted) |
| C79 | ElectrumTx::from_stream (`Model/Electrum.v`) over the transaction and key parsers | simulation of the parse of the wire format of `Spec/Electrum.v`; in pieces by a phase invariant per field, cuts in the transaction reaching the failed witness that the object recovers from; other magic and scripts of another length are refused; the five bytes before a legacy key are not compared, six and more inputs, unknown keys and keys off the curve refuted |
| C80 | ElectrumTx::fee | sums modulo 2^64 against integer sums; legacy transactions, overflow and unfinished objects refuted |
| C81 | ElectrumTx::sign with derivation, sighash and ECDSA of the code | loop over the inputs; composed with parse and serialization; chain codes are not compared (refuted) |
| C82 | copy constructors and assignments of Tx, PSBT, ElectrumTx and their members (`Model/Copy.v`) | every function that reads an object gives the same on the copy, by induction over its lists; copies of half-read and failed objects refuted |
| C83 | `toString`, `serialize` to String, parsing of text, `toBase64`, `parseBase64` (`Model/Text.v`) | slices of the serialized bytes in hexadecimal; the text stream gives a parser the bytes of the text, from the first wrong character on bytes 255; refutations for transactions, scripts, signatures and secrets |
| C84 | `fromBase64` | induction over groups of four characters against a separate inductive relation (`b64_reads`); the texts beyond RFC 4648 that it takes are given |
| C85 | `address()`, `xpub()`, `fingerprint()` of extended keys (`Model/Wallet.v`) | addresses from C30, derivation from C37, texts from C36; the imported key keeps point and chain code but not always type and network: exact condition, with the library's own operators and hashes |
| C86 | `rand.c:139-165`, `generate_k_random`, `generateMnemonic` over the list of words that `random32` returns (`Model/Rand.v`) | exact preimages: intervals of equal size for numbers, one sequence of positions per arrangement (induction over the prefix still to be shuffled), little endian bytes, masked limbs |
| C87 | the four `random32` of `rand.c` as functions of `rand()`, the hardware readings or the static variables | bit by bit; refuted on PC, ESP8266, STM32 (time out) and the fallback. ESP32's `esp_random()` is external |
| C88 | the String versions in `Conversion.cpp` (`Model/Strings.v`): buffer from malloc with any contents, text up to the first NUL | theorems of C03-C12 for the text, no character of an alphabet is NUL, room for the terminator; refuted for bytes that are all zero (base58check) and no bytes (base64) |
| C89 | constructors of TxIn, TxOut and PrivateKey from text, `txid()` as String (`Model/Make.v`) | hexadecimal text of either case decodes to its bytes; C20 and C30 for identifiers and addresses; refuted for texts with other characters, short texts and addresses that are not understood |
| C90 | String versions of wif, xprv, xpub and address (`Model/KeyStrings.v`), forms of texts (`Spec/Form.v`) | bounds on the number between two multiples of a power of 58 fix the first digits and the number of digits; checked by computation for each of the twenty prefixes |
| C91 | a wallet made from words with the code's own hashes and multiplication (`Model/Account.v`), the standards composed (`Spec/Standard.v`) | composition of C42, C63, C73, C34, C85 and C90: the code's hashes equal the standards' on the short inputs that occur, keys stay below the order along the path |
| C92 | the constructors of extended keys from their parts (`Model/Parts.v`) | composition of C36, C73 and C90; invalid parts: universal refutations |
| C93 | the script-generating functions, constructors and `type` (`Model/Sign.v`, `Model/Script.v`) | byte by byte against the forms of BIP 16 and 141; addresses by C50 and C90; limits: universal refutations |
| C94 | `TxOut::btcAmount` with IEEE rounding over integers (`Model/Amount.v`) | error bound of each of the three roundings, monotonicity; amounts that look the same: universal refutations |
| C95 | the `SHA2_UNROLL_TRANSFORM` build of `sha2.c` (`Model/Unrolled.v`) | the eight macro calls rotate the registers back; induction over the rounds, then over the writes; hash = FIPS 180-4 |
| C96 | `sha256_End/_Data`, `sha512_End/_Data` (`Model/Unrolled.v`) | induction over the digest; the pointer returned: universal refutation |
| C97 | `ecdsa_sig_to_der` (`Model/SigDer.v`) | induction over the leading zero bytes; the number 0: universal refutations |

## Trusted base

* The kernel of Coq 8.16.1, including its virtual machine (`vm_compute`), and `coqchk`, which re-checks every
  compiled file without it.
* Axioms: none. `Print Assumptions` stands under every property theorem and prints "Closed under the global
  context" for each. (`coqchk` lists the axioms of `Coq.ssr.ssrunder` because that library file is loaded; no
  theorem depends on them.) The theories use the standard library only.
* That the model is the code. It was written by reading the source; nothing was compiled or run. The comment
  above each definition gives the lines it stands for, and what was simplified.
* That the specifications in `Spec/` say what the standards say (BIP 32, 39, 66, 67, 141, 143, 144, 173, 174, 340, 350, 380,
  RFC 2104, 4648, 6979, 8018, FIPS 180-4, SEC 1 and 2, Bitcoin's serialization and signature hashes). They are short and
  do not refer to the model.

What is a variable in the model, and so universally quantified in the theorems:

* hash functions in the transaction, address, WIF, HD and PSBT layers; a theorem that needs a digest to have its
  length or to be bytes says so. The hash functions themselves are modelled in `Model/Hash.v`, with theorems
  C41, C42, C64, and satisfy these conditions;
* the group operations in `Model/HD.v`; the ones of the code are `Model/PointOps.v` (C71) and are put in by
  the `C37_code_…` theorems;
* the random numbers drawn in point multiplications and signing (`rz`, `randk`: any sequence of numbers below the
  modulus, as `generate_k_random` returns) and the content of uninitialised stack memory (`garbage`, `g`);
* the signer in `Model/Sign.v`, where only the assembly of inputs is at stake (`Model/PSBTSign.v` uses the one of the code).

Modelled: BaseClasses, Bitcoin, BitcoinCurve, Conversion, Electrum, HDWallet, Hash, Networks, PSBT (except the parts
below), Script, Transaction, segwit_addr.c, bignum.c, bip39.c, ecdsa.c, hmac.c, pbkdf2.c, rfc6979.c, ripemd160.c,
secp256k1.c and its table, sha2.c. The configuration is the default one of `uBitcoin_conf.h` and `options.h` on a
platform with 32 bit `int` and 64 bit `size_t`.

Not modelled: the Arduino `String` and `Print` overloads, the `std::string` ones other than those of C83, C88, C89 and C90 (they wrap the
modelled functions), other constructors and assignments of keys that copy fields, what copies allocate and free, `bn_format` and other printing in bignum.c,
the hardware and `rand()` behind `random32` (their output is quantified over), and the files that the library does not call: base58.c, sha3.c, hasher.c,
address.c. Timing, side channels and the erasure of secrets are outside any such model. Allocation always succeeds.

## Findings

The theorems ending in `_refuted` are defects of the code at this commit, each shown by a proof about the model. The more
serious ones:

* Memory safety. `fromHex` writes past its array (C04); the empty base64 text (C07); bech32 addresses of 33-40 byte
  programs or without separator overrun stack arrays (C29); derivation paths "", "m", "m/" read outside the string (C35);
  passphrases longer than 256 bytes overrun the salt in bip39.c (C42); interleaved parsing of two keys reads 65 bytes of 33
  (C49); witnesses are freed twice or leak (C52); failed PSBT parses leave wild pointers (C67); scalars from the
  group order on fail an assertion, so that a Schnorr signature with such an s stops the program that verifies it
  (C46, C71, C73); 0 is inverted by reading in front of an array (C66, C75).
* Signatures. `schnorr_verify` accepts the negated s of every valid signature, and compares with stale memory when r is no
  x coordinate (C46); `verify` refuses and `sign` signs hashes equal to 0 modulo the order (C45, C69); hashes from the order on get
  other nonces than RFC 6979's (C72); sighash types other than ALL are hashed wrongly (C23).
* Transactions. 253 or more inputs, outputs or witness items are serialized and parsed wrongly (C19); a transaction cut in
  front of its witnesses, between two of them or inside one that is not the last does not parse, and with a last output script of 253 bytes or more
  neither does one cut after the first byte of that script's length, or where the length bytes read so far happen to give their own number (C17); one whose last witness item has 253 bytes or
  more, cut at such a place inside the item's length, parses as a transaction without the item and with another lock time (C17); a DER
  signature is refused unless its first piece has a byte other than 0 of the second number (C17); wtxid of transactions without witness (C59).
* PSBT. A witness utxo replaces the checked previous output (C55); `isMine` ignores the script (C56); the fee is 0 if an input is
  worth nothing (C53); every field but signatures is lost on writing (C54); trailing bytes and repeated keys are accepted (C68). `sign`
  reads past the end of a path that is shorter than the hardened part of the first one (C76), signs inputs of which no
  output is known, ignores whether scripts match the output and which type is asked for (C77), and signs twice (C78).
* Electrum. With six or more segwit inputs the first amount is wrong, or all data are, or the parser hangs, with ordinary
  amounts (C79: half a bitcoin each is read as nothing and the status is "done"); a key of unknown kind makes it hang, one off the
  curve gets the coordinates that lay on the stack (C79); legacy amounts are uninitialised memory and so is the fee; asking an
  unfinished object for the fee dereferences NULL (C80); keys with other chain codes are taken for the account's (C81). The bytes
  01 ff 4c 53 ff in front of a legacy key are not looked at (C79).
* Copies. Copies of objects that are half read cannot go on: a transaction shifts by a negative amount, a PSBT starts again at the
  magic, an Electrum transaction forgets that it is a segwit one; copying a PSBT that failed or an Electrum
  transaction that is not complete follows pointers that were never set (C82).
* Keys and addresses. `sortedmulti` does not sort (C50) and `operator<` is reversed (C74); secrets from the order on
  are accepted by WIF and scalars (C33, C62); short P2PKH, regtest and taproot addresses do not come back (C31); path numbers wrap
  modulo 2^32 (C35); regtest keys come back as testnet keys (C32, C36); 15 and 21 word mnemonics are refused (C65), and
  `mnemonicToEntropy` ignores the checksum (C40).
* Watch-only wallets. The text of the extended public key of a BIP 44 account, read back, shows P2WPKH addresses, where the wallet
  shows P2PKH ones; on Regtest it shows Testnet addresses; multisig accounts show the address of a single key (C85).
* Encodings. `toBin` beyond 256 bytes (C05); base58 of leading zero bytes (C09); DER total length ignored (C25).
* Text. A character that is no hexadecimal digit does not stop a parser: `ParseByteStream::read` returns -1 without moving on,
  and the parsers take it for a byte 255. "my key" is a private key, and a transaction with a mistyped lock time is accepted with
  another one (C83). `serialize(offset, len)` with an offset beyond the end asks for 2^64 bytes; `parseBase64` on an object that
  failed before returns the full length without reading (C83). Base64 text may be followed by anything after its padding, and
  its last group may have spare bits and a fourth character that is not '=' (C84).
* Randomness. On a PC the words are `rand()`, of 31 bits at most (15 where RAND_MAX is 32767) and the same at every start unless the application calls srand,
  though the comment says "rand from os random source": most mnemonics can never appear. On an ESP8266 the four readings are 32 bits
  wide but are combined as if they were bytes, with "or": the upper byte has a 0 bit in one of 16 cases. An STM32 whose generator is
  late gives zeros without an error. The fallback gives the same mnemonic ("alcohol drift used royal ...") at every first call (C87).
* Constructors. `TxIn("0x...", ...)` and an identifier with a space in front make an input that spends the transaction 0 or one whose
  last digits are missing, without an error; a short text with a script leaves the identifier uninitialised. `TxOut(amount, address)` with
  a valid address that is not understood (Taproot, Regtest, short P2PKH) makes a valid output with an empty script, which anyone can
  spend. `PrivateKey("...")` with a text that is not understood leaves the pointer to the network uninitialised (C89).
  `toBase58Check` to a String reads past bytes that are all zero (C88).
* The constructors of extended keys from parts check nothing (C92). A secret from the group order on fails an assertion, the secret 0 and points off the curve are accepted; what is serialized from them is refused or read as another point.
* `sh(multi(m, keys))` accepts 16 keys (C93). Its redeem script then has at least 547 bytes. BIP 16 redeem scripts are stack elements of at most 520 bytes, so coins sent there cannot be spent.
* `Script(key, type)` and `Script(script, type)` with a type that does not fit give an empty script (C93). Coins sent to it can be taken by anyone.
* The base64 flags loosen the decoder without replacing what it takes (C84). With the url-safe flag both alphabets are read, even mixed; with the flag against padding padded text is read too. Every array has several texts.
* `btcAmount()` is a float (C94). Above an eighth of a bitcoin two of every five amounts in a row look the same, from a third on every amount looks like the next or the previous one; of 20 million bitcoins more than half a bitcoin is not shown. The examples show this number for confirmation.
* `sha256_End`, `sha256_Data`, `sha512_End` and `sha512_Data` return the pointer they have moved on while writing (C96). It points to the NUL, so the text returned is always empty; the text is in the buffer of the caller.
* `ecdsa_sig_to_der` reads `sig[64]` when s is 0 and gives an INTEGER without content when r is 0 (C97): `while (sig[i] == 0 && i < 32)` reads before it checks and skips the last zero too.
