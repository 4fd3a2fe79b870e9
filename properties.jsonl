{"id": "C01", "title": "Variable-length integers round-trip", "statement": "For every 64-bit number, writeVarInt into a buffer of at least lenVarInt(n) bytes writes exactly lenVarInt(n) bytes; readVarInt on those bytes followed by anything returns the number; the encoding is the shortest form Bitcoin defines; no encoding is a proper prefix of another; a buffer one byte too small is refused with 0.", "quantifier": "all n < 2^64, all following bytes, all buffer sizes", "why_tests_cant": "2^64 inputs and four boundaries; prefix-freeness is about all pairs", "anchors": ["src/Conversion.cpp: lenVarInt, readVarInt, writeVarInt"]}
{"id": "C02", "title": "Fixed-width integers round-trip", "statement": "intToLittleEndian/littleEndianToInt and the big-endian pair are mutually inverse on widths up to 8 bytes, and encoding truncates modulo 2^(8*width); above 8 bytes the encoder shifts by 64 or more, which is undefined.", "quantifier": "all uint64 values and widths", "why_tests_cant": "2^64 values times widths", "anchors": ["src/Conversion.cpp: littleEndianToInt, intToLittleEndian, bigEndianToInt, intToBigEndian"]}
{"id": "C03", "title": "Hex encoding round-trips", "statement": "fromHex(toHex(b)) is b for every byte string, toHex produces two lower-case hex digits per byte, and toHex refuses an output buffer smaller than twice the input.", "quantifier": "all byte strings of any length", "why_tests_cant": "unbounded strings", "anchors": ["src/Conversion.cpp: toHex, fromHex, hexToVal"]}
{"id": "C04", "title": "fromHex stays inside the caller's array", "statement": "fromHex(hex, array, arraySize) never writes beyond arraySize bytes.", "quantifier": "all hex strings and array sizes", "why_tests_cant": "needs the relation between two independent lengths", "anchors": ["src/Conversion.cpp: fromHex"]}
{"id": "C05", "title": "Binary-string conversion round-trips", "statement": "Converting bytes to a '0'/'1' string with toBin and back with fromBin returns the same bytes.", "quantifier": "all byte strings", "why_tests_cant": "the failure only appears past 256 bytes (8-bit index)", "anchors": ["src/Conversion.cpp: toBin, fromBin"]}
{"id": "C06", "title": "Base64 round-trips", "statement": "For every non-empty byte string and every flag combination, fromBase64(toBase64(b)) is b, the length functions give the exact size, and output characters belong to the selected alphabet.", "quantifier": "all non-empty byte strings, all flags", "why_tests_cant": "unbounded strings times flags", "anchors": ["src/Conversion.cpp: toBase64, toBase64Length, fromBase64, fromBase64Length"]}
{"id": "C07", "title": "Base64 of an empty input touches no memory out of range", "statement": "toBase64 and fromBase64 on empty input neither read nor write outside the buffers given.", "quantifier": "all flags, all output sizes", "why_tests_cant": "an out-of-range read is invisible to a value test", "anchors": ["src/Conversion.cpp: toBase64, fromBase64Length"]}
{"id": "C08", "title": "Base58 encoding is correct", "statement": "toBase58 writes one '1' per leading zero byte followed by the base-58 digits, most significant first and with no leading zero digit, of the number the bytes denote; its internal work buffer is always large enough.", "quantifier": "all byte strings", "why_tests_cant": "the buffer estimate 183/134 has to be right at every length", "anchors": ["src/Conversion.cpp: toBase58, toBase58Length"]}
{"id": "C09", "title": "Base58 round-trips", "statement": "fromBase58(toBase58(b)) is b.", "quantifier": "all byte strings", "why_tests_cant": "depends on the number of leading zero bytes", "anchors": ["src/Conversion.cpp: fromBase58, fromBase58Length"]}
{"id": "C10", "title": "Base58 round-trips on what the wallet encodes", "statement": "fromBase58(toBase58(b)) is b for every byte string without a leading zero byte, and for every 25-byte payload with at most two leading zero bytes (all P2SH and testnet addresses, WIF keys, extended keys; mainnet P2PKH hashes with at most one leading zero byte).", "quantifier": "all byte strings of that shape", "why_tests_cant": "arbitrary precision arithmetic on every payload", "anchors": ["src/Conversion.cpp: toBase58, fromBase58"]}
{"id": "C11", "title": "Base58Check accepts only payloads with a matching checksum", "statement": "fromBase58Check returns a nonzero length only if the decoded data ends in the first four bytes of double SHA-256 of what precedes; toBase58Check output decodes to the original payload wherever Base58 round-trips.", "quantifier": "all strings, all payloads", "why_tests_cant": "all strings", "anchors": ["src/Conversion.cpp: toBase58Check, fromBase58Check"]}
{"id": "C12", "title": "Base43 round-trips", "statement": "fromBase43(toBase43(b)) is b for every byte string without a leading zero byte, and the work buffer is always large enough.", "quantifier": "all byte strings", "why_tests_cant": "arbitrary precision arithmetic", "anchors": ["src/Conversion.cpp: toBase43, fromBase43"]}
{"id": "C13", "title": "Hex and raw streams deliver the same bytes", "statement": "Reading through a hex ParseByteStream delivers the bytes that the raw stream over the decoded string would deliver; writing to a hex SerializeByteStream yields the hex of what the raw one yields.", "quantifier": "all byte strings and read/write sequences", "why_tests_cant": "all call sequences", "anchors": ["src/BaseClasses.cpp: ParseByteStream, SerializeByteStream"]}
{"id": "C14", "title": "Script parse and serialize are inverse", "statement": "Serializing a script gives varint(length) followed by the script bytes, length() bytes in total; parsing that back, with any bytes behind it, gives the same script, consumes exactly length() bytes and reports PARSING_DONE.", "quantifier": "all scripts up to 2^31-1 bytes, all trailing data", "why_tests_cant": "all lengths across varint boundaries", "anchors": ["src/Script.cpp: Script::from_stream, to_stream, length"]}
{"id": "C15", "title": "Serialization can be cut at any offset", "statement": "For Script, Witness, TxIn, TxOut, Tx, Signature and keys, serializing with any offset and any buffer size gives exactly the corresponding slice of the full serialization.", "quantifier": "all objects, offsets and buffer sizes", "why_tests_cant": "quadratically many cut points for each of infinitely many objects", "anchors": ["src/Script.cpp, src/Transaction.cpp: to_stream"]}
{"id": "C16", "title": "Incremental parsing gives the same result as one-shot parsing", "statement": "Feeding a serialized transaction input, output, script, key or Schnorr signature in any sequence of non-empty chunks ends in the same object and status as feeding it at once.", "quantifier": "all byte strings and all ways to cut them", "why_tests_cant": "2^(n-1) ways to cut n bytes", "anchors": ["src/*.cpp: from_stream"]}
{"id": "C17", "title": "Incremental parsing of transactions, witnesses, DER signatures and PSBTs", "statement": "Feeding a valid serialized transaction, witness, DER signature or PSBT in any sequence of non-empty chunks succeeds whenever feeding it at once succeeds.", "quantifier": "all valid objects and all cuts", "why_tests_cant": "2^(n-1) ways to cut n bytes", "anchors": ["src/Transaction.cpp: Tx::from_stream", "src/Script.cpp: Witness::from_stream", "src/Bitcoin.cpp: Signature::from_stream", "src/PSBT.cpp: PSBT::from_stream"]}
{"id": "C18", "title": "Transaction parse and serialize are inverse", "statement": "For every transaction with 1 to 252 inputs, at most 252 outputs and at most 252 witness items per input, parsing its serialization gives the transaction back (segwit or not), consumes length() bytes, and reports PARSING_DONE.", "quantifier": "all transactions of that shape", "why_tests_cant": "unbounded structured inputs", "anchors": ["src/Transaction.cpp: Tx::from_stream, to_stream, length"]}
{"id": "C19", "title": "Transactions with more than 252 inputs or outputs", "statement": "Serializing a transaction with any number of inputs, outputs and witness items gives its Bitcoin consensus encoding, and parsing such an encoding gives the transaction back.", "quantifier": "all transactions", "why_tests_cant": "needs hundreds of inputs to show", "anchors": ["src/Transaction.cpp: Tx::to_stream, Tx::from_stream"]}
{"id": "C20", "title": "Transaction id ignores witness data", "statement": "txid is the reversed double SHA-256 of the transaction's serialization without marker and witnesses; changing witnesses never changes it; for a transaction without witnesses it is the hash of exactly the bytes serialize() gives.", "quantifier": "all transactions and witness changes", "why_tests_cant": "all transactions", "anchors": ["src/Transaction.cpp: Tx::hash, txid"]}
{"id": "C21", "title": "Legacy signature hash commits to the whole transaction", "statement": "sigHash with SIGHASH_ALL hashes exactly the byte string the Bitcoin protocol defines; two transactions with the same preimage have equal version, outpoints, sequences, outputs, locktime and script code.", "quantifier": "all transactions, input indices and script codes", "why_tests_cant": "injectivity is about all pairs", "anchors": ["src/Transaction.cpp: Tx::sigHash"]}
{"id": "C22", "title": "Segwit signature hash follows BIP143", "statement": "sigHashSegwit with SIGHASH_ALL hashes exactly the BIP143 preimage: version, hashPrevouts, hashSequence, outpoint, script code, amount, sequence, hashOutputs, locktime, type.", "quantifier": "all transactions, inputs, scripts and amounts", "why_tests_cant": "all transactions", "anchors": ["src/Transaction.cpp: Tx::sigHashSegwit, hashPrevouts, hashSequence, hashOutputs"]}
{"id": "C23", "title": "Signature-hash types other than ALL", "statement": "Signing with SIGHASH_NONE, SIGHASH_SINGLE or ANYONECANPAY hashes what the protocol prescribes for that type, and the type byte attached to the signature is the one that was requested.", "quantifier": "all transactions and types", "why_tests_cant": "needs the protocol definition for each type", "anchors": ["src/Transaction.cpp: sigHash, sigHashSegwit, signInput, signSegwitInput"]}
{"id": "C24", "title": "DER signatures round-trip", "statement": "For every pair of 256-bit numbers (r, s), parsing der() gives (r, s) back and consumes its whole length (8 to 72 bytes), with any bytes behind it.", "quantifier": "all r, s < 2^256 and all trailing bytes", "why_tests_cant": "2^512 signatures", "anchors": ["src/Bitcoin.cpp: Signature::from_stream, to_stream, rlen, slen, length"]}
{"id": "C25", "title": "DER parsing is strict", "statement": "If parsing a byte string as a signature succeeds, re-encoding the result gives the bytes consumed.", "quantifier": "all byte strings", "why_tests_cant": "all byte strings", "anchors": ["src/Bitcoin.cpp: Signature::from_stream"]}
{"id": "C26", "title": "Compact signatures round-trip", "statement": "Signature bin()/fromBin() and SchnorrSignature parse/serialize are mutually inverse for every r, s and recovery index.", "quantifier": "all r, s, index", "why_tests_cant": "2^512 values", "anchors": ["src/Bitcoin.cpp: Signature::bin, fromBin, SchnorrSignature"]}
{"id": "C27", "title": "Bech32 round-trips", "statement": "For every valid prefix, witness version up to 16 and program, segwit_addr_decode(segwit_addr_encode(...)) returns version and program.", "quantifier": "all prefixes, versions and programs BIP173 allows", "why_tests_cant": "2^320 programs", "anchors": ["src/utility/segwit_addr.c"]}
{"id": "C28", "title": "Bech32 detects errors", "statement": "Changing up to four data characters of a valid bech32 string of at most 89 characters after the prefix makes decoding fail.", "quantifier": "all valid strings, all positions and replacement characters", "why_tests_cant": "astronomically many strings and error patterns", "anchors": ["src/utility/segwit_addr.c: bech32_decode, bech32_polymod_step"]}
{"id": "C29", "title": "Address decoding stays inside its buffers", "statement": "Parsing an arbitrary address string never writes outside the fixed-size work buffers.", "quantifier": "all strings", "why_tests_cant": "overflow depends on length and shape of attacker-chosen text", "anchors": ["src/utility/segwit_addr.c: segwit_addr_decode, bech32_decode", "src/Script.cpp: Script::fromAddress"]}
{"id": "C30", "title": "Address and script correspond", "statement": "Parsing the address of a P2PKH, P2SH, P2WPKH or P2WSH script gives that script back on Mainnet and Testnet (P2PKH on Mainnet: hashes with at most one leading zero byte).", "quantifier": "all 20- and 32-byte hashes, networks", "why_tests_cant": "2^256 hashes", "anchors": ["src/Script.cpp: Script::address, fromAddress, type"]}
{"id": "C31", "title": "Address parsing on every network and script version", "statement": "Parsing the address of any standard script gives that script back on every network the library ships, including regtest and witness versions above 0, and for every hash.", "quantifier": "all scripts and networks", "why_tests_cant": "the failing hashes are rare", "anchors": ["src/Script.cpp: Script::fromAddress", "src/Networks.cpp"]}
{"id": "C32", "title": "WIF round-trips", "statement": "fromWIF(wif(k)) gives back secret, compression flag and a network with the same WIF prefix, for every 32-byte secret.", "quantifier": "all secrets, flags, networks", "why_tests_cant": "2^256 secrets", "anchors": ["src/Bitcoin.cpp: PrivateKey::wif, fromWIF"]}
{"id": "C33", "title": "WIF parsing accepts exactly the WIF format", "statement": "fromWIF succeeds only on strings that wif() can produce for a key between 1 and n-1.", "quantifier": "all strings", "why_tests_cant": "all strings", "anchors": ["src/Bitcoin.cpp: PrivateKey::fromWIF"]}
{"id": "C34", "title": "Derivation paths are parsed as written", "statement": "For every non-empty list of indices below 2^31 with hardened marks, deriving by the printed path (with or without m/, with h, H or ') equals deriving by the list of child numbers; a path containing any other character is refused.", "quantifier": "all paths of any length", "why_tests_cant": "unbounded paths", "anchors": ["src/HDWallet.cpp: HDPrivateKey::derive(path), HDPublicKey::derive(path)"]}
{"id": "C35", "title": "Out-of-range path components are refused", "statement": "A path component of 2^31 or more is refused, and no path text makes the parser read outside the string.", "quantifier": "all path strings", "why_tests_cant": "all strings", "anchors": ["src/HDWallet.cpp: HDPrivateKey::derive(path), HDPublicKey::derive(path)"]}
{"id": "C36", "title": "Extended keys round-trip", "statement": "Serializing an extended private or public key gives the 78-byte BIP32 encoding and parsing that gives back depth, fingerprint, child number, chain code, key, and the script type and network the version prefix denotes.", "quantifier": "all extended keys", "why_tests_cant": "2^512 keys", "anchors": ["src/HDWallet.cpp: to_stream, from_stream"]}
{"id": "C37", "title": "Private and public derivation agree", "statement": "For every non-hardened index, the public key of the derived private child equals the child derived from the parent's public key (same key, chain code, depth, fingerprint, child number, prefix type).", "quantifier": "all keys, chain codes and indices", "why_tests_cant": "all keys", "anchors": ["src/HDWallet.cpp: HDPrivateKey::child, HDPublicKey::child, xpub"]}
{"id": "C38", "title": "Derivation composes", "statement": "Deriving along a concatenation of two index lists equals deriving along the first and then the second.", "quantifier": "all keys and index lists", "why_tests_cant": "unbounded lists", "anchors": ["src/HDWallet.cpp: derive(index array)", "src/PSBT.cpp: PSBT::sign"]}
{"id": "C39", "title": "Mnemonic encoding round-trips", "statement": "For 16, 24 and 32 bytes of entropy the generated mnemonic converts back to the same entropy and passes checkMnemonic.", "quantifier": "all entropies", "why_tests_cant": "2^256 entropies", "anchors": ["src/utility/trezor/bip39.c: mnemonic_from_data, mnemonic_to_entropy, mnemonic_check"]}
{"id": "C40", "title": "checkMnemonic accepts exactly valid mnemonics", "statement": "checkMnemonic accepts a string iff it is the mnemonic of some entropy of a permitted length; parsing any string stays in bounds.", "quantifier": "all strings", "why_tests_cant": "all strings", "anchors": ["src/utility/trezor/bip39.c: mnemonic_check"]}
{"id": "C41", "title": "Hashes are independent of chunking", "statement": "Feeding a message to SHA-256, SHA-512 or RIPEMD-160 in any sequence of write calls gives the digest of the whole message as the standard defines it (padding included).", "quantifier": "all messages below the standard's length limit and all cuts", "why_tests_cant": "2^(n-1) cuts of unboundedly many messages", "anchors": ["src/utility/trezor/sha2.c", "src/utility/trezor/ripemd160.c", "src/Hash.cpp"]}
{"id": "C42", "title": "HMAC and PBKDF2 follow their definitions", "statement": "HMAC-SHA256/SHA512 with any key and message equals RFC 2104; the mnemonic-to-seed loop equals PBKDF2-HMAC-SHA512 with 2048 rounds.", "quantifier": "all keys, messages, salts", "why_tests_cant": "all lengths around the block size", "anchors": ["src/utility/trezor/hmac.c", "src/utility/trezor/pbkdf2.c", "src/HDWallet.cpp: fromMnemonic"]}
{"id": "C43", "title": "256-bit arithmetic is exact", "statement": "Reading, writing, comparing, adding, subtracting, doubling, halving, multiplying and reducing 256-bit numbers in 30-bit limbs gives the mathematical result modulo the field prime or group order, with no lost carry.", "quantifier": "all operands in the documented range", "why_tests_cant": "2^512 operand pairs; carries are rare", "anchors": ["src/utility/trezor/bignum.c"]}
{"id": "C44", "title": "Scalar operators compute modulo the group order", "statement": "ECScalar +, -, *, unary minus and comparison agree with arithmetic modulo the group order for all scalars below it; adding or subtracting a 32-bit integer does too.", "quantifier": "all scalars, all 32-bit integers", "why_tests_cant": "2^512 operand pairs", "anchors": ["src/BitcoinCurve.cpp: ECScalar operators"]}
{"id": "C45", "title": "Signing then verifying succeeds", "statement": "For every private key and message hash, a produced ECDSA signature verifies under the matching public key, has low s, and a produced Schnorr signature verifies.", "quantifier": "all keys and hashes", "why_tests_cant": "2^512 pairs", "anchors": ["src/utility/trezor/ecdsa.c", "src/Bitcoin.cpp: sign, verify, schnorr_sign, schnorr_verify"]}
{"id": "C46", "title": "Schnorr verification is BIP340", "statement": "schnorr_verify accepts a signature iff BIP340 verification accepts it; in particular at most one s is accepted per (key, message, r).", "quantifier": "all keys, messages, signatures", "why_tests_cant": "all signatures", "anchors": ["src/Bitcoin.cpp: PublicKey::schnorr_verify"]}
{"id": "C47", "title": "ECDH is symmetric", "statement": "Two parties deriving a shared secret from own private and other public key get the same value.", "quantifier": "all key pairs", "why_tests_cant": "all pairs", "anchors": ["src/Bitcoin.cpp: PrivateKey::ecdh"]}
{"id": "C48", "title": "Public keys on the wire", "statement": "sec() and parse are inverse for every point on the curve, compressed or not, and parsing accepts only points on the curve.", "quantifier": "all points, all byte strings", "why_tests_cant": "2^256 points", "anchors": ["src/BitcoinCurve.cpp: ECPoint::from_stream, to_stream, isValid"]}
{"id": "C49", "title": "Concurrent parsing of two public keys", "statement": "Parsing two keys whose chunks arrive interleaved gives the same two keys as parsing them one after the other.", "quantifier": "all pairs of keys and interleavings", "why_tests_cant": "depends on the schedule", "anchors": ["src/BitcoinCurve.cpp: ECPoint::from_stream"]}
{"id": "C50", "title": "Multisig descriptor scripts", "statement": "multi(m, keys) is the m-of-n script in the given order for 1<=m<=n<=16 and empty otherwise; sortedmulti does not depend on the order of the keys.", "quantifier": "all key lists", "why_tests_cant": "all permutations", "anchors": ["src/Script.cpp: multi, sortedmulti"]}
{"id": "C51", "title": "Script growth is bounded and pushes are readable", "statement": "push never lets a script exceed 10000 bytes, and pushing a script or public key adds a push operation that a script interpreter reads back as that data.", "quantifier": "all scripts and push sequences", "why_tests_cant": "all sequences", "anchors": ["src/Script.cpp: Script::push"]}
{"id": "C52", "title": "Script and witness memory is freed once", "statement": "No sequence of construction, assignment, push, parse, clear and destruction frees a buffer twice or uses it after it was freed.", "quantifier": "all operation sequences", "why_tests_cant": "all histories", "anchors": ["src/Script.cpp: Script, Witness"]}
{"id": "C53", "title": "PSBT fee", "statement": "fee() is total input minus total output when every input amount is known and totals fit in 64 bits, and 0 when an amount is missing or outputs exceed inputs.", "quantifier": "all PSBTs", "why_tests_cant": "64-bit wrap-around", "anchors": ["src/PSBT.cpp: PSBT::fee"]}
{"id": "C54", "title": "PSBT round-trips", "statement": "Parsing a serialized PSBT of the supported fields gives it back.", "quantifier": "all PSBTs of any size", "why_tests_cant": "sizes at the varint boundaries (252 bytes, 255 sections) matter", "anchors": ["src/PSBT.cpp: PSBT::from_stream, to_stream, add"]}
{"id": "C55", "title": "PSBT input data must match the transaction", "statement": "A previous transaction attached to an input is accepted only if its txid is the one the input spends.", "quantifier": "all PSBTs", "why_tests_cant": "all pairs of transactions", "anchors": ["src/PSBT.cpp: PSBT::add"]}
{"id": "C56", "title": "Change detection is sound", "statement": "isMine returns true for an output only if the output script pays to a key derived from the given wallet.", "quantifier": "all PSBTs and wallets", "why_tests_cant": "an attacker chooses the PSBT", "anchors": ["src/PSBT.cpp: PSBT::isMine"]}
{"id": "C57", "title": "Descriptor checksum detects substitutions", "statement": "descriptorChecksum follows the published algorithm, refuses characters outside the descriptor character set, and differs for two descriptors of the same length that differ in one character.", "quantifier": "all descriptors", "why_tests_cant": "all descriptors and substitutions", "anchors": ["src/PSBT.cpp: descriptorChecksum"]}
{"id": "C58", "title": "A successful parse consumed exactly the object", "statement": "When parsing a script or witness reports PARSING_DONE, the bytes consumed are exactly the serialization of the resulting object, so re-serializing gives them back and stays in bounds.", "quantifier": "all byte strings", "why_tests_cant": "the attacker chooses the bytes; length prefixes wrap around", "anchors": ["src/Script.cpp: Script::from_stream, Witness::from_stream"]}
{"id": "C59", "title": "Witness transaction id", "statement": "wtxid is the reversed double SHA-256 of the transaction's serialization, so it equals txid for a transaction without witnesses.", "quantifier": "all transactions", "why_tests_cant": "all transactions", "anchors": ["src/Transaction.cpp: Tx::whash, wtxid"]}
{"id": "C60", "title": "Signing an input yields a spendable input", "statement": "signInput and signSegwitInput sign the protocol's hash for the given input and put signature, public key and (where needed) script into script and witness of that input in the standard form, leaving everything else as it was.", "quantifier": "all transactions, inputs, keys and scripts", "why_tests_cant": "all transactions", "anchors": ["src/Transaction.cpp: Tx::signInput, Tx::signSegwitInput"]}
{"id": "C61", "title": "Binary text of any length", "statement": "fromBin reads up to 2048 binary digits as one big-endian number in the smallest number of bytes that has room for the digits, and refuses text longer than the array.", "quantifier": "all binary strings and arrays", "why_tests_cant": "2^2048 strings", "anchors": ["src/Conversion.cpp: fromBin"]}
{"id": "C62", "title": "Secrets are parsed only in range", "statement": "Parsing a 32-byte secret (a scalar or private key read from bytes) succeeds exactly for the big-endian numbers 1..n-1, n the group order, and keeps the number.", "quantifier": "all 32-byte strings", "why_tests_cant": "2^256 strings; the interesting ones are at the far end", "anchors": ["src/BitcoinCurve.cpp: ECScalar::from_stream", "src/Bitcoin.cpp: PrivateKey::from_stream"]}
{"id": "C63", "title": "Child keys are those of BIP32", "statement": "The master key of a seed and every private child key (secret, chain code, parent fingerprint, child number, depth) are those BIP32 defines, and where BIP32 says there is no such key the derivation is refused.", "quantifier": "all seeds, keys, chain codes and child numbers", "why_tests_cant": "the invalid cases have probability 2^-127 and cannot be found by testing", "anchors": ["src/HDWallet.cpp: HDPrivateKey::fromSeed, HDPrivateKey::child, HDPublicKey::child"]}
{"id": "C64", "title": "A hashing object can be used again", "statement": "After end(), a SHA-256, SHA-512, RIPEMD-160, Hash160, DoubleSha or tagged hash object gives for the next message the digest a fresh object would give; after begin() it always does.", "quantifier": "every earlier history of the object and every later sequence of writes", "why_tests_cant": "The wrong digest depends on an earlier call on the same object; tests use a fresh object for each message.", "anchors": ["src/Hash.h: RMD160, SHA256, SHA512, Hash160, DoubleSha, TaggedHash", "src/Hash.cpp: begin, write, end"]}
{"id": "C65", "title": "Every mnemonic the library generates is one it accepts", "statement": "Every sentence returned by generateMnemonic or mnemonicFromEntropy is accepted by checkMnemonic and converts back with mnemonicToEntropy, for each permitted number of words (12, 15, 18, 21, 24).", "quantifier": "every entropy of every permitted length and every user string", "why_tests_cant": "Each word count takes a different path through two functions that were written apart; tests use 12 and 24 words.", "anchors": ["src/Bitcoin.cpp: generateMnemonic, mnemonicFromEntropy, mnemonicToEntropy, checkMnemonic", "src/utility/trezor/bip39.c: mnemonic_from_data, mnemonic_to_entropy, mnemonic_check"]}
{"id": "C66", "title": "Modular inverses and scalar division", "statement": "Inverting a number that is not divisible by the modulus gives the number below the modulus whose product with it is 1, so dividing scalars undoes multiplying them; dividing by zero does not read or write outside its variables and terminates.", "quantifier": "all numbers, all scalars", "why_tests_cant": "The loop runs up to several hundred rounds on packed registers whose layout depends on the data; 2^256 inputs.", "anchors": ["src/utility/trezor/bignum.c: bn_inverse", "src/BitcoinCurve.cpp: ECScalar::operator/"]}
{"id": "C67", "title": "A PSBT object can be dropped or used again whatever it has read", "statement": "Whatever bytes a PSBT object was given, in whatever pieces, destroying it and parsing another transaction into it give back each block of memory once and follow no pointer that was not set.", "quantifier": "all byte strings, all cuts into pieces, all sequences of transactions parsed into one object", "why_tests_cant": "The bad cases are malformed or oversized maps; a test sees the corruption only if the allocator happens to notice.", "anchors": ["src/PSBT.cpp: PSBT::from_stream, PSBT::add, PSBT::~PSBT"]}
{"id": "C68", "title": "Malformed PSBTs are refused", "statement": "Parsing reports success only for bytes that start with the PSBT magic and hold the transaction under key 0, in which every entry that gives the output or transaction being spent holds exactly one complete output or transaction, and no key occurs twice in a map.", "quantifier": "all byte strings", "why_tests_cant": "Each rule excludes an unbounded set of byte strings.", "anchors": ["src/PSBT.cpp: PSBT::from_stream, PSBT::add"]}
{"id": "C69", "title": "verify accepts exactly the valid ECDSA signatures", "statement": "For every public key on the curve, PublicKey::verify returns true if and only if r and s are in range and satisfy the ECDSA equation for that key and hash, and it always returns.", "quantifier": "all public keys, all pairs of 32-byte r and s, all 32-byte hashes, all values of the random generator", "why_tests_cant": "Wrongly accepted and wrongly refused triples are a vanishing fraction of 2^768; the interesting ones (sums that meet the point at infinity, r above the order) cannot be hit by random tests.", "anchors": ["src/Bitcoin.cpp: PublicKey::verify", "src/utility/trezor/ecdsa.c: ecdsa_verify_digest"]}
{"id": "C70", "title": "The recovery byte of a signature gives the public key back", "statement": "From the r and s of a produced signature, the hash and the recovery number stored with it, public key recovery yields the signer's public key.", "quantifier": "all secrets, hashes and nonces", "why_tests_cant": "Two of the four recovery numbers occur with probability 2^-127 and s is negated half of the time; tests see two cases.", "anchors": ["src/utility/trezor/ecdsa.c: ecdsa_recover_pub_from_sig, ecdsa_sign_digest", "src/BitcoinCurve.h: Signature index"]}
{"id": "C71", "title": "Point arithmetic is the group of the curve", "statement": "Adding, subtracting, negating and multiplying ECPoints gives the results of the group law of secp256k1, including for equal, opposite and infinite points, independently of the blinding random numbers; so the usual laws hold for ==.", "quantifier": "all points of the curve and the point at infinity, all scalars, all random numbers", "why_tests_cant": "The exceptional cases (doubling inside an addition, infinity in the middle of a multiplication) occur for isolated inputs only.", "anchors": ["src/BitcoinCurve.cpp: ECPoint operators", "src/utility/trezor/ecdsa.c: point_add, point_double, point_multiply, scalar_multiply"]}
{"id": "C72", "title": "Nonces are those of RFC 6979", "statement": "PrivateKey::sign is deterministic and uses the nonces that RFC 6979 prescribes for the secret and the hash, so that signatures agree with other wallets' and no nonce is used for two hashes unless the generator repeats.", "quantifier": "all secrets and hashes", "why_tests_cant": "The retry path and hashes above the order are never reached by random inputs.", "anchors": ["src/utility/trezor/ecdsa.c: ecdsa_sign_digest", "src/utility/trezor/rfc6979.c: init_rfc6979, generate_rfc6979"]}
{"id": "C73", "title": "The public key of a secret", "statement": "A PrivateKey made of a secret from 1 to the order minus 1 has as its public key that multiple of the generator, different secrets have different keys, and other secrets are refused.", "quantifier": "all 32-byte secrets", "why_tests_cant": "A multiplication with precomputed tables of 64*8 points; a wrong entry affects one secret in eight at one position.", "anchors": ["src/Bitcoin.cpp: PrivateKey constructors", "src/utility/trezor/ecdsa.c: scalar_multiply", "src/utility/trezor/secp256k1.table"]}
{"id": "C74", "title": "Comparison of public keys", "statement": "operator< on public keys is the lexicographic order of their serializations, as BIP67 key sorting needs.", "quantifier": "all pairs of keys, compressed or not", "why_tests_cant": "Sorting results are only seen to be wrong against an independent order.", "anchors": ["src/BitcoinCurve.cpp: ECPoint::operator<"]}
{"id": "C75", "title": "Multiples of the point at infinity", "statement": "Multiplying the point at infinity, which the library's own additions produce, gives the point at infinity.", "quantifier": "all scalars and random numbers", "why_tests_cant": "The point at infinity arises from opposite summands only.", "anchors": ["src/BitcoinCurve.cpp: operator*", "src/utility/trezor/ecdsa.c: point_multiply"]}
{"id": "C76", "title": "A wallet signs what it owns in a PSBT", "statement": "PSBT::sign(root) adds, to each input, one signature for each derivation entry whose key the wallet derives, made of the BIP 143 or legacy hash of that input with the given scripts and amount, valid for that key and with low s; changes nothing else; returns how many it added; and serializing then gives those signatures.", "quantifier": "all PSBTs, wallets, paths, entries, random numbers", "why_tests_cant": "Tests sign a few PSBTs with one wallet and paths of equal shape; the cached account key and the counter only matter for others.", "anchors": ["src/PSBT.cpp: PSBT::sign, PSBT::add, PSBT::to_stream", "src/HDWallet.cpp: HDPrivateKey::derive, fingerprint"]}
{"id": "C77", "title": "The signer checks what it signs", "statement": "PSBT::sign does not sign inputs whose previous output is unknown, whose redeem or witness script is not the one of the output spent, or that ask for another signature hash type than the one it uses (BIP 174, signer).", "quantifier": "all PSBTs, including hostile ones", "why_tests_cant": "Tests use well-formed PSBTs; the checks matter for hostile ones.", "anchors": ["src/PSBT.cpp: PSBT::sign, PSBT::add"]}
{"id": "C78", "title": "Signing again", "statement": "Signing a PSBT is reproducible, and signing one that the wallet has signed already leaves it with one signature per key.", "quantifier": "all PSBTs and random numbers", "why_tests_cant": "Needs two calls on the same object, and the comparison of all pairs of keys.", "anchors": ["src/PSBT.cpp: PSBT::sign, PSBT::add"]}
{"id": "C79", "title": "Electrum's unsigned transactions are read as they are", "statement": "Parsing the bytes Electrum writes for an unsigned transaction (single key per input, with or without segwit) ends with success having consumed them, and gives the transaction, and for each input its extended key, the two derivation indexes and, with segwit, its amount; other bytes are refused, and the parser always returns.", "quantifier": "all transactions, all numbers of inputs, all keys, indexes and amounts", "why_tests_cant": "The parser takes a failure of the ordinary transaction parser as the sign of segwit data; how much has been consumed then depends on the number of inputs and on the bytes of the first amount.", "anchors": ["src/Electrum.cpp: ElectrumTx::from_stream", "src/Transaction.cpp: Tx::from_stream", "src/HDWallet.cpp: HDPublicKey::from_stream"]}
{"id": "C80", "title": "The fee of an Electrum transaction", "statement": "fee() is the sum of the input amounts minus the sum of the outputs, and 0 if it is not known or the outputs exceed the inputs.", "quantifier": "all parsed Electrum transactions", "why_tests_cant": "Depends on amounts that overflow, and on memory that nothing has initialised.", "anchors": ["src/Electrum.cpp: ElectrumTx::fee"]}
{"id": "C81", "title": "A wallet signs its inputs of an Electrum transaction", "statement": "ElectrumTx::sign(account) signs exactly the inputs whose extended key is the account's, with the BIP32 key of their two indexes and the hash for their kind of address, returns their number, and the object then serializes as the signed transaction.", "quantifier": "all Electrum transactions and accounts, all random numbers", "why_tests_cant": "Tests sign one file; mixtures of own and foreign inputs, kinds of addresses, and the equality of keys are unbounded.", "anchors": ["src/Electrum.cpp: ElectrumTx::sign", "src/Transaction.cpp: Tx::signInput, Tx::signSegwitInput"]}
{"id": "C82", "title": "Copies are equal and independent", "statement": "A copy of a transaction, a PSBT or an Electrum transaction, made by the copy constructor or by assignment, has the same contents: it gives the same bytes, identifiers, fee and change outputs, can be signed and reused for parsing as the original, and both can be destroyed.", "quantifier": "all objects, in every state in which parsing or signing can leave them, and all earlier contents of the target", "why_tests_cant": "The copy constructors take over chosen members of nested objects; which ones are missing shows only in objects that are half read, failed or reused.", "anchors": ["src/Transaction.cpp: Tx::Tx(Tx const &), Tx::operator=", "src/PSBT.cpp: PSBT::PSBT(PSBT const &), PSBT::operator=", "src/Electrum.cpp: ElectrumTx::ElectrumTx(ElectrumTx const &), ElectrumTx::operator=", "src/Script.cpp: Script::operator=, Witness::operator="]}
{"id": "C83", "title": "Objects as hexadecimal and base64 text", "statement": "toString() is the hexadecimal form of an object's bytes and serialize(offset, len) that of a part of them; parsing the text gives an equal object back, PSBTs also through toBase64() and parseBase64(); text that is no such form is refused.", "quantifier": "all objects, offsets, lengths and texts", "why_tests_cant": "Parsers read text two characters at a time, and what a wrong character does depends on where in which object it stands.", "anchors": ["src/BaseClasses.cpp: Readable::toString, Streamable::serialize, ParseByteStream::read", "src/BaseClasses.h: Streamable::parse", "src/PSBT.cpp: PSBT::toBase64, PSBT::parseBase64", "src/Conversion.cpp: base64ToHex, hexToBase64"]}
{"id": "C84", "title": "Exactly which texts are base64", "statement": "fromBase64 takes base64 text of RFC 4648 and nothing else: text with other characters, after padding or with spare bits set is refused.", "quantifier": "all texts and buffers", "why_tests_cant": "The texts that are not base64 cannot be listed; tests try a few.", "anchors": ["src/Conversion.cpp: fromBase64, fromBase64Length, base64ToHex"]}
{"id": "C85", "title": "Wallets and their watch-only copies show the same addresses", "statement": "address() of a derived key is the standard address for its path (BIP 44, 49, 84) and network, and a watch-only wallet made from the text of the account's extended public key shows the same addresses for the same path.", "quantifier": "all seeds, accounts, paths below them, types and networks", "why_tests_cant": "Equality must hold for every index of every account; tests compare the first few addresses of one kind of account.", "anchors": ["src/HDWallet.cpp: HDPrivateKey::address, HDPublicKey::address, HDPrivateKey::xpub, HDPublicKey::from_str, fingerprint", "src/Bitcoin.cpp: PublicKey::legacyAddress, segwitAddress, nestedSegwitAddress"]}
{"id": "C86", "title": "Random choices prefer nothing", "statement": "Given uniformly random 32 bit words, random bytes, random numbers below n, random permutations, the random numbers of curve computations and mnemonics are all uniformly distributed: every outcome comes from equally many sequences of words, and unusable words are skipped.", "quantifier": "all words and outcomes, all n from 1 to 2^32 - 1, all lengths", "why_tests_cant": "A bias of one outcome in 2^30 or an unreachable entropy cannot be seen in samples; it must be counted over all words.", "anchors": ["src/utility/trezor/rand.c: random_buffer, random_uniform, random_permute", "src/utility/trezor/ecdsa.c: generate_k_random", "src/Bitcoin.cpp: generateMnemonic", "src/utility/trezor/bip39.c: mnemonic_generate"]}
{"id": "C87", "title": "Every platform's random words are random", "statement": "On each supported platform generateMnemonic can give the mnemonic of any entropy, no bit of it is more often 1 than 0, and two devices or two starts do not give the same mnemonic.", "quantifier": "all platforms of rand.c, all outputs of their hardware or C library", "why_tests_cant": "Tests run on one platform, and a loss of randomness leaves outputs that look random.", "anchors": ["src/utility/trezor/rand.c: random32"]}
{"id": "C88", "title": "Conversions to String return the whole text", "statement": "toHex, toBin, toBase58, toBase58Check, toBase43 and toBase64, when they return a String, return exactly the text of the bytes given, whatever was in the memory they work in, and touch no other memory.", "quantifier": "all byte strings, flags and contents of allocated memory", "why_tests_cant": "Missing terminators and sizes one too small show only with certain bytes or certain contents of fresh memory.", "anchors": ["src/Conversion.cpp: toHex, toBin, toBase58, toBase58Check, toBase43, toBase64 (String versions)"]}
{"id": "C89", "title": "Objects made from text are what the text says", "statement": "A transaction input made from a txid() text spends that transaction, an output made from an address pays to it, a private key made from a text is the key written there, and a transaction put together from them serializes accordingly; a text that is not understood gives an object that says so.", "quantifier": "all texts, transactions, addresses, amounts and contents of memory", "why_tests_cant": "A constructor cannot return an error; what it leaves behind for each wrong text is only seen when money is sent.", "anchors": ["src/Transaction.cpp: TxIn::TxIn(const char *, ...), Tx::txid, Tx::addInput, Tx::addOutput", "src/Bitcoin.h: TxOut::TxOut, Script::Script(const char *)", "src/Bitcoin.cpp: PrivateKey::PrivateKey(String)"]}
{"id": "C90", "title": "Texts of keys and addresses have the form users recognise", "statement": "wif(), xprv(), xpub() and the addresses of scripts and public keys return, as Strings, complete texts that fit their buffers; extended keys have 111 characters and begin with the letters of their network and script type, WIF texts and base-58 addresses begin with the characters of their network and kind and have their usual lengths, and so do bech32 addresses.", "quantifier": "all keys, hashes, scripts, networks and script types, whatever the hash function returns", "why_tests_cant": "The first characters of a base-58 text depend on every byte by carries; only extreme keys and hashes reach the limits.", "anchors": ["src/Bitcoin.cpp: PrivateKey::wif, PublicKey::legacyAddress, segwitAddress, nestedSegwitAddress", "src/HDWallet.cpp: HDPrivateKey::xprv, HDPublicKey::xpub", "src/Script.cpp: Script::address", "src/Networks.cpp"]}
{"id": "C91", "title": "A wallet made from words shows the addresses and keys of the standards", "statement": "HDPrivateKey(words, password, network) followed by derive(path) for a path of BIP 44, 49 or 84 gives the address, the extended private key and the extended public key that BIP 39, 32, 44, 49, 84, 173 and SLIP 132 define with SHA-256, SHA-512, RIPEMD-160 and secp256k1, provided that no key on the way is one BIP 32 calls invalid; the random numbers used inside the multiplications and the network given at first make no difference.", "quantifier": "all words, passwords, account numbers, further path numbers and spellings of the path, all random numbers", "why_tests_cant": "Test vectors cover a few seeds; a wrong byte anywhere in the chain of 2048 hash rounds, derivations and encodings of other seeds would send money to an address no other wallet finds.", "anchors": ["src/HDWallet.cpp: HDPrivateKey::fromMnemonic, fromSeed, derive, child, address, xprv, xpub", "src/Hash.cpp", "src/BitcoinCurve.cpp: operator*", "src/Bitcoin.cpp: PublicKey::address"]}
{"id": "C92", "title": "Extended keys made from their parts are those keys", "statement": "HDPrivateKey(secret, chain code, depth, fingerprint, child number, network, type) and HDPublicKey(point, ...) make the extended key with exactly these parts: its text is the one BIP 32 and SLIP 132 define, reading that text gives the same key, its public key has the same parts, and a key made again from the parts of another one has the same children, address and texts. Secrets that are 0 or not below the group order and points that are not on the curve are refused.", "quantifier": "all secrets, points, chain codes, depths, fingerprints (or none), child numbers, networks and types with a version number", "why_tests_cant": "A wallet restored from stored parts must be the same wallet for every secret; what happens with invalid parts depends on values no random test meets.", "anchors": ["src/HDWallet.cpp: HDPrivateKey::HDPrivateKey(secret, ...), HDPublicKey::HDPublicKey(point, ...), xprv, xpub, from_str"]}
{"id": "C93", "title": "Functions that make output scripts make the standard ones, and type() recognises exactly those", "statement": "pkh, wpkh, sh and wsh (and Script(key, type), Script(script, type)) make the output script BIP 16 and 141 define for their argument. The script's address is the one the key itself shows, also for nested segwit and for multisig scripts within sh and wsh. type() of a script is P2PKH, P2SH, P2WPKH or P2WSH exactly if the script has that form. Coins sent to a script made this way can be spent with the keys it was made from.", "quantifier": "all scripts, public keys, thresholds, up to 16 keys and every network", "why_tests_cant": "Sending to a slightly wrong script loses the coins; the forms are a set of byte strings far too large to try, and limits like 520 bytes show only for certain numbers of keys.", "anchors": ["src/Script.cpp: pkh, wpkh, sh, wsh, multi, Script::Script(PublicKey, ScriptType), Script::Script(Script, ScriptType), Script::type, Script::address"]}
{"id": "C94", "title": "btcAmount() tells the amount of an output", "statement": "TxOut.btcAmount(), which the examples show for confirmation before signing, is the amount in bitcoins: outputs with different amounts give different numbers, a larger amount gives a larger number, and the number times 10^8, rounded, is the amount in satoshis.", "quantifier": "all amounts of 64 bits, on boards with doubles of 53 and of 24 binary digits", "why_tests_cant": "Rounding errors appear at certain amounts only; amounts found to be right by a test say nothing about their neighbours.", "anchors": ["src/Bitcoin.h: TxOut::btcAmount", "examples/psbt/psbt.ino", "examples/cpp/main.cpp"]}
{"id": "C95", "title": "Building with SHA2_UNROLL_TRANSFORM changes no hash", "statement": "A user can build the SHA-2 functions with unrolled transforms to trade size for speed. Both builds give the same SHA-256 and SHA-512 of every byte string, written in any pieces.", "quantifier": "all byte strings, all ways of cutting them into writes, both builds, both functions", "why_tests_cant": "The unrolled code rotates the roles of eight variables through macro arguments; a test covers the build it was compiled with and a few inputs.", "anchors": ["src/utility/trezor/sha2.c: sha256_Transform, sha512_Transform, ROUND256, ROUND512, SHA2_UNROLL_TRANSFORM"]}
{"id": "C96", "title": "Digests as text", "statement": "sha256_Data and sha512_Data (and _End) put the digest of the data, as lower-case hexadecimal text with its NUL, into the buffer of the caller, write nothing behind it, and return that text.", "quantifier": "all byte strings and all buffers", "why_tests_cant": "Tests of hashing use the binary functions; a test of the text looks at a few digests and at one of the two ways to get the text.", "anchors": ["src/utility/trezor/sha2.c: sha256_End, sha256_Data, sha512_End, sha512_Data", "src/utility/trezor/sha2.h"]}
{"id": "C97", "title": "ecdsa_sig_to_der gives the DER encoding", "statement": "ecdsa_sig_to_der turns 64 bytes r || s into the DER encoding of the two numbers, the one Signature.der() gives, of at most 72 bytes, returns its length, reads only the 64 bytes and writes only the encoding.", "quantifier": "all pairs of 256-bit numbers and all buffers of 72 bytes or more", "why_tests_cant": "The length depends on leading zero bytes and top bits; random signatures have short numbers once in 256 times and never a zero.", "anchors": ["src/utility/trezor/ecdsa.c: ecdsa_sig_to_der", "src/utility/trezor/ecdsa.h"]}
