(** Properties of the conversion functions (C01-C12). *)
From Verif Require Import Base.Bytes Base.BytesFacts Model.Conversion Spec.Codecs
  Proof.IntVarint Proof.HexBin Proof.BaseN Proof.Base58 Proof.Base64 Proof.ConvProps Proof.BinAny.
Open Scope Z_scope.

(** * C01 *)
Theorem C01_varint_roundtrip : forall n buf rest, 0 <= n < 2^64 -> lenVarInt n <= len buf ->
  exists enc, writeVarInt n buf = Ok (lenVarInt n, enc ++ skipn (Z.to_nat (lenVarInt n)) buf) /\
    len enc = lenVarInt n /\ enc = compact_size n /\ readVarInt (enc ++ rest) = Ok n.
Proof. exact varint_write_read. Qed.
Print Assumptions C01_varint_roundtrip.
Example C01_ex : writeVarInt 70000 (zeros 6) = Ok (5, [254; 112; 17; 1; 0; 0]) /\
  readVarInt [254; 112; 17; 1; 0; 9; 9] = Ok 70000.
Proof. vm_compute. auto. Qed.

Theorem C01_varint_shortest : forall n bs, compact_form n bs -> len (compact_size n) <= len bs.
Proof. exact compact_size_shortest. Qed.
Print Assumptions C01_varint_shortest.
Theorem C01_varint_canonical : forall n, 0 <= n < 2^64 ->
  compact_form n (compact_size n) /\ lenVarInt n = len (compact_size n).
Proof. intros n H. exact (conj (compact_size_form n H) (lenVarInt_spec n H)). Qed.
Print Assumptions C01_varint_canonical.
Theorem C01_varint_reads_every_form : forall n bs rest, compact_form n bs -> readVarInt (bs ++ rest) = Ok n.
Proof. exact readVarInt_form. Qed.
Print Assumptions C01_varint_reads_every_form.
Theorem C01_varint_prefix_free : forall n m rest rest', 0 <= n < 2^64 -> 0 <= m < 2^64 ->
  compact_size n ++ rest = compact_size m ++ rest' -> n = m /\ rest = rest'.
Proof. exact compact_size_prefix_free. Qed.
Print Assumptions C01_varint_prefix_free.
Theorem C01_varint_small_buffer : forall n buf, 0 <= n < 2^64 -> len buf < lenVarInt n ->
  writeVarInt n buf = Ok (0, buf).
Proof. exact varint_small_buffer. Qed.
Print Assumptions C01_varint_small_buffer.
(** A truncated encoding of more than one byte reads as 0, not as an error. *)
Theorem C01_varint_truncated : forall n k, 253 <= n < 2^64 -> (0 < k < length (compact_size n))%nat ->
  readVarInt (firstn k (compact_size n)) = Ok 0.
Proof. exact readVarInt_truncated. Qed.
Print Assumptions C01_varint_truncated.
Example C01_truncated_ex : readVarInt (firstn 2 (compact_size 300)) = Ok 0 /\ readVarInt [] = UB.
Proof. vm_compute. auto. Qed.

(** * C02 *)
Theorem C02_fixed_width_roundtrip :
  (forall x n, (n <= 8)%nat ->
     intToLittleEndian x n = Ok (le_bytes n x) /\ intToBigEndian x n = Ok (be_bytes n x) /\
     littleEndianToInt (le_bytes n x) = x mod 2 ^ (8 * Z.of_nat n) /\
     bigEndianToInt (be_bytes n x) = x mod 2 ^ (8 * Z.of_nat n)) /\
  (forall l, bytes_ok l -> (length l <= 8)%nat ->
     intToLittleEndian (littleEndianToInt l) (length l) = Ok l /\
     intToBigEndian (bigEndianToInt l) (length l) = Ok l).
Proof. exact fixed_int_roundtrip. Qed.
Print Assumptions C02_fixed_width_roundtrip.
Example C02_ex : intToLittleEndian 305419896 4 = Ok [120; 86; 52; 18] /\ bigEndianToInt [18; 52; 86; 120] = 305419896.
Proof. vm_compute. auto. Qed.
Theorem C02_wide_is_undefined : forall x n, (8 < n)%nat -> intToLittleEndian x n = UB /\ intToBigEndian x n = UB.
Proof. exact wide_int_UB. Qed.
Print Assumptions C02_wide_is_undefined.
(** ECScalar(uint32_t) calls it with width 32 (BitcoinCurve.h). *)
Example C02_wide_ex : intToBigEndian 5 32 = UB.
Proof. vm_compute. reflexivity. Qed.

(** * C03 *)
Theorem C03_hex_roundtrip : forall bs out arr, bytes_ok bs -> 2 * len bs <= len out -> len bs <= len arr ->
  exists text, toHex bs out = (2 * len bs, text ++ zeros (Z.to_nat (len out - 2 * len bs))) /\
    text = hex_string bs /\
    fromHex text arr = Ok (len bs, bs ++ zeros (length arr - length bs)).
Proof. exact hex_roundtrip. Qed.
Print Assumptions C03_hex_roundtrip.
Example C03_ex : toHex [222; 173; 1] (zeros 7) = (6, chars "dead01" ++ [0]) /\
  fromHex (chars "deAD01") (zeros 4) = Ok (3, [222; 173; 1; 0]).
Proof. vm_compute. auto. Qed.
Theorem C03_hex_refuses_small_buffer : forall bs out, len out < 2 * len bs -> toHex bs out = (0, out).
Proof. exact toHex_refuses. Qed.
Print Assumptions C03_hex_refuses_small_buffer.

(** * C04 *)
Theorem C04_fromHex_bounds_partial : forall hex arr, len hex / 2 <= len arr ->
  exists r arr', fromHex hex arr = Ok (r, arr') /\ length arr' = length arr.
Proof. exact fromHex_safe. Qed.
Print Assumptions C04_fromHex_bounds_partial.
Theorem C04_fromHex_bounds_refuted : exists hex arr, fromHex hex arr = UB.
Proof. exact (ex_intro _ (chars "0011") (ex_intro _ [0] eq_refl)). Qed.
Print Assumptions C04_fromHex_bounds_refuted.

(** * C05 *)
Theorem C05_bin_roundtrip_partial : forall bs out arr, bytes_ok bs -> len bs <= 256 ->
  8 * len bs <= len out -> len bs <= len arr ->
  exists text, toBin bs out = (8 * len bs, text ++ zeros (Z.to_nat (len out - 8 * len bs))) /\
    text = bin_string bs /\
    fromBin text arr = Ok (len bs, bs ++ zeros (length arr - length bs)).
Proof. exact bin_roundtrip. Qed.
Print Assumptions C05_bin_roundtrip_partial.
Example C05_ex : toBin [5; 255] (zeros 16) = (16, chars "0000010111111111").
Proof. vm_compute. reflexivity. Qed.
(** Longer than 256 bytes: the 8-bit byte index wraps and other bytes come back. *)
Theorem C05_bin_roundtrip_refuted : exists bs out arr text,
  bytes_ok bs /\ toBin bs out = (len text, text) /\
  fromBin text arr = Ok (len bs, arr) /\ len arr = len bs /\ arr <> bs.
Proof. exact bin_roundtrip_bad. Qed.
Print Assumptions C05_bin_roundtrip_refuted.

(** Binary text of any length, not only whole bytes: the number it denotes,
    big-endian, in as few bytes as hold that many digits. *)
Theorem C61_fromBin : forall bits arr, Forall (fun d => d = 0 \/ d = 1) bits -> len bits <= 2048 -> len bits <= 8 * len arr ->
  let n := (len bits + 7) / 8 in
  fromBin (map (fun d => 48 + d) bits) arr =
  Ok (n, be_bytes (Z.to_nat n) (be_val 2 bits) ++ zeros (length arr - Z.to_nat n)).
Proof. exact fromBin_any. Qed.
Print Assumptions C61_fromBin.
Theorem C61_fromBin_refuses : forall text arr, 8 * len arr < len text -> fromBin text arr = Ok (0, arr).
Proof. exact fromBin_refuses. Qed.
Print Assumptions C61_fromBin_refuses.
Example C61_ex : fromBin (chars "10000000011") (zeros 3) = Ok (2, [4; 3; 0]).
Proof. vm_compute. reflexivity. Qed.

(** * C06 *)
Theorem C06_base64_roundtrip : forall fl bs out arr, bytes_ok bs -> bs <> [] ->
  toBase64Length (len bs) fl <= len out -> len bs <= len arr ->
  exists text, toBase64 fl bs out = Ok (len text, text ++ zeros (length out - length text)) /\
    text = base64_text (urlsafe fl) (negb (nopad fl)) bs /\
    len text = toBase64Length (len bs) fl /\
    fromBase64Length fl text = Ok (len bs) /\
    fromBase64 fl text arr = Ok (len bs, bs ++ zeros (length arr - length bs)).
Proof. exact base64_roundtrip. Qed.
Print Assumptions C06_base64_roundtrip.
Example C06_ex :
  toBase64 {| nopad := false; urlsafe := true |} [251; 255; 254; 250] (zeros 8) = Ok (8, chars "-__--g==").
Proof. vm_compute. reflexivity. Qed.

(** * C07 *)
Theorem C07_base64_empty_refuted :
  (forall fl out, toBase64 fl [] out = UB) /\
  (forall fl out, nopad fl = false -> fromBase64 fl [] out = UB).
Proof. exact (conj base64_empty base64_empty_dec). Qed.
Print Assumptions C07_base64_empty_refuted.

(** * C08 *)
Theorem C08_base58_encoding : forall bs out, bytes_ok bs -> len bs < 2^50 -> toBaseLength p58 bs <= len out ->
  exists text, toBase58 bs out = (len text, text ++ zeros (length out - length text)) /\
    base_text 58 base58_alphabet bs text /\ len text <= toBaseLength p58 bs.
Proof. exact base58_encode. Qed.
Print Assumptions C08_base58_encoding.
Theorem C08_base58_refuses_small_buffer : forall bs out, len out < toBaseLength p58 bs -> toBase58 bs out = (0, out).
Proof. exact (toBase_refuses p58). Qed.
Print Assumptions C08_base58_refuses_small_buffer.
Example C08_ex : toBase58 [0; 0; 1; 2; 3] (zeros 8) = (5, chars "11Ldp" ++ zeros 3).
Proof. vm_compute. reflexivity. Qed.

(** * C09 *)
Theorem C09_base58_roundtrip_refuted : ~ (forall bs, bytes_ok bs -> roundtrips58 bs).
Proof. exact base58_roundtrip_bad. Qed.
Print Assumptions C09_base58_roundtrip_refuted.
(** Exactly when it works: the decoder's size estimate ignores leading zeros. *)
Theorem C09_base58_roundtrip_exact_partial : forall bs out arr text n, bytes_ok bs -> len bs < 2^20 ->
  Z.of_nat (zero_count bs) < 256 ->
  toBaseLength p58 bs <= len out -> len bs <= len arr ->
  toBase58 bs out = (n, text ++ zeros (length out - length text)) -> n = len text ->
  (fromBase58 text arr = (len bs, bs ++ zeros (length arr - length bs)) <-> len bs <= len text * 361 / 493 + 1).
Proof. exact base58_roundtrip_exact. Qed.
Print Assumptions C09_base58_roundtrip_exact_partial.

(** * C10 *)
Theorem C10_base58_roundtrip_no_leading_zero : forall bs, bytes_ok bs -> len bs < 2^20 -> hd 1 bs <> 0 -> roundtrips58 bs.
Proof. exact roundtrips58_nozero. Qed.
Print Assumptions C10_base58_roundtrip_no_leading_zero.
Theorem C10_base58_roundtrip_address : forall bs, bytes_ok bs -> len bs = 25 -> firstn 3 bs <> [0; 0; 0] -> roundtrips58 bs.
Proof. exact roundtrips58_25. Qed.
Print Assumptions C10_base58_roundtrip_address.
Example C10_ex : let bs := 0 :: 0 :: repeat 7 23 in let r := toBase58 bs (zeros 40) in
  fst r = 33 /\ fromBase58 (firstn 33 (snd r)) (zeros 25) = (25, bs).
Proof. vm_compute. auto. Qed.

(** * C11 *)
Theorem C11_base58check_roundtrip : forall dsha,
  (forall m, length (dsha m) = 32%nat) -> (forall m, bytes_ok (dsha m)) ->
  forall bs out arr, bytes_ok bs -> 0 < len bs < 2^19 ->
  (hd 0 bs <> 0 \/ (len bs = 21 /\ firstn 3 bs <> [0;0;0])) ->
  toBaseLength p58 (bs ++ firstn 4 (dsha bs)) <= len out -> len bs <= len arr ->
  exists text, toBase58Check dsha bs out = (len text, text ++ zeros (length out - length text)) /\
    base_text 58 base58_alphabet (bs ++ firstn 4 (dsha bs)) text /\
    fromBase58Check dsha text arr = (len bs, bs ++ skipn (length bs) arr).
Proof. exact base58check_roundtrip. Qed.
Print Assumptions C11_base58check_roundtrip.
Theorem C11_base58check_sound : forall dsha s out l out',
  fromBase58Check dsha s out = (l, out') -> l <> 0 ->
  exists payload tail, length payload = Z.to_nat l /\ firstn (Z.to_nat l) out' = payload /\
    firstn 4 (dsha payload) = firstn 4 tail /\
    snd (fromBase58 s (out ++ zeros 4)) = payload ++ tail /\ fst (fromBase58 s (out ++ zeros 4)) = l + 4.
Proof. exact fromBase58Check_sound. Qed.
Print Assumptions C11_base58check_sound.

(** * C12 *)
Theorem C12_base43_encoding : forall bs out, bytes_ok bs -> len bs < 2^50 -> toBaseLength p43 bs <= len out ->
  exists text, toBase43 bs out = (len text, text ++ zeros (length out - length text)) /\
    base_text 43 base43_alphabet bs text.
Proof. exact base43_encode. Qed.
Print Assumptions C12_base43_encoding.
Theorem C12_base43_roundtrip : forall bs out arr, bytes_ok bs -> len bs < 2^15 -> hd 1 bs <> 0 ->
  toBaseLength p43 bs <= len out -> len bs <= len arr ->
  exists text, toBase43 bs out = (len text, text ++ zeros (length out - length text)) /\
     fromBase43 text arr = (len bs, bs ++ zeros (length arr - length bs)).
Proof. exact base43_roundtrip. Qed.
Print Assumptions C12_base43_roundtrip.
Example C12_ex : fst (toBase43 [255; 0; 17] (zeros 6)) = 5 /\
  fromBase43 (firstn 5 (snd (toBase43 [255; 0; 17] (zeros 6)))) (zeros 4) = (3, [255; 0; 17; 0]).
Proof. vm_compute. auto. Qed.
