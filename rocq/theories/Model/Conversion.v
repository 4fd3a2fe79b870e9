(** Model of src/Conversion.cpp.

    Buffers the C code writes to are lists whose length is the size argument of
    the C call; a function returns its return value and the buffer after the call.
    NULL arguments (every function returns 0 at once) are not represented.
    [malloc]/[calloc] are taken to succeed, also for size 0 (glibc, newlib). *)
From Verif Require Import Base.Bytes.
Open Scope Z_scope.

(** * Hexadecimal *)

(** Conversion.cpp:26-34. '0' = 48, '9' = 57, 'a' - '9' - 1 = 39. *)
Definition hex_digit (v : Z) : Z :=
  let c := v + 48 in if 57 <? c then c + 39 else c.

(** Conversion.cpp:17-37 [toHex(array, arraySize, output, outputSize)]. *)
Definition toHex (array output : list Z) : Z * list Z :=
  if len output <? 2 * len array then (0, output)
  else
    let s := flat_map (fun b => [hex_digit (Z.shiftr b 4); hex_digit (Z.land b 15)]) array in
    (2 * len array, s ++ zeros (Z.to_nat (len output - 2 * len array))).

(** Conversion.cpp:81-92 [hexToVal]. Characters above 127 fail all tests whether
    [char] is signed or not. *)
Definition hexToVal (c : Z) : Z :=
  if (48 <=? c) && (c <=? 57) then Z.land (c - 48) 15
  else if (65 <=? c) && (c <=? 70) then Z.land (c - 65 + 10) 15
  else if (97 <=? c) && (c <=? 102) then Z.land (c - 97 + 10) 15
  else 255.

(** Conversion.cpp:98-106: skip leading characters that are not hex digits. *)
Fixpoint skip_nonhex (hex : list Z) : list Z :=
  match hex with
  | [] => []
  | c :: t => if 15 <? hexToVal c then skip_nonhex t else hex
  end.

(** Conversion.cpp:108-115. [array[i] = ...] is not checked against arraySize:
    a write outside the array is UB. *)
Fixpoint fromHex_loop (hex : list Z) (i : Z) (array : list Z) : outcome (Z * list Z) :=
  match hex with
  | c1 :: c2 :: t =>
      let v1 := hexToVal c1 in
      let v2 := hexToVal c2 in
      if (15 <? v1) || (15 <? v2) then Ok (i, array)
      else let! array' := aset array i (Z.lor (Z.shiftl v1 4) v2) in
           fromHex_loop t (i + 1) array'
  | _ => Ok (i, array)
  end.

(** Conversion.cpp:94-117 [fromHex(hex, hexLen, array, arraySize)]. *)
Definition fromHex (hex array : list Z) : outcome (Z * list Z) :=
  fromHex_loop (skip_nonhex hex) 0 (zeros (length array)).

(** * Binary strings *)

(** Conversion.cpp:145-159; [rbin] is the string read from its end, [i] the loop
    counter. The byte index [n] is a uint8_t. '0' = 48, '1' = 49. *)
Fixpoint fromBin_loop (rbin : list Z) (i ln : Z) (array : list Z) : outcome (Z * list Z) :=
  match rbin with
  | [] => Ok (ln, array)
  | c :: t =>
      let exp := u8 (i mod 8) in
      let n := u8 (i / 8) in
      if c =? 49 then
        let! old := aget array (ln - n - 1) in
        let! array' := aset array (ln - n - 1) (Z.lor old (Z.shiftl 1 exp)) in
        fromBin_loop t (i + 1) ln array'
      else if c =? 48 then fromBin_loop t (i + 1) ln array
      else Ok (0, array)
  end.

(** Conversion.cpp:133-161 [fromBin(bin, binLen, array, arraySize)]. *)
Definition fromBin (bin array : list Z) : outcome (Z * list Z) :=
  if len array * 8 <? len bin then Ok (0, array)
  else
    let ln := len bin / 8 + (if len bin mod 8 =? 0 then 0 else 1) in
    fromBin_loop (rev bin) 0 ln (zeros (length array)).

(** Conversion.cpp:170-176: the eight characters of one byte (written at 7-j for j = 0..7). *)
Definition bin_char (b j : Z) : Z := if Z.land (Z.shiftr b j) 1 =? 1 then 49 else 48.
Definition bin_byte (b : Z) : list Z := map (bin_char b) [7; 6; 5; 4; 3; 2; 1; 0].

(** Conversion.cpp:163-179 [toBin(array, arraySize, output, outputSize)]. *)
Definition toBin (array output : list Z) : Z * list Z :=
  if len output <? len array * 8 then (0, output)
  else (8 * len array,
        flat_map bin_byte array ++ zeros (Z.to_nat (len output - 8 * len array))).

(** * Base 58 and base 43 *)

(** Conversion.cpp:13-15. *)
Definition BASE58_CHARS : list Z :=
  chars "123456789ABCDEFGHJKLMNPQRSTUVWXYZabcdefghijkmnopqrstuvwxyz".
Definition BASE43_CHARS : list Z :=
  chars "0123456789ABCDEFGHIJKLMNOPQRSTUVWXYZ$*+-./:".
Definition BASE64_CHARS : list Z :=
  chars "ABCDEFGHIJKLMNOPQRSTUVWXYZabcdefghijklmnopqrstuvwxyz0123456789+/".

(** The base-58 and base-43 functions are the same text with other constants
    (base 58, 183/134, 361/493 against base 43, 148/100, 68/100); they are
    modelled once, with the constants as parameters. *)
Record base_params := { bp_base : Z; bp_chars : list Z;
                        bp_enum : Z; bp_eden : Z;   (* encoder size estimate *)
                        bp_dnum : Z; bp_dden : Z }. (* decoder size estimate *)
Definition p58 := {| bp_base := 58; bp_chars := BASE58_CHARS;
                     bp_enum := 183; bp_eden := 134; bp_dnum := 361; bp_dden := 493 |}.
Definition p43 := {| bp_base := 43; bp_chars := BASE43_CHARS;
                     bp_enum := 148; bp_eden := 100; bp_dnum := 68; bp_dden := 100 |}.

Definition char_at (tbl : list Z) (d : Z) : Z := nth (Z.to_nat d) tbl 0.

(** Conversion.cpp:258-261, 486-489: leading zero bytes. *)
Definition zero_count (array : list Z) : nat := count_while (fun b => b =? 0) array.

(** Conversion.cpp:284-288, 511-515: one pass of long division over the buffer. *)
Fixpoint div_pass (base rem : Z) (buffer : list Z) : Z * list Z :=
  match buffer with
  | [] => (rem, [])
  | b :: t =>
      let temp := u16 (rem * 256 + b) in
      let '(r, t') := div_pass base (temp mod base) t in
      (r, u8 (temp / base) :: t')
  end.

(** Conversion.cpp:281-290, 508-517: [size] passes; pass j writes the character
    at position size+zeroCount-j-1, so each new character goes in front. *)
Fixpoint digit_loop (p : base_params) (n : nat) (buffer acc : list Z) : list Z :=
  match n with
  | O => acc
  | S n' =>
      let '(r, buffer') := div_pass (bp_base p) 0 buffer in
      digit_loop p n' buffer' (char_at (bp_chars p) r :: acc)
  end.

(** Conversion.cpp:250, 265, 479, 493. *)
Definition enc_size (p : base_params) (array : list Z) : Z :=
  u64 ((len array - Z.of_nat (zero_count array)) * bp_enum p) / bp_eden p + 1.
(** Conversion.cpp:234-253, 471-481 [toBase58Length], [toBase43Length]. *)
Definition toBaseLength (p : base_params) (array : list Z) : Z :=
  enc_size p array + Z.of_nat (zero_count array).

(** Conversion.cpp:255-318 [toBase58], 483-545 [toBase43]. The in-place removal of
    leading zero digits (301-314) is modelled as dropping them; the rest of the
    output buffer is zero (271, 316). *)
Definition toBase (p : base_params) (array output : list Z) : Z * list Z :=
  let zc := zero_count array in
  let size := enc_size p array in
  if len output <? size + Z.of_nat zc then (0, output)
  else
    let digits := digit_loop p (Z.to_nat size) (skipn zc array) [] in
    let zero := char_at (bp_chars p) 0 in
    let shift := count_while (fun c => c =? zero) digits in
    let s := repeat zero zc ++ skipn shift digits in
    (len s, s ++ zeros (length output - length s)).

Definition toBase58 := toBase p58.
Definition toBase43 := toBase p43.

(** Conversion.cpp:362-366, 559-563 [fromBase58Length], [fromBase43Length]. *)
Definition fromBaseLength (p : base_params) (n : Z) : Z := u64 (n * bp_dnum p) / bp_dden p + 1.

(** Conversion.cpp:374-380, 571-577: stop at the first character that [strchr] does not find. *)
Fixpoint valid_prefix (tbl encoded : list Z) : list Z :=
  match encoded with
  | [] => []
  | c :: t => match strchr tbl c with None => [] | Some _ => c :: valid_prefix tbl t end
  end.

(** Conversion.cpp:399-404, 596-601: tmp = tmp * base + val; [tmp] is kept here
    least significant byte first (the code indexes it from the end). *)
Fixpoint mul_pass (base val : Z) (tmp : list Z) : list Z :=
  match tmp with
  | [] => []
  | b :: t =>
      let cur := u16 (u16 (b * base) + val) in
      u8 (cur mod 256) :: mul_pass base (cur / 256) t
  end.

(** Conversion.cpp:395-409, 592-606; the character is always found after [valid_prefix]. *)
Fixpoint mul_loop (p : base_params) (encoded tmp : list Z) : list Z :=
  match encoded with
  | [] => tmp
  | c :: t =>
      match strchr (bp_chars p) c with
      | Some v => mul_loop p t (mul_pass (bp_base p) v tmp)
      | None => tmp
      end
  end.

(** Conversion.cpp:368-426 [fromBase58], 565-623 [fromBase43].
    [zeroCount] and [shift] are uint8_t. *)
Definition fromBase (p : base_params) (encoded output : list Z) : Z * list Z :=
  let enc := valid_prefix (bp_chars p) encoded in
  let size := fromBaseLength p (len enc) in
  let zero := char_at (bp_chars p) 0 in
  let zeroCount := u8 (Z.of_nat (count_while (fun c => c =? zero) enc)) in
  let tmp := rev (mul_loop p enc (zeros (Z.to_nat size))) in
  let shift := u8 (Z.of_nat (count_while (fun b => b =? 0) (skipn (Z.to_nat zeroCount) tmp))) in
  if len output <? size - shift then (0, zeros (length output))
  else
    let r := skipn (Z.to_nat shift) tmp in
    (size - shift, r ++ zeros (length output - length r)).

Definition fromBase58 := fromBase p58.
Definition fromBase43 := fromBase p43.

Section Base58Check.
(** [doubleSha] of Hash.cpp. *)
Variable doubleSha : list Z -> list Z.

(** Conversion.cpp:332-346 [toBase58Check]. *)
Definition toBase58Check (array output : list Z) : Z * list Z :=
  toBase58 (array ++ firstn 4 (doubleSha array)) output.

(** Conversion.cpp:428-450 [fromBase58Check]. *)
Definition fromBase58Check (encoded output : list Z) : Z * list Z :=
  let '(l, arr) := fromBase58 encoded (output ++ zeros 4) in
  if l <? 4 then (0, output)
  else
    let payload := firstn (Z.to_nat (l - 4)) arr in
    let tail := firstn 4 (skipn (Z.to_nat (l - 4)) arr) in
    if list_eq_dec Z.eq_dec tail (firstn 4 (doubleSha payload))
    then (l - 4, payload ++ skipn (Z.to_nat (l - 4)) output)
    else (0, output).
End Base58Check.

(** * Integers *)

(** Conversion.cpp:833-840 [bigEndianToInt]. *)
Fixpoint beInt_loop (num : Z) (array : list Z) : Z :=
  match array with
  | [] => num
  | b :: t => beInt_loop (u64 (u64 (Z.shiftl num 8) + Z.land b 255)) t
  end.
Definition bigEndianToInt (array : list Z) : Z := beInt_loop 0 array.
(** Conversion.cpp:818-825 [littleEndianToInt]. *)
Definition littleEndianToInt (array : list Z) : Z := beInt_loop 0 (rev array).

(** Conversion.cpp:827-831 [intToLittleEndian]: a shift of a uint64_t by 64 or more is UB. *)
Fixpoint intLE_loop (num i : Z) (n : nat) : outcome (list Z) :=
  match n with
  | O => Ok []
  | S n' =>
      if 64 <=? 8 * i then UB
      else let! t := intLE_loop num (i + 1) n' in
           Ok (Z.land (Z.shiftr num (8 * i)) 255 :: t)
  end.
Definition intToLittleEndian (num : Z) (arraySize : nat) : outcome (list Z) :=
  intLE_loop num 0 arraySize.
(** Conversion.cpp:842-846 [intToBigEndian]. *)
Definition intToBigEndian (num : Z) (arraySize : nat) : outcome (list Z) :=
  let! l := intLE_loop num 0 arraySize in Ok (rev l).

(** * Variable-length integers *)

(** Conversion.cpp:850-861 [lenVarInt]. *)
Definition lenVarInt (num : Z) : Z :=
  if num <? 253 then 1
  else if Z.shiftr num 16 =? 0 then 3
  else if Z.shiftr num 32 =? 0 then 5
  else 9.

(** Conversion.cpp:862-872 [readVarInt(array, arraySize)]; the array has arraySize bytes. *)
Definition readVarInt (array : list Z) : outcome Z :=
  let! b := aget array 0 in
  if b <? 253 then Ok b
  else
    let l := Z.shiftl 1 (b - 252) in
    if len array <? l + 1 then Ok 0
    else Ok (littleEndianToInt (firstn (Z.to_nat l) (skipn 1 array))).

(** Conversion.cpp:875-894 [writeVarInt(num, array, arraySize)]. *)
Definition writeVarInt (num : Z) (array : list Z) : outcome (Z * list Z) :=
  let l := lenVarInt num in
  if len array <? l then Ok (0, array)
  else if l =? 1 then Ok (1, u8 (Z.land num 255) :: skipn 1 array)
  else
    let marker := if l =? 3 then 253 else if l =? 5 then 254 else 255 in
    let! body := intToLittleEndian num (Z.to_nat (l - 1)) in
    Ok (l, marker :: body ++ skipn (Z.to_nat l) array).

(** * Base 64 *)

(** Flags (Conversion.h): the two bits [BASE64_NOPADDING] and [BASE64_URLSAFE]. *)
Record b64_flags := { nopad : bool; urlsafe : bool }.

(** Conversion.cpp:637-648 [toBase64Length]. *)
Definition toBase64Length (n : Z) (fl : b64_flags) : Z :=
  let v := (n / 3) * 4 in
  if n mod 3 =? 0 then v
  else if nopad fl then v + (n mod 3 + 1) else v + 4.

Definition b64_char (v : Z) (i : Z) : Z :=
  char_at BASE64_CHARS (Z.land (Z.shiftr v (6 * (3 - i))) 63).

(** Conversion.cpp:656-683. One step per group of three bytes as long as more
    bytes follow (656); then the last group (664-683). With no byte left (arraySize = 0)
    the code reads three bytes past the array: UB. '=' = 61. *)
Fixpoint toBase64_loop (fl : b64_flags) (array : list Z) : outcome (list Z) :=
  match array with
  | a :: b :: c :: ((_ :: _) as t) =>
      let v := u32 (bigEndianToInt [a; b; c]) in
      let! r := toBase64_loop fl t in
      Ok (map (b64_char v) [0; 1; 2; 3] ++ r)
  | [a; b; c] =>
      let v := u32 (bigEndianToInt [a; b; c]) in
      Ok (map (b64_char v) [0; 1; 2; 3])
  | [a; b] =>
      let v := u32 (Z.shiftl (u32 (bigEndianToInt [a; b])) 8) in
      Ok (map (b64_char v) [0; 1; 2] ++ (if nopad fl then [] else [61]))
  | [a] =>
      let v := u32 (Z.shiftl (u32 (bigEndianToInt [a])) 16) in
      Ok (map (b64_char v) [0; 1] ++ (if nopad fl then [] else [61; 61]))
  | [] => UB
  end.

(** Conversion.cpp:685-694: '+' -> '-', '/' -> '_'. *)
Definition url_enc (fl : b64_flags) (c : Z) : Z :=
  if urlsafe fl then (if c =? 43 then 45 else if c =? 47 then 95 else c) else c.

(** Conversion.cpp:649-696 [toBase64(array, arraySize, output, outputSize, flags)]. *)
Definition toBase64 (fl : b64_flags) (array output : list Z) : outcome (Z * list Z) :=
  if len output <? toBase64Length (len array) fl then Ok (0, zeros (length output))
  else
    let! s := toBase64_loop fl array in
    let s' := map (url_enc fl) s in
    Ok (len s', s' ++ zeros (length output - length s')).

(** Conversion.cpp:709-726 [fromBase64Length(array, arraySize, flags)]. *)
Definition fromBase64Length (fl : b64_flags) (array : list Z) : outcome Z :=
  let n := len array in
  if negb (n mod 4 =? 0) && negb (nopad fl) then Ok 0
  else
    let v := (n / 4) * 3 in
    if nopad fl then Ok (if n mod 4 =? 0 then v else v + (n mod 4 - 1))
    else
      let! c1 := aget array (n - 1) in
      let! c2 := aget array (n - 2) in
      Ok (v - (if c1 =? 61 then 1 else 0) - (if c2 =? 61 then 1 else 0)).

(** Result of decoding one group of four characters. *)
Inductive b64_group_result :=
| GFull (val : Z)           (* four digits *)
| GLast (bytes : list Z)    (* padding met: final bytes *)
| GFail                     (* illegal: output cleared, 0 returned *)
| GUB.                      (* read past the end of the string *)

(** Conversion.cpp:740-776. [cs] is the string from position cur*4+i on,
    including the terminating NUL. *)
Fixpoint b64_group (fl : b64_flags) (k : nat) (i val : Z) (cs : list Z) : b64_group_result :=
  match k with
  | O => GFull val
  | S k' =>
      match cs with
      | [] => GUB
      | c0 :: t =>
          let c1 := if (c0 =? 45) && urlsafe fl then 43 else c0 in
          let c := if (c1 =? 95) && urlsafe fl then 47 else c1 in
          match strchr BASE64_CHARS c with
          | Some p =>
              if nopad fl && (c =? 0) then
                (if i =? 3 then GLast [Z.land (Z.shiftr (Z.shiftr val 2) 8) 255; Z.land (Z.shiftr val 2) 255]
                 else if i =? 2 then GLast [Z.land (Z.shiftr val 4) 255]
                 else GFail)
              else b64_group fl k' (i + 1) (u32 (u32 (Z.shiftl val 6) + Z.land p 63)) t
          | None =>
              if c0 =? 61 then
                (if i =? 3 then GLast [Z.land (Z.shiftr (Z.shiftr val 2) 8) 255; Z.land (Z.shiftr val 2) 255]
                 else if i =? 2 then GLast [Z.land (Z.shiftr val 4) 255]
                 else GFail)
              else GFail
          end
      end
  end.

(** Conversion.cpp:734-784; [rest] is the string from position cur*4 on without
    the terminating NUL, [acc] the bytes written so far. [None]: output cleared, 0 returned. *)
Fixpoint fromBase64_loop (fuel : nat) (fl : b64_flags) (rest acc : list Z) (outputSize : Z)
  : outcome (option (list Z)) :=
  match rest with
  | [] => Ok (Some acc)
  | _ :: _ =>
      match fuel with
      | O => UB
      | S fuel' =>
          if (len rest <? 4) && negb (nopad fl) then Ok None
          else
            match b64_group fl 4 0 0 (rest ++ [0]) with
            | GUB => UB
            | GFail => Ok None
            | GLast bs => if outputSize <? len acc + len bs then Ok None else Ok (Some (acc ++ bs))
            | GFull v =>
                if outputSize <? len acc + 3 then Ok None
                else
                  let! bs := intToBigEndian v 3 in
                  fromBase64_loop fuel' fl (skipn 4 rest) (acc ++ bs) outputSize
            end
      end
  end.

(** Conversion.cpp:727-785 [fromBase64(encoded, encodedSize, output, outputSize, flags)].
    The string is NUL-terminated after encodedSize characters (as [String] guarantees). *)
Definition fromBase64 (fl : b64_flags) (encoded output : list Z) : outcome (Z * list Z) :=
  let! l := fromBase64Length fl encoded in
  if len output <? l then Ok (0, zeros (length output))
  else
    let! r := fromBase64_loop (length encoded) fl encoded [] (len output) in
    match r with
    | None => Ok (0, zeros (length output))
    | Some bs => Ok (len bs, bs ++ zeros (length output - length bs))
    end.
