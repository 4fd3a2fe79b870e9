(** Objects as text: hexadecimal (BaseClasses) and base64 (PSBT). *)
From Verif Require Import Base.Bytes Model.Conversion Model.Stream Model.Tx Model.PSBT.
Open Scope Z_scope.

(** A String made from a char array ends at the first NUL. *)
Fixpoint cstr (l : list Z) : list Z :=
  match l with
  | [] => []
  | c :: t => if c =? 0 then [] else c :: cstr t
  end.

(** BaseClasses.cpp:167-170 in hexadecimal: what [ser] writes, from [off] on, into a cleared buffer of [n] characters. *)
Definition serialize_hex (ser : serializer) (n : nat) (off : Z) : outcome (list Z) :=
  let! out := ser (Some (Z.to_nat (sb_available (sb_new (zeros n) HEX)))) off in
  let! w := sb_write_n (sb_new (zeros n) HEX) out in
  Ok (sb_buf (snd w)).
(** BaseClasses.cpp:142-149 [Readable::toString] with BaseClasses.h:119-121 and 131; [length] is length(). *)
Definition to_string (ser : serializer) (length : Z) : outcome (list Z) :=
  let! b := serialize_hex ser (Z.to_nat (2 * length + 1)) 0 in Ok (cstr b).
(** BaseClasses.cpp:155-164 [String Streamable::serialize(offset, len)], size_t of 64 bits. 2^62 bytes and more cannot be
    allocated: calloc returns NULL, and BaseClasses.cpp:161 makes a String from it. *)
Definition to_hex (ser : serializer) (length off n : Z) : outcome (list Z) :=
  let l := if n =? 0 then u64 (length - off) else n in
  if 2^62 <=? u64 (2 * l) then UB
  else let! b := serialize_hex ser (Z.to_nat (u64 (2 * l))) off in Ok (cstr (b ++ [0])).

(** What a parser gets from a stream: the first [n] results of [s->read()], each converted to uint8_t, as long as
    [s->available()]. (Script.cpp:292, 587 and HDWallet.cpp:193, 630 use the int that read() returns.) *)
Fixpoint seen (n : nat) (s : pbs) : outcome (list Z) :=
  match n with
  | O => Ok []
  | S n' =>
      if 0 <? pb_available s then
        let! r := pb_read s in
        let! l := seen n' (snd r) in Ok (u8 (fst r) :: l)
      else Ok []
  end.
(** BaseClasses.h:140-143, 145-147, 150-152 and 160-162: parse(text) by a parser that reads at most [n] bytes. *)
Definition text_parse {A} (parse : A -> list Z -> outcome (A * Z * list Z)) (n : nat) (a : A) (text : list Z) : outcome (A * Z * list Z) :=
  let! bs := seen n (pb_new (cstr text) HEX) in parse a bs.

(** Conversion.h: BASE64_STANDARD. *)
Definition b64_std : b64_flags := {| nopad := false; urlsafe := false |}.
(** Conversion.cpp:790-798 [base64ToHex] with 39-53 [toHex]. *)
Definition base64ToHex (b64 : list Z) : outcome (list Z) :=
  let! l := fromBase64Length b64_std b64 in
  let! r := fromBase64 b64_std b64 (zeros (Z.to_nat (l + 1))) in
  let bs := firstn (Z.to_nat (fst r)) (snd r) in
  Ok (cstr (snd (toHex bs (zeros (Z.to_nat (2 * len bs + 1)))))).
(** Conversion.cpp:799-807 [hexToBase64] with 697-708 [toBase64]. *)
Definition hexToBase64 (hex : list Z) : outcome (list Z) :=
  let! r := fromHex hex (zeros (Z.to_nat (len hex / 2 + 1))) in
  let bs := firstn (Z.to_nat (fst r)) (snd r) in
  let! t := toBase64 b64_std bs (zeros (Z.to_nat (toBase64Length (len bs) b64_std + 1))) in
  Ok (cstr (snd t)).
(** PSBT.cpp:689-691 [toBase64]. *)
Definition psbt_toBase64 (p : psbt) : outcome (list Z) :=
  let! n := psbt_length p in
  let! s := to_string (psbt_to_stream p) n in
  hexToBase64 s.
Section Psbt.
Variable dsha : list Z -> list Z.
Variable garbage : list Z.
(** PSBT.cpp:684-688 [parseBase64]: the text has two digits for each byte, so no more bytes than its length are read. *)
Definition psbt_parseBase64 (p : psbt) (b64 : list Z) : outcome (psbt * Z) :=
  let! s := base64ToHex b64 in
  let! r := text_parse (psbt_parse dsha garbage) (length s) p s in
  Ok (fst (fst r), len s / 2).
End Psbt.
