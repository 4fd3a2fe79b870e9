(** The String versions of the conversions: src/Conversion.cpp with USE_STD_STRING. Each allocates a buffer, calls the version
    that writes into a buffer and makes a String of it. size_t has 64 bits. [malloc] is taken to succeed. *)
From Verif Require Import Base.Bytes Model.Conversion.
Open Scope Z_scope.

(** [String(buf)]: the characters up to the first NUL. Without one the constructor reads past the buffer: UB. *)
Fixpoint c_string (buf : list Z) : outcome (list Z) :=
  match buf with
  | [] => UB
  | c :: t => if c =? 0 then Ok [] else let! s := c_string t in Ok (c :: s)
  end.

Section Strings.
(** What is in the [n] bytes that malloc returns. *)
Variable heap : nat -> list Z.
(** Hash.cpp [doubleSha]. *)
Variable doubleSha : list Z -> list Z.

(** Conversion.cpp:39-53. *)
Definition toHex_string (array : list Z) : outcome (list Z) :=
  c_string (snd (toHex array (heap (Z.to_nat (u64 (len array * 2 + 1)))))).
(** Conversion.cpp:181-195. *)
Definition toBin_string (array : list Z) : outcome (list Z) :=
  c_string (snd (toBin array (heap (Z.to_nat (u64 (len array * 8 + 1)))))).
(** Conversion.cpp:320-329. *)
Definition toBase58_string (array : list Z) : outcome (list Z) :=
  c_string (snd (toBase58 array (heap (Z.to_nat (u64 (toBaseLength p58 array + 1)))))).
(** Conversion.cpp:348-357. toBase58Length is told of four bytes more than [array] has (350). It stops at the first byte
    that is not zero (237-239) and uses only the number of bytes after that (250); if there is none it reads past the
    array: UB. *)
Definition toBase58Check_string (array : list Z) : outcome (list Z) :=
  if (zero_count array =? length array)%nat then UB
  else c_string (snd (toBase58Check doubleSha array (heap (Z.to_nat (u64 (toBaseLength p58 (array ++ zeros 4) + 1)))))).
(** Conversion.cpp:547-556: calloc, and one character less is told to toBase43. *)
Definition toBase43_string (array : list Z) : outcome (list Z) :=
  c_string (snd (toBase43 array (zeros (Z.to_nat (toBaseLength p43 array)))) ++ [0]).
(** Conversion.cpp:698-707. *)
Definition toBase64_string (fl : b64_flags) (array : list Z) : outcome (list Z) :=
  let! r := toBase64 fl array (heap (Z.to_nat (u64 (toBase64Length (len array) fl + 1)))) in
  c_string (snd r).
End Strings.
