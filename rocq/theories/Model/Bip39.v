(** Mnemonics: src/utility/trezor/bip39.c and src/Bitcoin.cpp:23-95.

    A C string is the list of its characters before the terminating zero. Strings of 2^32 or more
    characters (on which the first loop of mnemonic_to_entropy never ends, its index being a
    uint32_t) are outside the model. *)
From Verif Require Import Base.Bytes Model.Script Model.Hash Model.WordList.
Open Scope Z_scope.

(** bip39.c:80-84: the [n] remaining turns of the inner loop from bit [pos] on. *)
Fixpoint word_index (n : nat) (bits : list Z) (pos idx : Z) : outcome Z :=
  match n with
  | O => Ok idx
  | S n' =>
      let! b := aget bits (pos / 8) in
      let bit := if 0 <? Z.land b (Z.shiftl 1 (7 - pos mod 8)) then 1 else 0 in
      word_index n' bits (pos + 1) (idx * 2 + bit)
  end.
(** bip39.c:79-89: words [i], ..., [mlen]-1; [out] is what mnemo holds before p. The buffer has
    240 characters (line 61); strcpy writes the terminating zero too. *)
Fixpoint words_out (n : nat) (bits : list Z) (i mlen : Z) (out : list Z) : outcome (list Z) :=
  match n with
  | O => Ok out
  | S n' =>
      let! idx := word_index 11 bits (i * 11) 0 in
      match nth_error wordlist (Z.to_nat idx) with
      | None => UB
      | Some w =>
          if 240 <? len out + len w + 1 then UB
          else words_out n' bits (i + 1) mlen (out ++ w ++ (if i <? mlen - 1 then [32] else []))
      end
  end.
(** bip39.c:63-95. None is the null pointer. [junk] is bits[32] before it is set. *)
Definition mnemonic_from_data (junk : Z) (data : list Z) (ln : Z) : outcome (option (list Z)) :=
  if negb (ln mod 4 =? 0) || (ln <? 16) || (32 <? ln) then Ok None
  else if len data <? ln then UB
  else
    let data := firstn (Z.to_nat ln) data in
    let bits := sha256 data ++ [junk] in
    let! b0 := aget bits 0 in
    let! bits := aset bits ln b0 in
    let! bits := write_at bits 0 data in
    let mlen := ln * 3 / 4 in
    let! s := words_out (Z.to_nat mlen) bits 0 mlen [] in
    Ok (Some s).
(** bip39.c:49-59; [rnd] is what random_buffer puts into data[32]. *)
Definition mnemonic_generate (junk : Z) (rnd : list Z) (strength : Z) : outcome (option (list Z)) :=
  if negb (strength mod 32 =? 0) || (strength <? 128) || (256 <? strength) then Ok None
  else mnemonic_from_data junk rnd (strength / 8).

(** bip39.c:110-115 and Bitcoin.cpp:44-49: the number of spaces. *)
Fixpoint spaces (s : list Z) : Z :=
  match s with
  | [] => 0
  | c :: t => (if c =? 32 then 1 else 0) + spaces t
  end.
(** bip39.c:130-137: the word up to a space or the end, and what follows; None is return 0. The
    test keeps j below sizeof(current_word)-1 = 9. *)
Fixpoint take_word (j : Z) (s : list Z) : option (list Z * list Z) :=
  match s with
  | [] => Some ([], [])
  | c :: t =>
      if c =? 32 then Some ([], s)
      else if 9 <=? j then None
      else match take_word (j + 1) t with
           | None => None
           | Some (w, r) => Some (c :: w, r)
           end
  end.
(** bip39.c:142-147, 155: the index of the word in the list. *)
Fixpoint find_word (k : Z) (l : list (list Z)) (w : list Z) : option Z :=
  match l with
  | [] => None
  | x :: t => if list_eq_dec Z.eq_dec w x then Some k else find_word (k + 1) t w
  end.
(** bip39.c:147-152: [n] more bits of [k]. *)
Fixpoint put_bits (n : nat) (k : Z) (bits : list Z) (bi : Z) : outcome (list Z * Z) :=
  match n with
  | O => Ok (bits, bi)
  | S n' =>
      let! bits :=
        if negb (Z.land k (Z.shiftl 1 (Z.of_nat n')) =? 0) then
          let! b := aget bits (bi / 8) in aset bits (bi / 8) (Z.lor b (Z.shiftl 1 (7 - bi mod 8)))
        else Ok bits in
      put_bits n' k bits (bi + 1)
  end.
(** bip39.c:128-157; [fuel] bounds the number of words. None is return 0. *)
Fixpoint words_in (fuel : nat) (s bits : list Z) (bi : Z) : outcome (option (list Z * Z)) :=
  match s, fuel with
  | [], _ => Ok (Some (bits, bi))
  | _, O => UB
  | _, S fuel' =>
      match take_word 0 s with
      | None => Ok None
      | Some (w, r) =>
          match find_word 0 wordlist w with
          | None => Ok None
          | Some k =>
              let! r' := put_bits 11 k bits bi in
              words_in fuel' (match r with [] => [] | _ :: t => t end) (fst r') (snd r')
          end
      end
  end.
(** bip39.c:102-164. None is return 0 (the array is then left alone); else the number of bits and
    the 33 bytes written. *)
Definition mnemonic_to_entropy (s : list Z) : outcome (option (Z * list Z)) :=
  let n := u32 (spaces s + 1) in
  if negb (n =? 12) && negb (n =? 18) && negb (n =? 24) then Ok None
  else
    let! r := words_in (length s) s (zeros 33) 0 in
    match r with
    | None => Ok None
    | Some (bits, bi) => if negb (bi =? n * 11) then Ok None else Ok (Some (n * 11, bits))
    end.
(** bip39.c:166-185. *)
Definition mnemonic_check (s : list Z) : outcome bool :=
  let! r := mnemonic_to_entropy s in
  match r with
  | None => Ok false
  | Some (seed_len, bits) =>
      let words := seed_len / 11 in
      let! checksum := aget bits (words * 4 / 3) in
      let h := sha256 (firstn (Z.to_nat (words * 4 / 3)) bits) in
      let! h0 := aget h 0 in
      if words =? 12 then Ok (Z.land h0 0xF0 =? Z.land checksum 0xF0)
      else if words =? 18 then Ok (Z.land h0 0xFC =? Z.land checksum 0xFC)
      else if words =? 24 then Ok (h0 =? checksum)
      else Ok false
  end.

(** * Bitcoin.cpp *)

(** Bitcoin.cpp:23-29. *)
Definition generateMnemonic_random (junk : Z) (rnd : list Z) (numWords : Z) : outcome (option (list Z)) :=
  if (numWords <? 12) || (24 <? numWords) || negb (numWords mod 3 =? 0) then Ok None
  else mnemonic_generate junk rnd (numWords * 32 / 3).
(** Bitcoin.cpp:30-38. *)
Definition generateMnemonic (junk : Z) (numWords : Z) (data : list Z) : outcome (option (list Z)) :=
  if (numWords <? 12) || (24 <? numWords) || negb (numWords mod 3 =? 0) then Ok None
  else mnemonic_from_data junk (sha256 data) (numWords * 4 / 3).
(** Bitcoin.cpp:40-42: the length is converted from size_t to int. *)
Definition mnemonicFromEntropy (junk : Z) (data : list Z) : outcome (option (list Z)) :=
  mnemonic_from_data junk data (i32 (len data)).
(** Bitcoin.cpp:43-61: the bytes written to the output, as many as the returned length; nothing
    when it returns 0. num_words is an int: num_words*4 may overflow. *)
Definition mnemonicToEntropy (s : list Z) (outputLen : Z) : outcome (list Z) :=
  let num_words := 1 + spaces s in
  if 2 ^ 31 <=? num_words * 4 then UB
  else
    let entropy_len := num_words * 4 / 3 in
    if outputLen <? entropy_len then Ok []
    else
      let! r := mnemonic_to_entropy s in
      match r with
      | None => Ok []
      | Some (_, res) => if 33 <? entropy_len then UB else Ok (firstn (Z.to_nat entropy_len) res)
      end.
(** Bitcoin.cpp:82-84, 92-94. *)
Definition checkMnemonic : list Z -> outcome bool := mnemonic_check.

(** * The seed cache (bip39.c:36-47, 192-203, 221-230; options.h:59-62) *)

Record centry := mkCe { ce_set : bool; ce_mnemonic : list Z; ce_passphrase : list Z; ce_seed : list Z }.
(** bip39_cache_index and the four entries. *)
Definition seed_cache : Type := Z * list centry.
Definition seed_cache0 : seed_cache := (0, repeat (mkCe false [] [] []) 4).
(** bip39.c:195-202. *)
Fixpoint cache_find (l : list centry) (m p : list Z) : option (list Z) :=
  match l with
  | [] => None
  | e :: t =>
      if ce_set e && (if list_eq_dec Z.eq_dec (ce_mnemonic e) m then true else false)
         && (if list_eq_dec Z.eq_dec (ce_passphrase e) p then true else false)
      then Some (ce_seed e) else cache_find t m p
  end.
Fixpoint cache_put (l : list centry) (i : nat) (e : centry) : list centry :=
  match l, i with
  | [], _ => []
  | _ :: t, O => e :: t
  | x :: t, S i' => x :: cache_put t i' e
  end.
(** bip39.c:188-231 with the cache. *)
Definition mnemonic_to_seed_cached (junk : list Z) (c : seed_cache) (m p : list Z) : outcome (list Z * seed_cache) :=
  let small := (len m <? 256) && (len p <? 64) in
  match (if small then cache_find (snd c) m p else None) with
  | Some seed => Ok (seed, c)
  | None =>
      let! seed := mnemonic_to_seed junk m p in
      Ok (seed, if small then ((fst c + 1) mod 4, cache_put (snd c) (Z.to_nat (fst c)) (mkCe true m p seed)) else c)
  end.
(** A program's calls of mnemonic_to_seed, one after another; [junk] is what the static context
    holds when a call starts. *)
Fixpoint seed_calls (c : seed_cache) (calls : list (list Z * list Z * list Z)) : outcome (list (list Z)) :=
  match calls with
  | [] => Ok []
  | (junk, m, p) :: t =>
      let! r := mnemonic_to_seed_cached junk c m p in
      let! rest := seed_calls (snd r) t in
      Ok (fst r :: rest)
  end.
