(** BIP39, written from its text. *)
From Verif Require Import Base.Bytes Base.Groups.
Open Scope Z_scope.

(** The bits of bytes, most significant first. *)
Definition byte_bits (b : Z) : list bool :=
  [Z.testbit b 7; Z.testbit b 6; Z.testbit b 5; Z.testbit b 4;
   Z.testbit b 3; Z.testbit b 2; Z.testbit b 1; Z.testbit b 0].
Definition bits_of (l : list Z) : list bool := flat_map byte_bits l.
(** The number that bits denote, most significant first. *)
Definition bits_val (l : list bool) : Z := be_val 2 (map Z.b2z l).
(** "A checksum is generated by taking the first ENT/32 bits of its SHA256 hash [and] appended to
    the end of the initial entropy. These concatenated bits are split into groups of 11 bits,
    each encoding a number from 0-2047, serving as an index into a wordlist." ENT is in bits. *)
Definition bip39_bits (sha : list Z -> list Z) (entropy : list Z) : list bool :=
  bits_of entropy ++ firstn (8 * length entropy / 32) (bits_of (sha entropy)).
Definition bip39_indices (sha : list Z -> list Z) (entropy : list Z) : list Z :=
  map bits_val (groups 11 (bip39_bits sha entropy)).
(** Words with one space (32) between them. *)
Fixpoint join_words (ws : list (list Z)) : list Z :=
  match ws with
  | [] => []
  | [w] => w
  | w :: t => w ++ [32] ++ join_words t
  end.
Definition bip39_sentence (sha : list Z -> list Z) (words : list (list Z)) (entropy : list Z) : list Z :=
  join_words (map (fun i => nth (Z.to_nat i) words []) (bip39_indices sha entropy)).
(** Lexicographic order on words. *)
Fixpoint word_lt (a b : list Z) : bool :=
  match a, b with
  | _, [] => false
  | [], _ => true
  | x :: a', y :: b' => if x =? y then word_lt a' b' else x <? y
  end.
Fixpoint increasing (l : list (list Z)) : bool :=
  match l with
  | x :: ((y :: _) as t) => word_lt x y && increasing t
  | _ => true
  end.
