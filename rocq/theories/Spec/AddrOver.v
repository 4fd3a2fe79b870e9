(** The texts whose reading as an address overruns a buffer. *)
From Verif Require Import Base.Bytes Spec.Bech32.
Open Scope Z_scope.

(** Printable ASCII, and the characters of bech32 in either case. *)
Definition visible (c : Z) : Prop := 33 <= c <= 126.
Definition bech_char (c : Z) : Prop := exists v, value_ok v /\ (c = symbol v \/ (is_upper c = true /\ c + 32 = symbol v)).

(** At most 100 characters, starting with "bc" or "tb", and one of:
    85 characters or more without the separator '1', the first 85 printable;
    84 characters or more before the last '1', the first 85 printable, and 6 or more behind it;
    91 characters or more behind the last '1', the first 85 bech32 characters, and printable ones before;
    a good checksum, a version up to 16 and a program of more than 32 bytes, rounded down. *)
Definition overruns (a : list Z) : Prop :=
  len a <= 100 /\ exists p, (p = chars "bc" \/ p = chars "tb") /\ firstn 2 a = p /\
  ((~ In 49 a /\ 85 <= len a /\ Forall visible (firstn 85 a)) \/
   (exists pre suf, a = pre ++ 49 :: suf /\ ~ In 49 suf /\ 84 <= len pre /\ 6 <= len suf /\ Forall visible (firstn 85 pre)) \/
   (exists pre suf, a = pre ++ 49 :: suf /\ ~ In 49 suf /\ Forall visible pre /\ 91 <= len suf /\ Forall bech_char (firstn 85 suf)) \/
   (exists vals, a = bech32_text p vals /\ Forall value_ok vals /\ checksum_ok p vals /\ hd 0 vals <= 16 /\ 60 <= len vals <= 71)).
