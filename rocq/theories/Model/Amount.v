(** TxOut::btcAmount(). *)
From Verif Require Import Base.Bytes.
Open Scope Z_scope.

(** IEEE 754 numbers that are not negative, as integers: [v] stands for v / 2^100. Every float and double met here is such a
    number: the results are 0 or between 2^-27 and 2^64, and have at most 53 digits. *)
Definition unit_bits : Z := 100.
(** The number with [p] binary digits nearest to n / d, the one with an even last digit if there are two:
    IEEE 754 (4.3.1), the rounding of conversions and divisions. For n / d >= 2^(p-1). *)
Definition rnd (p n d : Z) : Z :=
  let u := 2 ^ (Z.log2 (n / d) + 1 - p) in
  let m := n / (d * u) in
  let r := n mod (d * u) in
  if 2 * r <? d * u then m * u else if d * u <? 2 * r then (m + 1) * u else if Z.even m then m * u else (m + 1) * u.
(** Bitcoin.h:643 [btcAmount]: [(float)amount], which the division by the double 1e8 turns into a double, and the conversion of the
    quotient to the float returned. [dp] is the precision of a double: 53 digits, or 24 on boards where it is a float.
    Simplified: intermediate results have the precision of their type (FLT_EVAL_METHOD 0). *)
Definition btcAmount (dp amount : Z) : Z :=
  if amount =? 0 then 0
  else rnd 24 (rnd dp (rnd 24 (amount * 2 ^ unit_bits) 1) (10 ^ 8)) 1.
