(** Places where a script or a witness may not be cut, independent of the model. *)
From Verif Require Import Base.Bytes Spec.Codecs Spec.Wire.
Open Scope Z_scope.

(** A script or a witness element of [n] bytes follows its length. When [left] bytes of both are still
    to come and [k] bytes of the length have been read, the marker byte and the
    [k - 1] low bytes of [n], the cut is unlucky if these spell [k - 1]: then it
    seems to end here. For [n] under 253 no cut is unlucky. *)
Definition unlucky (n left : Z) : Prop :=
  let k := len (compact_size n) + n - left in
  1 <= k < len (compact_size n) /\ n mod 2^(8 * (k - 1)) = k - 1.

(** [k] bytes of the wire form of a witness end at such a place inside the length
    of one of its elements. *)
Definition unlucky_at (els : list (list Z)) (k : Z) : Prop :=
  exists els1 e els2, els = els1 ++ e :: els2 /\
    let j := k - len (compact_size (len els)) - len (flat_map wire_bytes els1) in
    0 < j < len (compact_size (len e)) /\ len e mod 2^(8 * (j - 1)) = j - 1.
