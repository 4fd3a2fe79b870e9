(** Words used to state C94. *)
From Verif Require Import Base.Bytes Model.Amount.
Open Scope Z_scope.

(** [v] differs from amount / 10^8 by at most the part 1 / k of it. *)
Definition within (k amount v : Z) : Prop := k * Z.abs (v * 10 ^ 8 - amount * 2 ^ unit_bits) <= amount * 2 ^ unit_bits.
(** [amount] is the one whole number of satoshis nearest to the [v] bitcoins shown: nearer than half a satoshi. *)
Definition nearest_satoshi (amount v : Z) : Prop := 2 * Z.abs (v * 10 ^ 8 - amount * 2 ^ unit_bits) < 2 ^ unit_bits.
