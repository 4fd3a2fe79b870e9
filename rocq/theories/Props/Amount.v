(** C94: the amount of an output in bitcoins. *)
From Coq Require Import Lia.
From Verif Require Import Base.Bytes Base.BytesFacts Model.Amount Spec.Amount Proof.AmountFacts.
Open Scope Z_scope.

(** In full: btcAmount() tells the amount, so that the satoshis can be read off it. Proved up to an eighth of a
    bitcoin, whichever precision a double has; *)
Theorem C94_small_partial : forall dp a, dp = 53 \/ dp = 24 -> 0 <= a <= 12500000 -> nearest_satoshi a (btcAmount dp a).
Proof. exact small_exact. Qed.
Print Assumptions C94_small_partial.
Theorem C94_small_differ_partial : forall dp a b, dp = 53 \/ dp = 24 -> 0 <= a <= 12500000 -> 0 <= b <= 12500000 -> btcAmount dp a = btcAmount dp b -> a = b.
Proof. exact small_unique. Qed.
Print Assumptions C94_small_differ_partial.
(** every amount is met up to one part in four million, and a larger amount never looks smaller. *)
Theorem C94_close : forall dp a, dp = 53 \/ dp = 24 -> 0 <= a -> within (2 ^ 22) a (btcAmount dp a).
Proof. exact close. Qed.
Print Assumptions C94_close.
Theorem C94_order : forall dp a b, dp = 53 \/ dp = 24 -> 0 <= a <= b -> btcAmount dp a <= btcAmount dp b.
Proof. exact monotone. Qed.
Print Assumptions C94_order.
(** Above an eighth of a bitcoin, of every five amounts in a row two look the same: the bound is the best one. *)
Theorem C94_five_refuted : forall dp a, dp = 53 \/ dp = 24 -> 12500000 <= a -> exists b, a <= b < a + 4 /\ btcAmount dp b = btcAmount dp (b + 1).
Proof. exact five. Qed.
Print Assumptions C94_five_refuted.
(** From 2^25 satoshis (a third of a bitcoin) on, no amount is told from both its neighbours; *)
Theorem C94_neighbour_refuted : forall dp a, 2 ^ 25 <= a -> exists b, (b = a - 1 \/ b = a + 1) /\ btcAmount dp b = btcAmount dp a.
Proof. exact neighbour. Qed.
Print Assumptions C94_neighbour_refuted.
(** and the larger the amount, the more is not shown: anything below half of the last of 24 binary digits. *)
Theorem C94_hidden_refuted : forall dp m e k, 0 <= e -> 2 ^ 23 <= m < 2 ^ 24 -> 0 <= k -> 2 * k < 2 ^ e ->
  btcAmount dp (m * 2 ^ e + k) = btcAmount dp (m * 2 ^ e).
Proof. exact look_same. Qed.
Print Assumptions C94_hidden_refuted.

(** One bitcoin and one satoshi are the floats nearest to 1 and 0.00000001, 11258999 * 2^-50; of 20 million bitcoins more than
    half a bitcoin is not shown. *)
Example C94_case : btcAmount 53 (10 ^ 8) = 2 ^ 100 /\ btcAmount 53 1 = 11258999 * 2 ^ 50 /\ btcAmount 24 1 = 11258999 * 2 ^ 50 /\
  btcAmount 53 123456789 = 10356306 * 2 ^ 77 /\
  btcAmount 53 (14901161 * 2 ^ 27) = btcAmount 53 (14901161 * 2 ^ 27 + 67108863) /\ 2000000 * 10 ^ 9 <= 14901162 * 2 ^ 27 /\
  btcAmount 53 (10 ^ 9) = btcAmount 53 (10 ^ 9 + 31) /\ btcAmount 53 12500000 <> btcAmount 53 12499999 /\
  btcAmount 53 12500002 = btcAmount 53 12500001.
Proof. vm_compute. repeat split; discriminate. Qed.
