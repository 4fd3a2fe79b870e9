(** ecdsa_sig_to_der. *)
From Verif Require Import Base.Bytes Base.BytesFacts Model.Signature Model.SigDer Spec.Signature Spec.Codecs Proof.SigDerFacts.
Open Scope Z_scope.

(** * C97 *)
(** The full statement is about all 64 bytes. For numbers from 1 on the result is the DER encoding of the two numbers
    and nothing else is written; the theorems below say what happens to the number 0. *)
Theorem C97_der_partial : forall rb sb post der x y, length rb = 32%nat -> length sb = 32%nat -> bytes_ok rb -> bytes_ok sb -> be_val 256 rb = x -> be_val 256 sb = y ->
  1 <= x -> 1 <= y -> 72 <= len der ->
  exists d, der_sig x y d /\ 8 <= len d <= 72 /\ ecdsa_sig_to_der (rb ++ sb ++ post) der = Ok (len d, d ++ skipn (length d) der).
Proof. exact sig_to_der_ok. Qed.
Print Assumptions C97_der_partial.
(** It is what the der() of a Signature object gives. *)
Theorem C97_object_partial : forall g x y der, sig_holds g x y -> 1 <= x -> 1 <= y -> 72 <= len der ->
  exists n a b, sig_der g 72 = Ok (n, a) /\ ecdsa_sig_to_der (sg_r g ++ sg_s g) der = Ok (n, b) /\ firstn (Z.to_nat n) a = firstn (Z.to_nat n) b.
Proof. exact object_same. Qed.
Print Assumptions C97_object_partial.
(** The second number 0: the byte behind the 64 is read. *)
Theorem C97_zero_s_refuted : forall rb der, length rb = 32%nat -> ecdsa_sig_to_der (rb ++ zeros 32) der = UB.
Proof. exact zero_s. Qed.
Print Assumptions C97_zero_s_refuted.
(** The first number 0: its encoding is empty, and the result is not the DER encoding of any two numbers. *)
Theorem C97_zero_r_refuted : forall sb post der y, length sb = 32%nat -> bytes_ok sb -> be_val 256 sb = y -> 1 <= y < 2 ^ 255 -> 72 <= len der ->
  exists d, ecdsa_sig_to_der (zeros 32 ++ sb ++ post) der = Ok (len d, d ++ skipn (length d) der) /\ forall x y' rest, ~ der_sig x y' (d ++ rest).
Proof. exact zero_r. Qed.
Print Assumptions C97_zero_r_refuted.
Example C97_ex : ecdsa_sig_to_der ((200 :: zeros 30 ++ [7]) ++ (zeros 29 ++ [0; 129; 5])) (zeros 72) =
  Ok (42, [48; 40; 2; 33; 0; 200] ++ zeros 30 ++ [7; 2; 3; 0; 129; 5] ++ zeros 30).
Proof. vm_compute. reflexivity. Qed.
