(** C57: the descriptor checksum. *)
From Verif Require Import Base.Bytes Spec.Descriptor Model.Descriptor Proof.DescProps.
Open Scope Z_scope.

(** For text without a zero character the function computes the checksum of BIP380 (Spec/Descriptor.v):
    the eight characters are put at the front of the output array, the rest is zero, and the
    result is 8; for text with a character outside the set the array is zero and the result is 0. *)
Theorem C57_bip380 : forall s n, ~ In 0 s -> (8 <= n)%nat ->
  descriptorChecksum s n =
  Ok (match descsum s with Some w => (w ++ zeros (n - 8), 8) | None => (zeros n, 0) end).
Proof. exact checksum_bip380. Qed.
Print Assumptions C57_bip380.
Theorem C57_string : forall s, ~ In 0 s ->
  descriptorChecksum_String s = Ok (match descsum s with Some w => w | None => [] end).
Proof. exact string_bip380. Qed.
Print Assumptions C57_string.
(** An array that is too short gets no checksum. *)
Theorem C57_short : forall s n, (n < 8)%nat -> descriptorChecksum s n = Ok (zeros n, 0).
Proof. exact checksum_short. Qed.
Print Assumptions C57_short.
Theorem C57_foreign : forall s n ch, ~ In 0 s -> In ch s -> ~ In ch (chars INPUT_CHARSET) ->
  descriptorChecksum s n = Ok (zeros n, 0) /\ descriptorChecksum_String s = Ok [].
Proof. exact foreign_refused. Qed.
Print Assumptions C57_foreign.
(** Any change confined to four consecutive characters changes the checksum, whatever the
    length: in particular one substituted character, or two neighbours swapped. *)
Theorem C57_detects : forall a x y b w, length x = length y -> (length x <= 4)%nat -> x <> y -> ~ In 0 (a ++ x ++ y ++ b) ->
  w <> [] -> descriptorChecksum_String (a ++ x ++ b) = Ok w -> descriptorChecksum_String (a ++ y ++ b) <> Ok w.
Proof. exact string_detects. Qed.
Print Assumptions C57_detects.
(** The zero character is outside the set, but the version with an explicit length accepts it
    (strchr finds the terminator of the alphabet, at position 95). *)
Theorem C57_foreign_refuted : forall a b n, (8 <= n)%nat -> (forall ch, In ch (a ++ b) -> In ch (chars INPUT_CHARSET)) ->
  ~ In 0 (chars INPUT_CHARSET) /\ exists w, length w = 8%nat /\ descriptorChecksum (a ++ [0] ++ b) n = Ok (w ++ zeros (n - 8), 8).
Proof. exact zero_refuted. Qed.
Print Assumptions C57_foreign_refuted.

(** The example of the Bitcoin Core documentation. *)
Example C57_example : descriptorChecksum_String (chars "raw(deadbeef)") = Ok (chars "89f8spxm").
Proof. vm_compute. reflexivity. Qed.
Example C57_detects_example :
  descriptorChecksum_String (chars "raw(deadbeef)" ) = Ok (chars "89f8spxm") /\
  descriptorChecksum_String (chars "raw(dedabeef)" ) = Ok (chars "nygevfy8").
Proof. vm_compute. split; reflexivity. Qed.
Example C57_foreign_example : descriptorChecksum_String (200 :: chars "raw(deadbeef)") = Ok [].
Proof. vm_compute. reflexivity. Qed.
