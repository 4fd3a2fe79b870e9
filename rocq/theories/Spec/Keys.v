(** What a wallet import format string is, independently of the code. *)
From Verif Require Import Base.Bytes Spec.Codecs.
Open Scope Z_scope.

(** The order of the secp256k1 group (SEC 2). *)
Definition group_order : Z := 0xFFFFFFFFFFFFFFFFFFFFFFFFFFFFFFFEBAAEDCE6AF48A03BBFD25E8CD0364141.

(** Version byte, 32 byte secret, optionally the byte 1 for compressed public keys, then
    the first four bytes of the double SHA-256 of all that, in base 58. *)
Definition wif_text (dsha : list Z -> list Z) (version : Z) (secret : list Z) (flag : list Z) (text : list Z) : Prop :=
  let payload := version :: secret ++ flag in
  base_text 58 base58_alphabet (payload ++ firstn 4 (dsha payload)) text.
