(** Words used to state C91: what the standards say the keys and addresses of some words are. *)
From Verif Require Import Base.Bytes Model.Sign Spec.Codecs Spec.Hash Spec.Address Spec.HD Spec.Keys Spec.Scalar Spec.Curve Spec.Schemes Spec.PSBTSign Spec.Wallet.
Open Scope Z_scope.

Section Standard.
(** The constants of FIPS 180-4 for SHA-256 and SHA-512, and those of RIPEMD-160. *)
Variables K H K5 H5 C C' : list Z.
Definition std_sha256 (m : list Z) : list Z := fips_hash fips256 K H m.
Definition std_dsha (m : list Z) : list Z := std_sha256 (std_sha256 m).
Definition std_hash160 (m : list Z) : list Z := rmd_hash C C' (std_sha256 m).
(** RFC 2104 with SHA-512. *)
Definition std_hmac : list Z -> list Z -> list Z := rfc2104 (fips_hash fips512 K5 H5) 128.
(** BIP 39: PBKDF2 with 2048 rounds and 64 bytes. *)
Definition std_seed (words password : list Z) : list Z := rfc8018 std_hmac 64 words (chars "mnemonic" ++ password) 2048 64.
(** The compressed public key of a secret. *)
Definition std_public (k : list Z) : list Z := compressed (point_bytes (ec_mul (number k) gen)).
(** BIP 32: the secret and the chain code at a path. [None]: a key on the way is invalid. *)
Definition std_key (words password path : list Z) : option (list Z * list Z) :=
  match bip32_master std_hmac (std_seed words password) with
  | Some (k, c) => bip32_derive std_hmac k c path
  | None => None
  end.
(** BIP 44, 49, 84 and 173: the address at a path. *)
Definition std_address (words password : list Z) (t : script_type) (test : bool) (path text : list Z) : Prop :=
  exists k c bs, std_key words password path = Some (k, c) /\ paid_script std_hash160 t (std_public k) = Some bs /\
    address_of std_dsha (if test then test_chain else main_chain) bs text.
(** BIP 32 and SLIP 132: the text of the key at the path [path] followed by [i]; [key] is its secret or public key in
    33 bytes. *)
Definition std_text (words password : list Z) (version : Z) (key : list Z -> list Z) (path : list Z) (i : Z) (text : list Z) : Prop :=
  exists k c k' c', std_key words password path = Some (k, c) /\ std_key words password (path ++ [i]) = Some (k', c') /\
    base58check_text std_dsha (bip32_bytes version (len path + 1) (firstn 4 (std_hash160 (std_public k))) i c' (key k')) text.
End Standard.
(** The versions: those of BIP 32 for BIP 44, else those of SLIP 132. *)
Definition prv_number (test : bool) (t : script_type) : option Z := slip132_prv test (match t with P2PKH => UNKNOWN_TYPE | _ => t end).
Definition pub_number (test : bool) (t : script_type) : option Z := slip132_pub test (match t with P2PKH => UNKNOWN_TYPE | _ => t end).
