(** C93: the functions that make output scripts, and Script.type(). [dsha], [hash160] and [sha256] stand for
    double SHA-256, RIPEMD-160 of SHA-256 and SHA-256: only the lengths of their results are used. *)
From Coq Require Import Lia.
From Verif Require Import Base.Bytes Base.BytesFacts Model.Conversion Model.Stream Model.Networks Model.Script Model.Sign Model.Address Model.KeyStrings
  Spec.Codecs Spec.Objects Spec.Ops Spec.Bech32 Spec.Address Spec.Form Spec.Template Proof.TemplateFacts.
Open Scope Z_scope.

(** type() names exactly the scripts of that form, and no script gets two names. *)
Theorem C93_type : forall s bs, script_holds s bs ->
  (forall t, In t [P2PKH; P2SH; P2WPKH; P2WSH] -> (script_type_of s = t <-> template t bs)) /\
  (script_type_of s = UNKNOWN_TYPE <-> forall t, ~ template t bs).
Proof. exact type_exact. Qed.
Print Assumptions C93_type.

(** pkh(K), wpkh(K), Script(K, P2PKH) and Script(K, P2WPKH) hold the script paying to K. *)
Theorem C93_keys : forall hash160, (forall m, length (hash160 m) = 20%nat) -> (forall m, bytes_ok (hash160 m)) -> forall sec,
  script_holds (pkh hash160 sec) (p2pkh_script (hash160 sec)) /\ script_holds (script_of_pubkey hash160 sec P2PKH) (p2pkh_script (hash160 sec)) /\
  script_holds (wpkh hash160 sec) (witness_script 0 (hash160 sec)) /\
  script_holds (script_of_pubkey hash160 sec P2WPKH) (witness_script 0 (hash160 sec)).
Proof. exact key_functions. Qed.
Print Assumptions C93_keys.
(** sh(S), wsh(S), Script(S, P2SH) and Script(S, P2WSH) hold the script paying to the bytes of S. *)
Theorem C93_scripts : forall hash160 sha256, (forall m, length (hash160 m) = 20%nat) -> (forall m, bytes_ok (hash160 m)) ->
  (forall m, length (sha256 m) = 32%nat) -> (forall m, bytes_ok (sha256 m)) -> forall s bs, script_holds s bs ->
  script_holds (sh hash160 s) (p2sh_script (hash160 bs)) /\
  script_holds (script_of_script hash160 sha256 s P2SH) (p2sh_script (hash160 bs)) /\
  script_holds (wsh sha256 s) (witness_script 0 (sha256 bs)) /\
  script_holds (script_of_script hash160 sha256 s P2WSH) (witness_script 0 (sha256 bs)).
Proof. exact script_functions. Qed.
Print Assumptions C93_scripts.
(** The address of each such script is the one the key itself gives, on every network. *)
Theorem C93_addresses : forall hash160, (forall m, length (hash160 m) = 20%nat) -> (forall m, bytes_ok (hash160 m)) ->
  forall dsha, (forall m, length (dsha m) = 32%nat) -> (forall m, bytes_ok (dsha m)) ->
  forall n c test sec, chain_of n c -> is_test n test ->
  address_string dsha (pkh hash160 sec) n = legacy_address_string dsha hash160 sec n /\
  address_string dsha (wpkh hash160 sec) n = segwit_address_string hash160 sec n /\
  address_string dsha (sh hash160 (wpkh hash160 sec)) n = nested_address_string dsha hash160 sec n.
Proof. exact addresses_plain. Qed.
Print Assumptions C93_addresses.
(** Multisig wallets: wsh(multi(...)), sh(wsh(multi(...))) and sh(multi(...)) show the address of the standard script. *)
Theorem C93_multisig : forall hash160 sha256, (forall m, length (hash160 m) = 20%nat) -> (forall m, bytes_ok (hash160 m)) ->
  (forall m, length (sha256 m) = 32%nat) -> (forall m, bytes_ok (sha256 m)) ->
  forall dsha, (forall m, length (dsha m) = 32%nat) -> (forall m, bytes_ok (dsha m)) ->
  forall n c test m keys, chain_of n c -> is_test n test -> 1 <= m <= len keys -> len keys <= 16 -> Forall key_bytes keys ->
  let r := multisig_script m keys in
  exists a b d, address_string dsha (wsh sha256 (multi m keys)) n = Ok a /\ address_of dsha c (witness_script 0 (sha256 r)) a /\
    address_string dsha (sh hash160 (wsh sha256 (multi m keys))) n = Ok b /\
    address_of dsha c (p2sh_script (hash160 (witness_script 0 (sha256 r)))) b /\
    address_string dsha (sh hash160 (multi m keys)) n = Ok d /\ address_of dsha c (p2sh_script (hash160 r)) d.
Proof. exact multi_addresses. Qed.
Print Assumptions C93_multisig.

(** Up to 15 compressed keys the redeem script of sh(multi(...)) can be spent. *)
Theorem C93_fifteen : forall m keys, len keys <= 15 -> Forall (fun x : list Z => length x = 33%nat) keys ->
  len (multisig_script m keys) <= max_element.
Proof. exact fifteen_keys. Qed.
Print Assumptions C93_fifteen.
(** "What is paid to a script made by these functions can be spent" is false: sh(multi(...)) of 16 keys is made
    without complaint, and its redeem script is always too long. *)
Theorem C93_sixteen_refuted : forall hash160, (forall m, length (hash160 m) = 20%nat) -> (forall m, bytes_ok (hash160 m)) ->
  forall m keys, 1 <= m <= 16 -> len keys = 16 -> Forall key_bytes keys ->
  script_holds (sh hash160 (multi m keys)) (p2sh_script (hash160 (multisig_script m keys))) /\
  max_element < len (multisig_script m keys).
Proof. exact sixteen_plain. Qed.
Print Assumptions C93_sixteen_refuted.
(** Script(K, type) and Script(S, type) with a type not meant for them are empty scripts, which anyone can spend. *)
Theorem C93_other_type_refuted : forall hash160 sha256 sec s t,
  (~ In t [P2PKH; P2WPKH] -> script_of_pubkey hash160 sec t = script_new) /\
  (~ In t [P2SH; P2WSH] -> script_of_script hash160 sha256 s t = script_new).
Proof. exact other_types. Qed.
Print Assumptions C93_other_type_refuted.

(** With constants in the place of the hashes: a 2-of-3 wallet on Mainnet, 16 keys, and a script one byte off its form. *)
Definition h20 (m : list Z) : list Z := repeat 7 20.
Definition h32 (m : list Z) : list Z := repeat 9 32.
Definition key_n (i : Z) : list Z := 2 :: repeat i 32.
Example C93_case :
  script_type_of (sh h20 (multi 2 (map key_n [1; 2; 3]))) = P2SH /\ script_type_of (wsh h32 (multi 2 (map key_n [1; 2; 3]))) = P2WSH /\
  sc_len (multi 2 (map key_n [1; 2; 3])) = 105 /\ sc_len (multi 2 (repeat (key_n 5) 16)) = 547 /\
  Forall key_bytes (repeat (key_n 5) 16) /\ script_type_of (pkh h20 (key_n 4)) = P2PKH /\
  script_type_of (script_of ([118; 169; 21] ++ repeat 7 20 ++ [136; 172])) = UNKNOWN_TYPE.
Proof.
  repeat split; try (vm_compute; reflexivity). apply Forall_forall. intros x I. apply repeat_spec in I. subst x. split.
  - repeat constructor; unfold byte_ok; lia.
  - left. reflexivity.
Qed.
