(** C90: what texts of keys and addresses look like. [dsha] stands for double SHA-256,
    [hash160] for RIPEMD-160 of SHA-256: only the lengths of their results are used. *)
From Coq Require Import Lia.
From Verif Require Import Base.Bytes Base.BytesFacts Model.Conversion Model.Networks Model.Sign Model.Script Model.HD Model.Keys Model.Address Model.Strings
  Model.KeyStrings Model.Stream Spec.Codecs Spec.Objects Spec.Bech32 Spec.Address Spec.Keys Spec.HD Spec.Form Proof.FormFacts.
Open Scope Z_scope.

(** Every extended private key has 111 characters, starting with xprv, yprv, zprv, Yprv or Zprv on Mainnet
    and with tprv, uprv, vprv, Uprv or Vprv on the others, whatever its depth, number, chain code and secret. *)
Theorem C90_xprv : forall dsha, (forall m, length (dsha m) = 32%nat) -> (forall m, bytes_ok (dsha m)) ->
  forall k test, hk_sized k -> hk_valued k -> is_test (hk_net k) test ->
  exists text, xprv_string dsha k = Ok text /\ len text = 111 /\
    firstn 4 text = key_letter test (hk_type k) ++ chars "prv" /\ base58check_text dsha (hk_hex k) text.
Proof. exact xprv_form. Qed.
Print Assumptions C90_xprv.
Theorem C90_xpub : forall dsha, (forall m, length (dsha m) = 32%nat) -> (forall m, bytes_ok (dsha m)) ->
  forall k test, hp_sized k -> hp_valued k -> is_test (hp_net k) test ->
  exists text, xpub_string dsha k = Ok text /\ len text = 111 /\
    firstn 4 text = key_letter test (hp_type k) ++ chars "pub" /\ base58check_text dsha (hp_hex k) text.
Proof. exact xpub_form. Qed.
Print Assumptions C90_xpub.

(** A WIF text has 52 characters and starts with K, L or c if the public key is compressed, else 51 and starts with 5 or 9. *)
Theorem C90_wif : forall dsha, (forall m, length (dsha m) = 32%nat) -> (forall m, bytes_ok (dsha m)) ->
  forall k test, In (pk_net k) networks -> is_test (pk_net k) test -> length (pk_num k) = 32%nat -> bytes_ok (pk_num k) ->
  exists text, wif_string dsha k = Ok text /\ wif_form test (pk_compressed k) text /\
    wif_text dsha (n_wif (pk_net k)) (pk_num k) (if pk_compressed k then [1] else []) text.
Proof. exact wif_form_ok. Qed.
Print Assumptions C90_wif.

(** The first characters and the length of a standard address tell the kind of script, and test coins from others. *)
Theorem C90_address_form : forall dsha, (forall m, length (dsha m) = 32%nat) -> (forall m, bytes_ok (dsha m)) ->
  forall n c test bs text, chain_of n c -> is_test n test -> address_of dsha c bs text ->
  (forall h, bs = p2pkh_script h -> pkh_form test text) /\ (forall h, bs = p2sh_script h -> sh_form test text) /\
  (forall h, bs = witness_script 0 h -> segwit_form (ch_hrp c) h text).
Proof. exact address_forms. Qed.
Print Assumptions C90_address_form.
(** The String of a script's address is the whole address; scripts without address give an empty String. *)
Theorem C90_script_address : forall dsha, (forall m, length (dsha m) = 32%nat) -> (forall m, bytes_ok (dsha m)) ->
  forall n c test s bs, chain_of n c -> is_test n test -> script_holds s bs -> standard_script bs ->
  exists text, address_string dsha s n = Ok text /\ address_of dsha c bs text.
Proof. exact address_string_ok. Qed.
Print Assumptions C90_script_address.
Theorem C90_no_address : forall dsha s n,
  (forall t, In t [P2PKH; P2SH; P2WPKH; P2WSH] -> script_type_of s <> t) -> address_string dsha s n = Ok [].
Proof. exact no_address_string. Qed.
Print Assumptions C90_no_address.
(** The same for the three addresses of a public key: each fits its buffer with the NUL at its end. *)
Theorem C90_key_addresses : forall dsha, (forall m, length (dsha m) = 32%nat) -> (forall m, bytes_ok (dsha m)) ->
  forall hash160, (forall m, length (hash160 m) = 20%nat) -> (forall m, bytes_ok (hash160 m)) ->
  forall n c sec, chain_of n c ->
  exists a b d, legacy_address_string dsha hash160 sec n = Ok a /\ segwit_address_string hash160 sec n = Ok b /\
    nested_address_string dsha hash160 sec n = Ok d /\
    address_of dsha c (p2pkh_script (hash160 sec)) a /\ address_of dsha c (witness_script 0 (hash160 sec)) b /\
    address_of dsha c (p2sh_script (hash160 (witness_script 0 (hash160 sec)))) d.
Proof. exact key_address_strings. Qed.
Print Assumptions C90_key_addresses.

(** With a constant in the place of the checksum: the secret 1 on Mainnet and Testnet, and a nested
    segwit key of the test network. *)
Definition form_dsha (m : list Z) : list Z := repeat 7 32.
Definition form_hash (m : list Z) : list Z := repeat 9 20.
Definition form_key : hdpriv := mkHk (zeros 31 ++ [1]) (repeat 3 32) 5 (repeat 4 4) 6 Testnet P2SH_P2WPKH (zeros 4) DONE 0.
Example C90_ex :
  wif_string form_dsha (mkPk (zeros 31 ++ [1]) Mainnet true) = Ok (chars "KwDiBf89QgGbjEhKnhXJuH7LrciVrZi3qYjgd9M7rFU73sTfmf42") /\
  wif_string form_dsha (mkPk (zeros 31 ++ [1]) Regtest false) = Ok (chars "91avARGdfge8E4tZfYLoxeJ5sGBdNJQH4kvjJoQFacbgwk6Zqh8") /\
  is_test Regtest true /\ hk_sized form_key /\ hk_valued form_key /\
  firstn 4 (snd (xprv form_dsha form_key (zeros 112))) = chars "uprv" /\
  chain_of Regtest reg_chain /\ chain_of Mainnet main_chain /\ is_test Mainnet false /\
  legacy_address_string form_dsha form_hash [] Regtest = Ok (chars "mgLjCZefJ6DZGQ4LX25Wz6hrpBsFBjHfu8") /\
  nested_address_string form_dsha form_hash [] Mainnet = Ok (chars "32Wnq4482y6gaTH9vYmjaorU6iZFpuTNNa") /\
  address_string form_dsha (script_of (p2sh_script (repeat 9 20))) Mainnet = Ok (chars "32Wnq4482y6gaTH9vYmjaorU6iZFpuTNNa") /\
  address_string form_dsha (script_of [81]) Mainnet = Ok [].
Proof.
  split; [vm_compute; reflexivity|]. split; [vm_compute; reflexivity|]. split; [right; cbn; auto|].
  split; [vm_compute; auto|]. split; [unfold hk_valued; split; [apply bytes_ok_bool; vm_compute; reflexivity|]; split; [apply bytes_ok_bool; vm_compute; reflexivity|]; split; [apply bytes_ok_bool; vm_compute; reflexivity|]; unfold byte_ok; cbn; lia|].
  split; [vm_compute; reflexivity|]. split; [right; right; left; auto|]. split; [left; auto|]. split; [left; auto|].
  split; [vm_compute; reflexivity|]. split; [vm_compute; reflexivity|]. split; vm_compute; reflexivity.
Qed.
