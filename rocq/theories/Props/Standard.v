(** C91: from words to addresses, as the standards say. *)
From Coq Require Import Lia.
From Verif Require Import Base.Bytes Base.BytesFacts Spec.Codecs Spec.Hash Spec.Address Spec.HD Spec.Keys Spec.Scalar Spec.Curve Spec.Schemes Spec.Point Spec.Bignum Spec.Wallet Spec.Standard
  Model.Stream Model.Networks Model.Sign Model.HD Model.Account Proof.StandardProps.
Open Scope Z_scope.

(** HDPrivateKey(words, password).derive(path).address() is the address of the standards, if BIP 32 calls no key on the
    way invalid. The path is any text of a path of BIP 44, 49 or 84: purpose, coin type, account, and numbers without a
    mark. *)
Theorem C91_address : forall K H K5 H5 C C', fips_constants fips256 K H -> fips_constants fips512 K5 H5 -> rmd_constants C C' ->
  forall rz, random_below field_prime rz -> forall words password, bytes_ok words -> bytes_ok password -> len words < 2^32 -> len password < 2^32 ->
  forall net t p (test : bool) a l pre cs post, purpose t = Some p -> 0 <= a < 2^31 -> Forall (fun i => 0 <= i < 2^31) l ->
  path_prefix pre -> path_suffix post -> Forall component_good cs -> len (pre ++ path_body cs ++ post) < 2^63 ->
  map child_number cs = [2^31 + p; 2^31 + (if test then 1 else 0); 2^31 + a] ++ l -> std_key K5 H5 words password (map child_number cs) <> None ->
  exists k text, wallet_derive rz (from_mnemonic words password net) (pre ++ path_body cs ++ post) = Ok k /\ wallet_address rz k = Ok text /\
    std_address K H K5 H5 C C' words password t test (map child_number cs) text.
Proof. exact path_address. Qed.
Print Assumptions C91_address.
(** xprv() and xpub() at such a path. *)
Theorem C91_keys : forall K H K5 H5 C C', fips_constants fips256 K H -> fips_constants fips512 K5 H5 -> rmd_constants C C' ->
  forall rz, random_below field_prime rz -> forall words password, bytes_ok words -> bytes_ok password -> len words < 2^32 -> len password < 2^32 ->
  forall net t p (test : bool) a l pre cs post path i v v', purpose t = Some p -> 0 <= a < 2^31 -> Forall (fun i => 0 <= i < 2^31) l ->
  path_prefix pre -> path_suffix post -> Forall component_good cs -> len (pre ++ path_body cs ++ post) < 2^63 ->
  map child_number cs = [2^31 + p; 2^31 + (if test then 1 else 0); 2^31 + a] ++ l -> map child_number cs = path ++ [i] -> len path < 255 ->
  prv_number test t = Some v -> pub_number test t = Some v' -> std_key K5 H5 words password (path ++ [i]) <> None ->
  exists k xprv xpub, wallet_derive rz (from_mnemonic words password net) (pre ++ path_body cs ++ post) = Ok k /\
    wallet_xprv k = Ok xprv /\ wallet_xpub rz k = Ok xpub /\
    std_text K H K5 H5 C C' words password v (fun k => 0 :: k) path i xprv /\ std_text K H K5 H5 C C' words password v' std_public path i xpub.
Proof. exact path_texts. Qed.
Print Assumptions C91_keys.
(** Different random numbers in the multiplications, and different networks given to the constructor, make no difference. *)
Theorem C91_same : forall K5 H5, fips_constants fips512 K5 H5 -> forall rz rz', random_below field_prime rz -> random_below field_prime rz' ->
  forall words password, bytes_ok words -> bytes_ok password -> len words < 2^32 -> len password < 2^32 ->
  forall net net' t p (test : bool) a l pre cs post, purpose t = Some p -> 0 <= a < 2^31 -> Forall (fun i => 0 <= i < 2^31) l ->
  path_prefix pre -> path_suffix post -> Forall component_good cs -> len (pre ++ path_body cs ++ post) < 2^63 ->
  map child_number cs = [2^31 + p; 2^31 + (if test then 1 else 0); 2^31 + a] ++ l -> std_key K5 H5 words password (map child_number cs) <> None ->
  exists k k', wallet_derive rz (from_mnemonic words password net) (pre ++ path_body cs ++ post) = Ok k /\
    wallet_derive rz' (from_mnemonic words password net') (pre ++ path_body cs ++ post) = Ok k' /\ wallet_address rz k = wallet_address rz' k'.
Proof. exact address_same. Qed.
Print Assumptions C91_same.
(** A path that meets the hypotheses. (That BIP 32 calls a key invalid has a chance of less than 1 in 2^126 for each key; the
    2048 rounds of the seed are too many to run here.) *)
Example C91_path : let cs := [([8; 4], Some 39); ([0], Some 39); ([3], Some 39); ([1], None); ([1; 2], None)] in
  chars "m/" ++ path_body cs ++ [] = chars "m/84'/0'/3'/1/12" /\ map child_number cs = [2^31 + 84; 2^31 + 0; 2^31 + 3] ++ [1; 12] /\
  map child_number cs = [2^31 + 84; 2^31; 2^31 + 3; 1] ++ [12] /\ Forall component_good cs /\ prv_number false P2WPKH = Some 0x04b2430c /\ pub_number false P2WPKH = Some 0x04b24746.
Proof.
  cbv zeta. split; [reflexivity|]. split; [reflexivity|]. split; [reflexivity|]. split; [|split; reflexivity].
  repeat (apply Forall_cons; [split; [split; [cbn [fst]; repeat constructor; lia|unfold mark_ok; cbn [snd]; auto]|split; [discriminate|reflexivity]]|]). constructor.
Qed.
