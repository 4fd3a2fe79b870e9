(** Addresses of wallets and of their watch-only copies (C85). *)
From Coq Require Import Lia.
From Verif Require Import Base.Bytes Base.BytesFacts Model.Conversion Model.Networks Model.Sign Model.HD Model.Address Model.Stream Model.Hash Model.Text Model.Point Model.PointOps Model.Wallet
  Spec.Codecs Spec.Bech32 Spec.Wire Spec.Address Spec.HD Spec.Keys Spec.Text Spec.Scalar Spec.Point Spec.Curve Spec.Schemes Spec.Bignum Spec.Wallet
  Proof.WalletFacts Proof.WalletProps Proof.WalletReal.
From Verif Require Props.HD Props.Address.
Open Scope Z_scope.

(** * C85 *)
(** A key of a single-key type shows the address of the script of that type, on its own network. *)
Theorem C85_key : forall dsha hash160 mulG, (forall m, length (dsha m) = 32%nat) -> (forall m, bytes_ok (dsha m)) ->
  (forall m, length (hash160 m) = 20%nat) -> (forall m, bytes_ok (hash160 m)) ->
  forall k c bs, chain_of (hk_net k) c -> paid_script hash160 (hk_type k) (compressed (mulG (hk_num k))) = Some bs ->
  (exists text, address_of dsha c bs text /\ hk_address_string dsha hash160 mulG k = Ok text) /\
  forall buffer, 76 <= len buffer -> exists text r, address_of dsha c bs text /\ hk_address dsha hash160 mulG k buffer = Ok (r, text ++ zeros (length buffer - length text)).
Proof. exact key_shows. Qed.
Print Assumptions C85_key.
(** From a seed, along the paths of BIP 44, 49 and 84. *)
Theorem C85_accounts : forall dsha hash160 hmac512 mulG, (forall m, length (dsha m) = 32%nat) -> (forall m, bytes_ok (dsha m)) ->
  (forall m, length (hash160 m) = 20%nat) -> (forall m, bytes_ok (hash160 m)) ->
  forall seed net t p test a l, purpose t = Some p -> 0 <= a < 2^31 -> Forall (fun i => 0 <= i < 2^31) l ->
  let k := hk_derive hmac512 hash160 mulG (from_seed hmac512 seed net) ([2^31 + p; 2^31 + (if test : bool then 1 else 0); 2^31 + a] ++ l) in
  exists bs text, paid_script hash160 t (compressed (mulG (hk_num k))) = Some bs /\
    address_of dsha (if test then test_chain else main_chain) bs text /\ hk_address_string dsha hash160 mulG k = Ok text.
Proof. exact account_shows. Qed.
Print Assumptions C85_accounts.
(** For hash functions of the right sizes (not those of the library): the three kinds of accounts. *)
Definition toy_hmac (k m : list Z) : list Z := firstn 64 (1 :: m ++ k ++ zeros 64).
Definition toy_hash (m : list Z) : list Z := firstn 20 (skipn 10 m ++ zeros 20).
Definition ex_account (p : Z) : hdpriv := hk_derive toy_hmac toy_hash HD.ex_mulG (from_seed toy_hmac (zeros 12 ++ [1; 2; 3; 4]) Mainnet) [2^31 + p; 2^31; 2^31].
Definition ex_receive (p : Z) : hdpriv := hk_derive toy_hmac toy_hash HD.ex_mulG (ex_account p) [0; 5].
Definition show (p : Z) : list Z := match hk_address_string Address.ex_dsha toy_hash HD.ex_mulG (ex_receive p) with Ok t => t | UB => [] end.
Example C85_accounts_case : map hk_type [ex_account 44; ex_account 49; ex_account 84] = [P2PKH; P2SH_P2WPKH; P2WPKH] /\
  firstn 3 (show 84) = chars "bc1".
Proof. vm_compute. auto. Qed.

(** The public key of an account shows the same addresses below it. *)
Theorem C85_watch_same : forall dsha hash160 hmac512 mulG padd,
  (forall a b, length a = 32%nat -> bytes_ok a -> length b = 32%nat -> bytes_ok b -> be_val 256 a < group_order -> be_val 256 b < group_order ->
    padd (mulG a) (mulG b) = mulG (be_bytes 32 ((be_val 256 a + be_val 256 b) mod group_order))) ->
  (forall k m, length (hmac512 k m) = 64%nat) -> (forall k m, bytes_ok (hmac512 k m)) ->
  forall l k buffer, length (hk_num k) = 32%nat -> bytes_ok (hk_num k) -> be_val 256 (hk_num k) < group_order -> Forall (fun i => 0 <= i < 2^31) l ->
  hp_address dsha hash160 (hp_derive hmac512 hash160 mulG padd (to_pub mulG k) l) buffer = hk_address dsha hash160 mulG (hk_derive hmac512 hash160 mulG k l) buffer /\
  hp_address_string dsha hash160 (hp_derive hmac512 hash160 mulG padd (to_pub mulG k) l) = hk_address_string dsha hash160 mulG (hk_derive hmac512 hash160 mulG k l).
Proof. exact watch_same. Qed.
Print Assumptions C85_watch_same.
(** xpub(arr, len) of a private key is the text of its public key; the fingerprints agree with each other and with what
    the children keep. *)
Theorem C85_fingerprints : forall dsha hash160 hmac512 mulG padd k i h out,
  hk_xpub dsha mulG k out = xpub_text dsha (to_pub mulG k) out /\
  hk_fingerprint hash160 mulG k = firstn 4 (hash160 (compressed (mulG (hk_num k)))) /\
  hp_fingerprint hash160 (to_pub mulG k) = hk_fingerprint hash160 mulG k /\
  hk_fp (hk_child_of hmac512 hash160 mulG k i h) = hk_fingerprint hash160 mulG k /\
  hp_fp (hp_child_of hmac512 hash160 mulG padd (to_pub mulG k) i) = hk_fingerprint hash160 mulG k.
Proof. exact fingerprints. Qed.
Print Assumptions C85_fingerprints.

(** In full: a watch-only wallet, made from the text of an account's extended public key, shows the account's addresses.
    True exactly if the account is not of type P2PKH, and on Regtest only for P2SH-P2WPKH; here with the library's own
    operators and hashes. *)
Theorem C85_imported_refuted : forall rz garbage l k k0, random_below field_prime rz -> hk_sized k -> hk_valued k -> In (hk_net k) networks ->
  0 < be_val 256 (hk_num k) < group_order -> hp_sized k0 -> hp_status k0 = DONE -> Forall (fun i => 0 <= i < 2^31) l ->
  exists n w, hp_from_str doubleSha uncompress_pubkey pt_valid_bytes garbage k0 (hp_xpub_string doubleSha (to_pub (code_mulG rz) k)) = Ok (n, w) /\ hp_status w = DONE /\
    (hp_address_string doubleSha hash160 (hp_derive sha512Hmac hash160 (code_mulG rz) code_padd w l) =
       hk_address_string doubleSha hash160 (code_mulG rz) (hk_derive sha512Hmac hash160 (code_mulG rz) k l) <->
     hk_type k <> P2PKH /\ (hk_net k = Regtest -> hk_type k = P2SH_P2WPKH)).
Proof. exact real_imported. Qed.
Print Assumptions C85_imported_refuted.
(** BIP 44: the wallet shows an address that starts with 1, its watch-only copy one that starts with bc1. *)
Definition ex_watch (p : Z) : list Z :=
  match hp_from_str Address.ex_dsha HD.ex_uncompress (fun _ => true) [] hp_new (hp_xpub_string Address.ex_dsha (to_pub HD.ex_mulG (ex_account p))) with
  | Ok (_, w) => match hp_address_string Address.ex_dsha toy_hash w with Ok t => t | UB => [] end
  | UB => []
  end.
Definition ex_own (p : Z) : list Z := match hk_address_string Address.ex_dsha toy_hash HD.ex_mulG (ex_account p) with Ok t => t | UB => [] end.
Example C85_imported_case : hd 0 (ex_own 44) = 49 /\ firstn 4 (ex_watch 44) = chars "bc1q" /\ 
  hk_sized (ex_account 44) /\ hk_valued (ex_account 44) /\ 0 < be_val 256 (hk_num (ex_account 44)) < group_order.
Proof.
  split; [vm_compute; reflexivity|]. split; [vm_compute; reflexivity|].
  split; [vm_compute; auto|]. split; [|vm_compute; auto].
  unfold hk_valued. repeat split; try (apply bytes_ok_bool; vm_compute; reflexivity); vm_compute; congruence.
Qed.
(** Keys of types for several signers (from Ypub, Zpub or m/48'), and those of no type, show the P2WPKH address of the
    single key. *)
Theorem C85_multisig_refuted : forall dsha hash160 mulG, (forall m, length (dsha m) = 32%nat) -> (forall m, bytes_ok (dsha m)) ->
  (forall m, length (hash160 m) = 20%nat) -> (forall m, bytes_ok (hash160 m)) ->
  forall k c, chain_of (hk_net k) c -> purpose (hk_type k) = None ->
  exists text, address_of dsha c (witness_script 0 (hash160 (compressed (mulG (hk_num k))))) text /\ hk_address_string dsha hash160 mulG k = Ok text.
Proof. exact multi_shows. Qed.
Print Assumptions C85_multisig_refuted.
Definition ex_multi : hdpriv := hk_derive toy_hmac toy_hash HD.ex_mulG (from_seed toy_hmac (chars "seed") Testnet) [2^31 + 48; 2^31 + 1; 2^31; 2^31 + 2].
Definition text_of (k : hdpriv) : list Z := match hk_address_string Address.ex_dsha toy_hash HD.ex_mulG k with Ok t => t | UB => [] end.
Example C85_multisig_case : hk_type ex_multi = P2WSH /\ purpose P2WSH = None /\ firstn 4 (text_of ex_multi) = chars "tb1q" /\ len (text_of ex_multi) = 42.
Proof. vm_compute. auto. Qed.
