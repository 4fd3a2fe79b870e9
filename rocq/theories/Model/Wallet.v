(** Addresses, texts and fingerprints of hierarchical deterministic keys: src/HDWallet.cpp. *)
From Verif Require Import Base.Bytes Model.Conversion Model.Networks Model.Sign Model.HD Model.Address Model.Text.
Open Scope Z_scope.

Section Wallet.
(** Hash.cpp: double SHA-256 and Hash160. BitcoinCurve.cpp:271-291: a scalar times the generator, which is the
    public key that a private key keeps (HDWallet.cpp:45 and others). *)
Variable dsha hash160 : list Z -> list Z.
Variable mulG : list Z -> list Z.

(** HDWallet.cpp:301-312 [HDPrivateKey::address(addr, len)] with Bitcoin.cpp:604-612; [buffer] is the caller's. The
    public key is compressed (HDWallet.cpp:25, 46). *)
Definition hk_address (k : hdpriv) (buffer : list Z) : outcome (Z * list Z) :=
  let sec := sec_of (mulG (hk_num k)) in
  match hk_type k with
  | P2WPKH => segwitAddress hash160 sec buffer (hk_net k)
  | P2SH_P2WPKH => Ok (nestedSegwitAddress dsha hash160 sec buffer (hk_net k))
  | P2PKH => Ok (legacyAddress dsha hash160 sec buffer (hk_net k))
  | _ => segwitAddress hash160 sec buffer (hk_net k)
  end.
(** HDWallet.cpp:729-740 [HDPublicKey::address(addr, len)]. *)
Definition hp_address (k : hdpub) (buffer : list Z) : outcome (Z * list Z) :=
  let sec := sec_of (hp_point k) in
  match hp_type k with
  | P2WPKH => segwitAddress hash160 sec buffer (hp_net k)
  | P2SH_P2WPKH => Ok (nestedSegwitAddress dsha hash160 sec buffer (hp_net k))
  | P2PKH => Ok (legacyAddress dsha hash160 sec buffer (hp_net k))
  | _ => segwitAddress hash160 sec buffer (hp_net k)
  end.
(** Bitcoin.cpp:387-391, 406-410, 428-432: the String versions, with their own buffers. *)
Definition legacy_string (sec : list Z) (n : network) : outcome (list Z) :=
  Ok (cstr (snd (legacyAddress dsha hash160 sec (zeros 40) n))).
Definition segwit_string (sec : list Z) (n : network) : outcome (list Z) :=
  let! r := segwitAddress hash160 sec (zeros 76) n in Ok (cstr (snd r)).
Definition nested_string (sec : list Z) (n : network) : outcome (list Z) :=
  Ok (cstr (snd (nestedSegwitAddress dsha hash160 sec (zeros 40) n))).
(** HDWallet.cpp:319-328 [String HDPrivateKey::address()]. *)
Definition hk_address_string (k : hdpriv) : outcome (list Z) :=
  let sec := sec_of (mulG (hk_num k)) in
  match hk_type k with
  | P2WPKH => segwit_string sec (hk_net k)
  | P2SH_P2WPKH => nested_string sec (hk_net k)
  | P2PKH => legacy_string sec (hk_net k)
  | _ => segwit_string sec (hk_net k)
  end.
(** HDWallet.cpp:747-757 [String HDPublicKey::address()]. *)
Definition hp_address_string (k : hdpub) : outcome (list Z) :=
  let sec := sec_of (hp_point k) in
  match hp_type k with
  | P2WPKH => segwit_string sec (hp_net k)
  | P2SH_P2WPKH => nested_string sec (hp_net k)
  | P2PKH => legacy_string sec (hp_net k)
  | _ => segwit_string sec (hp_net k)
  end.

(** HDWallet.cpp:332-362 [HDPrivateKey::xpub(arr, len)]: the array hex, as far as it is encoded, is written here and not
    through an HDPublicKey. *)
Definition hk_xpub (k : hdpriv) (out : list Z) : Z * list Z :=
  toBase58Check dsha (pub_version (hk_net k) (hk_type k) ++ [hk_depth k] ++ hk_fp k ++ be32 (hk_child k) ++ hk_chain k ++ sec_of (mulG (hk_num k))) out.
(** HDWallet.cpp:742-746 [String xpub()]; [String xprv()] is in Model/KeyStrings.v. *)
Definition hp_xpub_string (k : hdpub) : list Z := cstr (snd (xpub_text dsha k (zeros 114))).
(** HDWallet.cpp:364-370 and 760-766 [fingerprint]. *)
Definition hk_fingerprint (k : hdpriv) : list Z := firstn 4 (hash160 (sec_of (mulG (hk_num k)))).
Definition hp_fingerprint (k : hdpub) : list Z := firstn 4 (hash160 (sec_of (hp_point k))).
End Wallet.
