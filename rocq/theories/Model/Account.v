(** A wallet made from words: src/HDWallet.cpp, with the hash functions of src/Hash.cpp and the multiplication of
    src/BitcoinCurve.cpp in the place of the parameters of Model/HD.v. *)
From Verif Require Import Base.Bytes Model.Networks Model.Sign Model.HD Model.Hash Model.Bignum Model.PointOps Model.Wallet Model.KeyStrings.
Open Scope Z_scope.

(** HDWallet.cpp:261-295 [fromMnemonic], and the constructors that call it, 76-85. The progress callback is
    not modelled. *)
Definition from_mnemonic (words password : list Z) (net : network) : hdpriv := from_seed sha512Hmac (mnemonic_seed words password) net.
(** HDWallet.cpp:477-523 [derive(path)]; [rz] is the random number of the multiplications (ecdsa.c:180-240), whose results
    do not depend on it (C71). *)
Definition wallet_derive (rz : bn) : hdpriv -> list Z -> outcome hdpriv := hk_derive_path sha512Hmac hash160 (code_mulG rz).
(** HDWallet.cpp:319-328 [String address()]. *)
Definition wallet_address (rz : bn) : hdpriv -> outcome (list Z) := hk_address_string doubleSha hash160 (code_mulG rz).
(** HDWallet.cpp:378-381 [xpub()] and 742-746 [String HDPublicKey::xpub()]. *)
Definition wallet_xpub (rz : bn) (k : hdpriv) : outcome (list Z) := xpub_string doubleSha (to_pub (code_mulG rz) k).
(** HDWallet.cpp:314-318 [String xprv()]. *)
Definition wallet_xprv (k : hdpriv) : outcome (list Z) := xprv_string doubleSha k.
