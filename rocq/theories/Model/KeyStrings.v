(** Texts of keys and addresses as Strings that end at a NUL in the buffer: Bitcoin.cpp, HDWallet.cpp, Script.cpp. *)
From Verif Require Import Base.Bytes Model.Conversion Model.Networks Model.Sign Model.Script Model.HD Model.Keys Model.Address Model.Strings.
Open Scope Z_scope.

Section KeyStrings.
Variable dsha : list Z -> list Z.
Variable hash160 : list Z -> list Z.
(** Bitcoin.cpp:553-557 [String PrivateKey::wif()]. *)
Definition wif_string (k : privkey) : outcome (list Z) := c_string (snd (wif dsha k (zeros 53))).
(** HDWallet.cpp:314-318 [String HDPrivateKey::xprv()]. *)
Definition xprv_string (k : hdpriv) : outcome (list Z) := c_string (snd (xprv dsha k (zeros 112))).
(** HDWallet.cpp:742-746 [String HDPublicKey::xpub()]. *)
Definition xpub_string (k : hdpub) : outcome (list Z) := c_string (snd (xpub_text dsha k (zeros 114))).
(** Script.cpp:408-415 [String Script::address(network)]. *)
Definition address_string (s : script) (n : network) : outcome (list Z) :=
  let! r := script_address dsha s (zeros 100) n in
  if fst r =? 0 then Ok [] else c_string (snd r).
(** Bitcoin.cpp:387-391, 406-410, 428-432: addresses of a public key with the bytes [sec]. *)
Definition legacy_address_string (sec : list Z) (n : network) : outcome (list Z) :=
  c_string (snd (legacyAddress dsha hash160 sec (zeros 40) n)).
Definition segwit_address_string (sec : list Z) (n : network) : outcome (list Z) :=
  let! r := segwitAddress hash160 sec (zeros 76) n in c_string (snd r).
Definition nested_address_string (sec : list Z) (n : network) : outcome (list Z) :=
  c_string (snd (nestedSegwitAddress dsha hash160 sec (zeros 40) n)).
End KeyStrings.
