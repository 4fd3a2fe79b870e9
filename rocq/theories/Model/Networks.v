(** Network constants: src/Networks.h, src/Networks.cpp. *)
From Verif Require Import Base.Bytes.
Open Scope Z_scope.

(** Networks.h:12-46. *)
Record network := mkNetwork {
  n_p2pkh : Z; n_p2sh : Z; n_bech32 : list Z; n_wif : Z;
  n_xprv : list Z; n_yprv : list Z; n_zprv : list Z; n_Yprv : list Z; n_Zprv : list Z;
  n_xpub : list Z; n_ypub : list Z; n_zpub : list Z; n_Ypub : list Z; n_Zpub : list Z;
  n_bip32 : Z }.

(** Networks.cpp:4-20. *)
Definition Mainnet : network := mkNetwork 0 5 (chars "bc") 128
  [4; 136; 173; 228] [4; 157; 120; 120] [4; 178; 67; 12] [2; 149; 176; 5] [2; 170; 122; 153]
  [4; 136; 178; 30] [4; 157; 124; 178] [4; 178; 71; 70] [2; 149; 180; 63] [2; 170; 126; 211] 0.
(** Networks.cpp:22-38. *)
Definition Testnet : network := mkNetwork 111 196 (chars "tb") 239
  [4; 53; 131; 148] [4; 74; 78; 40] [4; 95; 24; 188] [2; 66; 133; 181] [2; 87; 80; 72]
  [4; 53; 135; 207] [4; 74; 82; 98] [4; 95; 28; 246] [2; 66; 137; 239] [2; 87; 84; 131] 1.
(** Networks.cpp:40-56. *)
Definition Regtest : network := mkNetwork 111 196 (chars "bcrt") 239
  [4; 53; 131; 148] [4; 74; 78; 40] [4; 95; 24; 188] [2; 66; 133; 181] [2; 87; 80; 72]
  [4; 53; 135; 207] [4; 74; 82; 98] [4; 95; 28; 246] [2; 66; 137; 239] [2; 87; 84; 131] 1.
(** Networks.cpp:58-59. *)
Definition Signet : network := Testnet.
(** Networks.cpp:61-62. *)
Definition networks : list network := [Mainnet; Testnet; Regtest; Signet].
