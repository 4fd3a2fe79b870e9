(** Addresses of the standard scripts. *)
From Verif Require Import Base.Bytes Model.Networks Spec.Codecs Spec.Bech32.
Open Scope Z_scope.

(** The output scripts with a standard address, by the hash they commit to. *)
Definition p2pkh_script (h : list Z) : list Z := [118; 169; 20] ++ h ++ [136; 172].
Definition p2sh_script (h : list Z) : list Z := [169; 20] ++ h ++ [135].
(** OP_0, OP_1, ..., OP_16 followed by a push of the program. *)
Definition witness_script (ver : Z) (prog : list Z) : list Z :=
  [(if ver =? 0 then 0 else 80 + ver); len prog] ++ prog.

(** Base58Check text of a payload. *)
Definition base58check_text (dsha : list Z -> list Z) (payload text : list Z) : Prop :=
  base_text 58 base58_alphabet (payload ++ firstn 4 (dsha payload)) text.

(** Parameters of a chain: version bytes of the two base-58 addresses and the
    human-readable part of the bech32 ones. *)
Record chain := mkChain { ch_pkh : Z; ch_sh : Z; ch_hrp : list Z }.
Definition main_chain : chain := mkChain 0 5 (chars "bc").
Definition test_chain : chain := mkChain 111 196 (chars "tb").
Definition reg_chain : chain := mkChain 111 196 (chars "bcrt").

(** The networks the library ships, and the chains they are for. *)
Definition chain_of (n : network) (c : chain) : Prop :=
  (n = Mainnet /\ c = main_chain) \/ (n = Testnet /\ c = test_chain) \/ (n = Regtest /\ c = reg_chain) \/ (n = Signet /\ c = test_chain).

Section AddressOf.
Variable dsha : list Z -> list Z.
Variable c : chain.
(** [address_of script text]. *)
Inductive address_of : list Z -> list Z -> Prop :=
| addr_pkh : forall h t, bytes_ok h -> len h = 20 -> base58check_text dsha (ch_pkh c :: h) t -> address_of (p2pkh_script h) t
| addr_sh : forall h t, bytes_ok h -> len h = 20 -> base58check_text dsha (ch_sh c :: h) t -> address_of (p2sh_script h) t
| addr_wpkh : forall h t, bytes_ok h -> len h = 20 -> segwit_text (ch_hrp c) 0 h t -> address_of (witness_script 0 h) t
| addr_wsh : forall h t, bytes_ok h -> len h = 32 -> segwit_text (ch_hrp c) 0 h t -> address_of (witness_script 0 h) t.
End AddressOf.

(** The scripts [address_of] covers. *)
Definition standard_script (bs : list Z) : Prop :=
  exists h, bytes_ok h /\
    ((len h = 20 /\ (bs = p2pkh_script h \/ bs = p2sh_script h \/ bs = witness_script 0 h)) \/
     (len h = 32 /\ bs = witness_script 0 h)).

(** BIP 350: the checksum of witness versions above 0 (bech32m). *)
Definition bech32m_text (hrp : list Z) (ver : Z) (prog text : list Z) : Prop :=
  exists gs check, in_groups prog gs /\ Forall value_ok check /\ len check = 6 /\
    polymod (hrp_expand hrp ++ ver :: gs ++ check) = 734539939 /\ text = bech32_text hrp (ver :: gs ++ check).
