(** C29, C30, C31: addresses. [dsha] stands for double SHA-256, [hash160] for RIPEMD-160
    of SHA-256: only their lengths are used. *)
From Coq Require Import Lia.
From Verif Require Import Base.Bytes Base.BytesFacts Model.Conversion Model.Script Model.Sign Model.Bech32 Model.Networks Model.Address
  Spec.Codecs Spec.Bech32 Spec.Objects Spec.Address Spec.AddrOver Proof.AddrProps Proof.AddrOverFacts.
Open Scope Z_scope.

(** * C29 *)
(** Refuted three ways. A valid address of a program of 33 to 40 bytes overruns prog[32]. *)
Theorem C29_long_program_refuted : forall dsha s ver prog text,
  program_ok ver prog -> 32 < len prog -> segwit_text (chars "bc") ver prog text ->
  script_fromAddress dsha s text = UB.
Proof. exact long_program_over. Qed.
Print Assumptions C29_long_program_refuted.
(** 85 to 100 printable characters without the separator '1' overrun hrp_actual[84]. *)
Theorem C29_no_separator_refuted : forall dsha s r,
  ~ In 49 r -> Forall (fun c => 33 <= c <= 126) r -> 82 < len r <= 98 ->
  script_fromAddress dsha s (chars "bc" ++ r) = UB.
Proof. exact no_separator_over. Qed.
Print Assumptions C29_no_separator_refuted.
(** More than 90 data characters overrun data[84], whatever the checksum. *)
Theorem C29_long_data_refuted : forall dsha s vals,
  Forall value_ok vals -> 90 < len vals <= 97 ->
  script_fromAddress dsha s (bech32_text (chars "bc") vals) = UB.
Proof. exact long_data_over. Qed.
Print Assumptions C29_long_data_refuted.
(** Exactly the texts of Spec/AddrOver.v overrun a buffer. *)
Theorem C29_overruns : forall dsha s a, script_fromAddress dsha s a = UB <-> overruns a.
Proof. exact overruns_iff. Qed.
Print Assumptions C29_overruns.
(** What holds: all texts of up to 62 or more than 100 characters or with another prefix are read without overrun. *)
Theorem C29_short_addresses_partial : forall dsha s a,
  len a <= 62 \/ 100 < len a \/ (firstn 2 a <> chars "bc" /\ firstn 2 a <> chars "tb") ->
  exists s', script_fromAddress dsha s a = Ok s'.
Proof. exact short_safe. Qed.
Print Assumptions C29_short_addresses_partial.

(** The forty-byte vector of BIP 173; 'bc' and 90 times 'x'; 'bc1' and 97 times 'q'. *)
Example C29_ex : forall dsha,
  script_fromAddress dsha script_new (chars "bc1pw508d6qejxtdg4y5r3zarvary0c5xw7kw508d6qejxtdg4y5r3zarvary0c5xw7k7grplx") = UB /\
  script_fromAddress dsha script_new (chars "bc" ++ repeat 120 90) = UB /\
  script_fromAddress dsha script_new (chars "bc1" ++ repeat 113 97) = UB.
Proof. intros dsha. split; [|split]; vm_compute; reflexivity. Qed.

(** * C30 *)
(** A standard script's address on any network is the standard one; it is copied when
    the buffer has room (without a terminating NUL if it just fits). *)
Theorem C30_address : forall dsha, (forall m, length (dsha m) = 32%nat) -> (forall m, bytes_ok (dsha m)) ->
  forall n c s bs buffer, chain_of n c -> script_holds s bs -> standard_script bs ->
  exists text, address_of dsha c bs text /\
    script_address dsha s buffer n =
      Ok (if len text <=? len buffer then (len text, text ++ zeros (length buffer - length text)) else (0, zeros (length buffer))).
Proof. exact address_text. Qed.
Print Assumptions C30_address.
(** Other scripts have none. *)
Theorem C30_no_address : forall dsha s buffer n,
  (forall t, In t [P2PKH; P2SH; P2WPKH; P2WSH] -> script_type_of s <> t) ->
  script_address dsha s buffer n = Ok (0, zeros (length buffer)).
Proof. exact other_type. Qed.
Print Assumptions C30_no_address.
(** The address gives the script back: all scripts on Mainnet, Testnet and Signet, and P2PKH and
    P2SH on Regtest, P2PKH on Mainnet if the hash does not start with two zero bytes. *)
Theorem C30_round_trip : forall dsha, (forall m, length (dsha m) = 32%nat) -> (forall m, bytes_ok (dsha m)) ->
  forall n c s bs text, chain_of n c -> address_of dsha c bs text ->
  (c = main_chain -> forall h, bs = p2pkh_script h -> firstn 2 h <> [0; 0]) ->
  (c = reg_chain -> forall h, bs <> witness_script 0 h) ->
  exists s', script_fromAddress dsha s text = Ok s' /\ script_holds s' bs.
Proof. exact address_round_trip. Qed.
Print Assumptions C30_round_trip.
(** Nothing else is accepted: either a bech32 address with a good checksum, in lower case, or a base-58
    text whose last four bytes are the hash of the others. *)
Theorem C30_checked : forall dsha, (forall m, length (dsha m) = 32%nat) ->
  forall s a s', script_fromAddress dsha s a = Ok s' -> s' <> script_clear s ->
  (exists hrp ver prog, (hrp = chars "bc" \/ hrp = chars "tb") /\ program_ok ver prog /\ segwit_text hrp ver prog a /\
     sc_arr s' = ver :: len prog :: prog) \/
  (exists p h, len h = 20 /\ fst (fromBase58 a (zeros 25)) = 25 /\
     firstn 25 (snd (fromBase58 a (zeros 25))) = p :: h ++ firstn 4 (dsha (p :: h)) /\
     (((p = 0 \/ p = 111) /\ sc_arr s' = p2pkh_script h) \/ ((p = 5 \/ p = 196) /\ sc_arr s' = p2sh_script h))).
Proof. exact accepted. Qed.
Print Assumptions C30_checked.
(** The three addresses of a public key are those of the scripts that pay to it. segwitAddress
    returns 76 instead of the length. *)
Theorem C30_key_addresses : forall dsha hash160, (forall m, length (dsha m) = 32%nat) -> (forall m, bytes_ok (dsha m)) ->
  (forall m, length (hash160 m) = 20%nat) -> (forall m, bytes_ok (hash160 m)) ->
  forall n c sec buffer, chain_of n c -> 76 <= len buffer ->
  exists a b d, address_of dsha c (p2pkh_script (hash160 sec)) a /\
    address_of dsha c (witness_script 0 (hash160 sec)) b /\
    address_of dsha c (p2sh_script (hash160 (witness_script 0 (hash160 sec)))) d /\
    legacyAddress dsha hash160 sec buffer n = (len a, a ++ zeros (length buffer - length a)) /\
    segwitAddress hash160 sec buffer n = Ok (76, b ++ zeros (length buffer - length b)) /\
    nestedSegwitAddress dsha hash160 sec buffer n = (len d, d ++ zeros (length buffer - length d)).
Proof. exact key_addresses. Qed.
Print Assumptions C30_key_addresses.

(** With a function in the place of double SHA-256 whose first four bytes are those of the hash
    of the payload of 1BvBMSEYstWetqTFn5Au4m4GFg7xJaNVN2. *)
Definition ex_hash : list Z := [119; 191; 242; 12; 96; 229; 34; 223; 170; 51; 80; 195; 155; 3; 10; 93; 0; 78; 131; 154].
Definition ex_dsha (m : list Z) : list Z := [244; 21; 118; 107] ++ zeros 28.
Example C30_ex :
  chain_of Mainnet main_chain /\ script_holds (script_of (p2pkh_script ex_hash)) (p2pkh_script ex_hash) /\ standard_script (p2pkh_script ex_hash) /\
  script_address ex_dsha (script_of (p2pkh_script ex_hash)) (zeros 40) Mainnet = Ok (34, chars "1BvBMSEYstWetqTFn5Au4m4GFg7xJaNVN2" ++ zeros 6) /\
  script_fromAddress ex_dsha script_new (chars "1BvBMSEYstWetqTFn5Au4m4GFg7xJaNVN2") = Ok (script_of (p2pkh_script ex_hash)) /\
  script_fromAddress ex_dsha script_new (chars "1BvBMSEYstWetqTFn5Au4m4GFg7xJaNVN3") = Ok script_new /\
  script_fromAddress ex_dsha script_new (chars "tb1qw508d6qejxtdg4y5r3zarvary0c5xw7kxpjzsx")
  = Ok (script_of [0; 20; 117; 30; 118; 232; 25; 145; 150; 212; 84; 148; 28; 69; 209; 179; 163; 35; 241; 67; 59; 214]).
Proof.
  assert (B : bytes_ok ex_hash) by (apply bytes_ok_bool; vm_compute; reflexivity).
  split; [left; auto|]. split; [split; [reflexivity|]; split; [reflexivity|]; split; [apply bytes_ok_bool; vm_compute; reflexivity|vm_compute; reflexivity]|].
  split; [exists ex_hash; split; [auto|]; left; split; [reflexivity|auto]|]. split; [vm_compute; reflexivity|]. split; [vm_compute; reflexivity|]. split; vm_compute; reflexivity.
Qed.

(** * C31 *)
(** Refuted: an address on some network does not give its script back. *)
Theorem C31_every_network_refuted : forall dsha, (forall m, length (dsha m) = 32%nat) -> (forall m, bytes_ok (dsha m)) ->
  ~ (forall n c s bs text, chain_of n c -> address_of dsha c bs text ->
       exists s', script_fromAddress dsha s text = Ok s' /\ script_holds s' bs).
Proof. exact any_chain_refuted. Qed.
Print Assumptions C31_every_network_refuted.
(** A P2PKH address on Mainnet gives its script back exactly if it has 33 characters or more;
    a shorter one gives an empty script. *)
Theorem C31_short_address_refuted : forall dsha, (forall m, length (dsha m) = 32%nat) -> (forall m, bytes_ok (dsha m)) ->
  forall s h text, address_of dsha main_chain (p2pkh_script h) text ->
  ((exists s', script_fromAddress dsha s text = Ok s' /\ script_holds s' (p2pkh_script h)) <-> 33 <= len text) /\
  (len text < 33 -> script_fromAddress dsha s text = Ok (script_clear s)).
Proof. exact short_address. Qed.
Print Assumptions C31_short_address_refuted.
(** No bech32 address on Regtest is understood: its prefix starts with that of Mainnet. *)
Theorem C31_regtest_refuted : forall dsha s h text,
  bytes_ok h -> len h = 20 \/ len h = 32 -> segwit_text (ch_hrp reg_chain) 0 h text ->
  script_fromAddress dsha s text = Ok (script_clear s).
Proof. exact regtest_refused. Qed.
Print Assumptions C31_regtest_refuted.
(** Witness versions from 1 are stored as they are and not as OP_1 to OP_16. *)
Theorem C31_versions_refuted : forall dsha s n c ver prog text,
  (n = Mainnet /\ c = main_chain) \/ (n = Testnet /\ c = test_chain) ->
  program_ok ver prog -> 1 <= ver -> len prog <= 32 -> segwit_text (ch_hrp c) ver prog text ->
  exists s', script_fromAddress dsha s text = Ok s' /\ script_holds s' (ver :: len prog :: prog) /\
    ver :: len prog :: prog <> witness_script ver prog.
Proof. exact version_raw. Qed.
Print Assumptions C31_versions_refuted.
(** Taproot and later addresses (BIP 350) are refused. *)
Theorem C31_bech32m_refuted : forall dsha s n c ver prog text,
  (n = Mainnet /\ c = main_chain) \/ (n = Testnet /\ c = test_chain) ->
  program_ok ver prog -> bech32m_text (ch_hrp c) ver prog text ->
  script_fromAddress dsha s text = Ok (script_clear s).
Proof. exact bech32m_refused. Qed.
Print Assumptions C31_bech32m_refuted.

(** The burn address (its checksum is that of the true hash), a Regtest address, version 16 of BIP 173 and
    the Taproot vector of BIP 350. *)
Definition burn_dsha (m : list Z) : list Z := [148; 160; 9; 17] ++ zeros 28.
Example C31_ex :
  script_address burn_dsha (script_of (p2pkh_script (zeros 20))) (zeros 40) Mainnet = Ok (27, chars "1111111111111111111114oLvT2" ++ zeros 13) /\
  script_fromAddress burn_dsha script_new (chars "1111111111111111111114oLvT2") = Ok script_new /\
  script_address burn_dsha (script_of [0; 20; 117; 30; 118; 232; 25; 145; 150; 212; 84; 148; 28; 69; 209; 179; 163; 35; 241; 67; 59; 214]) (zeros 44) Regtest
    = Ok (44, chars "bcrt1qw508d6qejxtdg4y5r3zarvary0c5xw7kygt080") /\
  script_fromAddress burn_dsha script_new (chars "bcrt1qw508d6qejxtdg4y5r3zarvary0c5xw7kygt080") = Ok script_new /\
  script_fromAddress burn_dsha script_new (chars "bc1sw50qa3jx3s") = Ok (script_of [16; 2; 117; 30]) /\
  script_fromAddress burn_dsha script_new (chars "bc1p0xlxvlhemja6c4dqv22uapctqupfhlxm9h8z3k2e72q4k9hcz7vqzk5jj0") = Ok script_new.
Proof. split; [|split; [|split; [|split; [|split]]]]; vm_compute; reflexivity. Qed.
