(** C15, C16, C32, C33, C62: scalars, private keys and the wallet import format. *)
From Verif Require Import Base.Bytes Model.Conversion Model.Stream Model.Networks Model.Keys
  Spec.Codecs Spec.StreamOps Spec.Wire Spec.Objects Spec.Keys Proof.KeyFacts.
Open Scope Z_scope.

(** A stand-in hash for the examples. *)
Definition ex_hash (m : list Z) : list Z := be_bytes 32 (be_val 256 m mod (2^256 - 189)).
Definition ex_secret : list Z := be_bytes 32 (2^200 + 12345).

(** * C11, continued: a base 58 string not starting with '1' that passes the checksum is
    the one and only encoding of its payload. *)
Theorem C11_base58check_canonical : forall dsha s out l out', fromBase58Check dsha s out = (l, out') -> l <> 0 ->
  Forall (fun c => In c base58_alphabet) s -> hd 0 s <> nth 0 base58_alphabet 0 -> len s <= 300 ->
  exists payload, len payload = l /\ bytes_ok payload /\ out' = payload ++ skipn (Z.to_nat l) out /\
    base_text 58 base58_alphabet (payload ++ firstn 4 (dsha payload)) s.
Proof. exact base58check_canonical. Qed.
Print Assumptions C11_base58check_canonical.
Example C11_canonical_case :
  let '(l, t) := toBase58Check ex_hash [128; 1; 2; 3] (zeros 20) in
  fromBase58Check ex_hash (firstn (Z.to_nat l) t) (zeros 10) = (4, [128; 1; 2; 3] ++ zeros 6).
Proof. vm_compute. reflexivity. Qed.

(** * C15, C16: scalars and private keys on streams *)
Theorem C15_scalar_slices : forall k, length (sc_num k) = 32%nat -> gives_slices (sc_to_stream k) (sc_num k).
Proof. exact sc_slices. Qed.
Print Assumptions C15_scalar_slices.
Theorem C16_scalar_chunks : forall k, length (sc_num k) = 32%nat -> sc_status k <> INCOMPLETE ->
  chunk_invariant sc_parse sc_status k.
Proof. exact sc_chunks. Qed.
Print Assumptions C16_scalar_chunks.
Example C16_scalar_case :
  feed sc_parse sc_status sc_new [firstn 10 ex_secret; skipn 10 ex_secret ++ [7]] =
  Ok (mkSc ex_secret DONE 32, 32, [7]).
Proof. vm_compute. reflexivity. Qed.

(** * C62: a secret that is parsed *)
(** In full: parsing succeeds exactly for 1..n-1 and keeps the number. *)
Theorem C62_scalar_parse_partial : forall k num rest, length (sc_num k) = 32%nat -> sc_status k = DONE ->
  length num = 32%nat -> bytes_ok num -> be_val 256 num < group_order ->
  sc_parse k (num ++ rest) =
  Ok (mkSc num (if be_val 256 num =? 0 then FAILED else DONE) 32, 32, rest).
Proof. exact sc_parses_small. Qed.
Print Assumptions C62_scalar_parse_partial.
(** Numbers from the group order on are accepted and reduced; the order itself becomes 0. *)
Theorem C62_scalar_range_refuted : forall k num rest, length (sc_num k) = 32%nat -> sc_status k = DONE ->
  length num = 32%nat -> bytes_ok num -> group_order <= be_val 256 num ->
  exists num', sc_parse k (num ++ rest) = Ok (mkSc num' DONE 32, 32, rest) /\ length num' = 32%nat /\ bytes_ok num' /\
    be_val 256 num' = be_val 256 num - group_order.
Proof. exact sc_parses_large. Qed.
Print Assumptions C62_scalar_range_refuted.
Example C62_order_case : sc_parse sc_new (be_bytes 32 group_order) = Ok (mkSc (zeros 32) DONE 32, 32, []).
Proof. vm_compute. reflexivity. Qed.

(** * C32: there and back *)
Theorem C32_wif_roundtrip : forall dsha, (forall m, length (dsha m) = 32%nat) -> (forall m, bytes_ok (dsha m)) ->
  forall k out, In (pk_net k) networks -> length (pk_num k) = 32%nat -> bytes_ok (pk_num k) -> 53 <= len out ->
  exists text net', wif dsha k out = (len text, text ++ zeros (length out - length text)) /\
    wif_text dsha (n_wif (pk_net k)) (pk_num k) (if pk_compressed k then [1] else []) text /\
    In net' networks /\ n_wif net' = n_wif (pk_net k) /\
    forall k0, fromWIF dsha k0 text = (1, mkPk (pk_num k) net' (pk_compressed k)).
Proof. exact wif_roundtrip. Qed.
Print Assumptions C32_wif_roundtrip.
Example C32_wif_case :
  let k := mkPk ex_secret Testnet true in
  let '(l, t) := wif ex_hash k (zeros 53) in
  l = 52 /\ fromWIF ex_hash (mkPk (zeros 32) Mainnet false) (firstn 52 t) = (1, k).
Proof. vm_compute. split; reflexivity. Qed.
(** The network itself does not survive for regtest: it comes back as testnet. *)
Theorem C32_regtest_refuted : forall dsha, (forall m, length (dsha m) = 32%nat) -> (forall m, bytes_ok (dsha m)) ->
  forall num c out k0, length num = 32%nat -> bytes_ok num -> 53 <= len out ->
  let '(l, t) := wif dsha (mkPk num Regtest c) out in
  fromWIF dsha k0 (firstn (Z.to_nat l) t) = (1, mkPk num Testnet c) /\ n_bech32 Testnet <> n_bech32 Regtest.
Proof. exact wif_regtest. Qed.
Print Assumptions C32_regtest_refuted.

(** * C33: only what wif() writes is accepted *)
(** False: any flag byte is accepted, for every secret. *)
Theorem C33_flag_refuted : forall dsha, (forall m, length (dsha m) = 32%nat) -> (forall m, bytes_ok (dsha m)) ->
  forall net num f, In net networks -> length num = 32%nat -> bytes_ok num -> 1 < f < 256 ->
  exists text, (forall k0, fst (fromWIF dsha k0 text) = 1 /\ pk_num (snd (fromWIF dsha k0 text)) = num) /\
    forall k out, In (pk_net k) networks -> length (pk_num k) = 32%nat -> bytes_ok (pk_num k) -> 53 <= len out ->
      wif dsha k out <> (len text, text ++ zeros (length out - length text)).
Proof. exact wif_flag_refuted. Qed.
Print Assumptions C33_flag_refuted.
(** False: every 32 byte string is accepted as a secret, 0 and numbers from the order on included. *)
Theorem C33_range_refuted : forall dsha, (forall m, length (dsha m) = 32%nat) -> (forall m, bytes_ok (dsha m)) ->
  forall net num, In net networks -> length num = 32%nat -> bytes_ok num ->
  exists text, forall k0, exists net' c, fromWIF dsha k0 text = (1, mkPk num net' c).
Proof. exact wif_range_refuted. Qed.
Print Assumptions C33_range_refuted.
Example C33_zero_case :
  let '(l, t) := wif ex_hash (mkPk (zeros 32) Mainnet true) (zeros 53) in
  fromWIF ex_hash (mkPk (zeros 32) Mainnet false) (firstn (Z.to_nat l) t) = (1, mkPk (zeros 32) Mainnet true).
Proof. vm_compute. reflexivity. Qed.
(** True: a base 58 string not starting with '1' that is accepted is the Base58Check text of
    a known version byte, the secret returned and at most one flag byte. Missing from the
    full property: the range of the secret, the value of the flag byte, and strings with
    other characters (see C11 and C09 for what the decoder ignores). *)
Theorem C33_sound_partial : forall dsha k s k', fromWIF dsha k s = (1, k') -> Forall (fun c => In c base58_alphabet) s ->
  hd 0 s <> nth 0 base58_alphabet 0 -> len s <= 300 ->
  exists flag, wif_text dsha (n_wif (pk_net k')) (pk_num k') flag s /\ In (pk_net k') networks /\
    length (pk_num k') = 32%nat /\ bytes_ok (pk_num k') /\
    (flag = [] /\ pk_compressed k' = false \/
     exists f, flag = [f] /\ byte_ok f /\ pk_compressed k' = (0 <? f)).
Proof. exact wif_sound. Qed.
Print Assumptions C33_sound_partial.
