(** C88, C89: conversions to String, and objects made from text. *)
From Coq Require Import Lia.
From Verif Require Import Base.Bytes Base.BytesFacts Model.Conversion Model.Strings Model.Stream Model.Keys Model.Networks Model.Script Model.Tx
  Model.Address Model.Make Spec.Codecs Spec.Wire Spec.Objects Spec.Text Spec.Make Spec.Bech32 Spec.Address Spec.Keys
  Proof.KeyFacts Proof.StringFacts Proof.MakeFacts.
Open Scope Z_scope.

(** * C88: a conversion that returns a String returns the whole text, whatever was in the memory it works in. *)
Theorem C88_hex : forall heap, (forall n, length (heap n) = n) ->
  forall bs, bytes_ok bs -> len bs < 2^50 -> toHex_string heap bs = Ok (hex_string bs).
Proof. exact toHex_string_ok. Qed.
Print Assumptions C88_hex.
Theorem C88_bin : forall heap, (forall n, length (heap n) = n) ->
  forall bs, bytes_ok bs -> len bs < 2^50 -> toBin_string heap bs = Ok (bin_string bs).
Proof. exact toBin_string_ok. Qed.
Print Assumptions C88_bin.
Theorem C88_base58 : forall heap, (forall n, length (heap n) = n) ->
  forall bs, bytes_ok bs -> len bs < 2^40 -> exists text, toBase58_string heap bs = Ok text /\ base_text 58 base58_alphabet bs text.
Proof. exact toBase58_string_ok. Qed.
Print Assumptions C88_base58.
Theorem C88_base43 : forall bs, bytes_ok bs -> len bs < 2^40 ->
  exists text, toBase43_string bs = Ok text /\ base_text 43 base43_alphabet bs text.
Proof. exact toBase43_string_ok. Qed.
Print Assumptions C88_base43.
(** Bytes that are not all zero (a version byte of Mainnet and an empty hash are). *)
Theorem C88_base58check_partial : forall heap, (forall n, length (heap n) = n) ->
  forall dsha, (forall m, length (dsha m) = 32%nat) -> (forall m, bytes_ok (dsha m)) ->
  forall bs, bytes_ok bs -> bs <> zeros (length bs) -> len bs < 2^39 ->
  exists text, toBase58Check_string heap dsha bs = Ok text /\ base58check_text dsha bs text.
Proof. exact toBase58Check_string_ok. Qed.
Print Assumptions C88_base58check_partial.
(** Any number of zero bytes: the bytes behind the array are read. *)
Theorem C88_base58check_refuted : forall heap dsha n, toBase58Check_string heap dsha (zeros n) = UB.
Proof. exact toBase58Check_string_zeros. Qed.
Print Assumptions C88_base58check_refuted.
(** With each combination of flags. *)
Theorem C88_base64_partial : forall heap, (forall n, length (heap n) = n) ->
  forall fl bs, bytes_ok bs -> bs <> [] -> len bs < 2^50 ->
  toBase64_string heap fl bs = Ok (base64_text (urlsafe fl) (negb (nopad fl)) bs).
Proof. exact toBase64_string_ok. Qed.
Print Assumptions C88_base64_partial.
Theorem C88_base64_refuted : forall heap, (forall n, length (heap n) = n) -> forall fl, toBase64_string heap fl [] = UB.
Proof. exact toBase64_string_empty. Qed.
Print Assumptions C88_base64_refuted.

Definition ex_heap (n : nat) : list Z := repeat 170 n.
Definition ex_sum (m : list Z) : list Z := [1; 2; 3; 4] ++ zeros 28.
Example C88_ex : (forall n, length (ex_heap n) = n) /\
  toHex_string ex_heap [0; 222; 173] = Ok (chars "00dead") /\
  toBin_string ex_heap [5] = Ok (chars "00000101") /\
  toBase58_string ex_heap [0; 0; 1; 2; 3] = Ok (chars "11Ldp") /\
  toBase43_string [0; 255; 0; 17] = Ok (chars "04+8A5") /\
  toBase58Check_string ex_heap ex_sum [0; 7] = Ok (chars "1nqDUUT") /\
  toBase64_string ex_heap {| nopad := true; urlsafe := true |} [251; 255] = Ok (chars "-_8").
Proof. split; [intros n; unfold ex_heap; apply repeat_length|]. repeat split; vm_compute; reflexivity. Qed.

(** * C89: an object made from a text is what the text says, or says that it is not. *)
(** The 64 digits of an identifier, of either case, whatever follows. [id] is the identifier as it is shown. *)
Theorem C89_input : forall text id rest i q, hex_text text id -> len text = 64 -> 0 <= i < 2^32 -> 0 <= q < 2^32 ->
  exists x, txin_text (text ++ rest) i q = Ok x /\
    txin_holds x {| si_prev := rev id; si_vout := i; si_sig := []; si_seq := q; si_wit := [] |}.
Proof. exact input_text. Qed.
Print Assumptions C89_input.
Theorem C89_input_script : forall memory text id rest i s bs q, hex_text text id -> len text = 64 -> 0 <= i < 2^32 -> 0 <= q < 2^32 ->
  script_holds s bs ->
  exists x, txin_text_script memory (text ++ rest) i s q = Ok x /\
    txin_holds x {| si_prev := rev id; si_vout := i; si_sig := bs; si_seq := q; si_wit := [] |}.
Proof. exact input_text_script. Qed.
Print Assumptions C89_input_script.
(** What txid() of a transaction returns makes an input that spends this transaction. *)
Theorem C89_input_txid : forall heap dsha, (forall n, length (heap n) = n) -> (forall m, length (dsha m) = 32%nat) -> (forall m, bytes_ok (dsha m)) ->
  forall t v i q, tx_holds t v -> countable v -> 0 <= i < 2^32 -> 0 <= q < 2^32 ->
  exists text x, tx_txid_string heap dsha t = Ok text /\ text = hex_string (rev (dsha (wire_legacy v))) /\
    txin_text text i q = Ok x /\
    txin_holds x {| si_prev := dsha (wire_legacy v); si_vout := i; si_sig := []; si_seq := q; si_wit := [] |}.
Proof. exact input_txid. Qed.
Print Assumptions C89_input_txid.
Theorem C89_output : forall dsha, (forall m, length (dsha m) = 32%nat) -> (forall m, bytes_ok (dsha m)) ->
  forall n c bs text a, chain_of n c -> address_of dsha c bs text ->
  (c = main_chain -> forall h, bs = p2pkh_script h -> firstn 2 h <> [0; 0]) ->
  (c = reg_chain -> forall h, bs <> witness_script 0 h) -> 0 <= a < 2^64 ->
  exists o, txout_text dsha a text = Ok o /\ txout_holds o {| so_value := a; so_script := bs |}.
Proof. exact output_text. Qed.
Print Assumptions C89_output.
(** A transaction put together from txid() and an address serializes to the transaction meant. *)
Theorem C89_build : forall dsha, (forall m, length (dsha m) = 32%nat) -> (forall m, bytes_ok (dsha m)) ->
  forall heap, (forall n, length (heap n) = n) ->
  forall t v i q n c bs address a, tx_holds t v -> countable v -> 0 <= i < 2^32 -> 0 <= q < 2^32 ->
  chain_of n c -> address_of dsha c bs address ->
  (c = main_chain -> forall h, bs = p2pkh_script h -> firstn 2 h <> [0; 0]) ->
  (c = reg_chain -> forall h, bs <> witness_script 0 h) -> 0 <= a < 2^64 ->
  exists text x o, tx_txid_string heap dsha t = Ok text /\ txin_text text i q = Ok x /\ txout_text dsha a address = Ok o /\
    let new := tx_addOutput (tx_addInput tx_new x) o in
    tx_holds new (pay (dsha (wire_legacy v)) i q a bs) /\
    serialize (tx_to_stream new) (Z.to_nat (tx_length new)) 0 = Ok (tx_length new, wire_tx (pay (dsha (wire_legacy v)) i q a bs)).
Proof. exact build. Qed.
Print Assumptions C89_build.

(** False of other texts. Characters in front that are no digits are skipped, and the input spends another transaction: the last
    digits are missing. *)
Theorem C89_spaces_refuted : forall ws id rest i q, no_digits ws -> 0 < len ws <= 64 -> bytes_ok id -> len id = 32 ->
  exists x, txin_text (ws ++ hex_string id ++ rest) i q = Ok x /\ ti_index x = i /\ ti_seq x = q /\
    let kept := firstn (Z.to_nat ((64 - len ws) / 2)) id in ti_hash x = rev (kept ++ zeros (32 - length kept)).
Proof. exact input_spaces. Qed.
Print Assumptions C89_spaces_refuted.
(** Any text that starts with a digit and another character, such as 0x: the identifier is zero. *)
Theorem C89_prefix_refuted : forall d x rest i q, (exists v, is_hex_digit d v) -> (~ exists v, is_hex_digit x v) -> 62 <= len rest ->
  txin_text (d :: x :: rest) i q = Ok (mkTxin (zeros 32) i script_new q witness_new DONE 0).
Proof. exact input_prefix. Qed.
Print Assumptions C89_prefix_refuted.
(** Fewer than 64 characters: identifier, index and sequence number are zero. *)
Theorem C89_short_refuted : forall text i q, len text < 64 -> txin_text text i q = Ok txin_new.
Proof. exact input_short. Qed.
Print Assumptions C89_short_refuted.
(** With a script the identifier is what was in memory, and the script is lost. *)
Theorem C89_junk_refuted : forall memory text i s q, len text < 64 ->
  txin_text_script memory text i s q = Ok (mkTxin memory i script_new q witness_new DONE 0).
Proof. exact input_junk. Qed.
Print Assumptions C89_junk_refuted.
(** Valid addresses that are not understood: short P2PKH ones, bech32 ones of Regtest, Taproot ones. The output is valid and has an
    empty script, which anyone can spend. *)
Theorem C89_output_refuted : forall dsha, (forall m, length (dsha m) = 32%nat) -> (forall m, bytes_ok (dsha m)) ->
  forall text a, 0 <= a < 2^64 ->
  (exists h, address_of dsha main_chain (p2pkh_script h) text /\ len text < 33) \/
  (exists h, bytes_ok h /\ (len h = 20 \/ len h = 32) /\ segwit_text (ch_hrp reg_chain) 0 h text) \/
  (exists c ver prog, (c = main_chain \/ c = test_chain) /\ program_ok ver prog /\ bech32m_text (ch_hrp c) ver prog text) ->
  exists o, txout_text dsha a text = Ok o /\ to_status o = DONE /\ txout_holds o {| so_value := a; so_script := [] |}.
Proof. exact output_empty. Qed.
Print Assumptions C89_output_refuted.
(** A private key made from a text that fromBase58Check refuses has the network that was in memory. *)
Theorem C89_key_refuted : forall dsha memory text, fst (fromBase58Check dsha text (zeros 40)) = 0 ->
  privkey_text dsha memory text = mkPk (zeros 32) (pk_net memory) (pk_compressed memory).
Proof. exact key_unknown. Qed.
Print Assumptions C89_key_refuted.

Definition ex_id : list Z := [74; 94; 30; 75; 170; 184; 159; 58; 50; 81; 138; 136; 195; 27; 200; 127; 97; 143; 118; 103; 62; 44; 199; 122; 178; 18; 123; 122; 253; 237; 163; 59].
Definition ex_id_text : list Z := chars "4a5e1e4baab89f3a32518a88c31bc87f618f76673e2cc77ab2127b7afdeda33b".
Definition ex_dsha (m : list Z) : list Z := [244; 21; 118; 107] ++ zeros 28.
Example C89_ex :
  hex_string ex_id = ex_id_text /\
  txin_text ex_id_text 3 4294967295 = Ok (mkTxin (rev ex_id) 3 script_new 4294967295 witness_new DONE 0) /\
  txin_text (chars " " ++ ex_id_text) 3 7 = Ok (mkTxin (rev (firstn 31 ex_id ++ [0])) 3 script_new 7 witness_new DONE 0) /\
  txin_text (chars "0x" ++ ex_id_text) 3 7 = Ok (mkTxin (zeros 32) 3 script_new 7 witness_new DONE 0) /\
  txout_text ex_dsha 5000 (chars "bc1p0xlxvlhemja6c4dqv22uapctqupfhlxm9h8z3k2e72q4k9hcz7vqzk5jj0") = Ok (mkTxout (zeros 8) 5000 script_new DONE 0) /\
  fst (fromBase58Check ex_dsha (chars "hello") (zeros 40)) = 0.
Proof. split; [|split; [|split; [|split; [|split]]]]; vm_compute; reflexivity. Qed.
(** A payment to a 34-character address, from the identifier of an empty transaction. *)
Definition ex_hash : list Z := [119; 191; 242; 12; 96; 229; 34; 223; 170; 51; 80; 195; 155; 3; 10; 93; 0; 78; 131; 154].
Example C89_pay_ex :
  tx_txid_string ex_heap ex_dsha tx_new = Ok (hex_string (zeros 28 ++ [107; 118; 21; 244])) /\
  txin_text (hex_string (zeros 28 ++ [107; 118; 21; 244])) 0 1 = Ok (mkTxin ([244; 21; 118; 107] ++ zeros 28) 0 script_new 1 witness_new DONE 0) /\
  txout_text ex_dsha 90000 (chars "1BvBMSEYstWetqTFn5Au4m4GFg7xJaNVN2") = Ok (mkTxout (zeros 8) 90000 (script_of (p2pkh_script ex_hash)) DONE 0).
Proof. split; [|split]; vm_compute; reflexivity. Qed.
