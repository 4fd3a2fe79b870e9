(** C15, C16, C34-C38, C63: derivation paths and extended keys. *)
From Verif Require Import Base.Bytes Model.Conversion Model.Stream Model.Networks Model.Sign Model.Keys Model.HD
  Spec.Codecs Spec.StreamOps Spec.Wire Spec.Objects Spec.Keys Spec.HD Proof.PathFacts Proof.HDFacts Proof.HDProps Proof.HDPub.
Open Scope Z_scope.

(** Stand-ins for the examples: hashes, and the additive group of numbers modulo the group
    order in the place of the curve. *)
Definition ex_hmac (k m : list Z) : list Z := be_bytes 64 (be_val 256 (k ++ m) * 3^300 mod (2^512 - 569)).
Definition ex_hash160 (m : list Z) : list Z := be_bytes 20 (be_val 256 m * 3^300 mod (2^160 - 47)).
Definition ex_dsha (m : list Z) : list Z := be_bytes 32 (be_val 256 m mod (2^256 - 189)).
Definition ex_mulG (a : list Z) : list Z := a ++ a.
Definition ex_padd (p q : list Z) : list Z :=
  let s := be_bytes 32 ((be_val 256 (firstn 32 p) + be_val 256 (firstn 32 q)) mod group_order) in s ++ s.
Definition ex_uncompress (sec _ : list Z) : outcome (list Z) := Ok (List.tl sec ++ List.tl sec).
Definition ex_key : hdpriv := from_seed ex_hmac (be_bytes 16 (2^100 + 777)) Testnet.

(** * C15, C16: extended keys on streams *)
Theorem C15_xprv_slices : forall k, hk_sized k -> In (hk_net k) networks -> gives_slices (hk_to_stream k) (hk_hex k).
Proof. exact hk_slices. Qed.
Print Assumptions C15_xprv_slices.
Theorem C15_xpub_slices : forall k, hp_sized k -> In (hp_net k) networks -> gives_slices (hp_to_stream k) (hp_hex k).
Proof. exact hp_slices. Qed.
Print Assumptions C15_xpub_slices.
Example C15_xprv_case : hk_to_stream ex_key (Some 10%nat) 70 = Ok (skipn 70 (hk_hex ex_key)) /\ hk_sized ex_key.
Proof. vm_compute. repeat split. Qed.
Theorem C16_xprv_chunks : forall k, hk_status k <> INCOMPLETE ->
  chunk_invariant (fun k st => Ok (hk_parse k st)) hk_status k.
Proof. exact hk_chunks. Qed.
Print Assumptions C16_xprv_chunks.
(** For any decompression and validity check of points. *)
Theorem C16_xpub_chunks : forall uncompress valid garbage k, hp_status k <> INCOMPLETE ->
  chunk_invariant (hp_parse uncompress valid garbage) hp_status k.
Proof. exact hp_chunks. Qed.
Print Assumptions C16_xpub_chunks.
Example C16_xprv_case :
  feed (fun k st => Ok (hk_parse k st)) hk_status hk_new [firstn 4 (hk_hex ex_key); firstn 50 (skipn 4 (hk_hex ex_key)); skipn 54 (hk_hex ex_key) ++ [9]] =
  Ok (mkHk (hk_num ex_key) (hk_chain ex_key) 0 (zeros 4) 0 Testnet UNKNOWN_TYPE (n_xprv Testnet) DONE 78, 78, [9]).
Proof. vm_compute. reflexivity. Qed.

(** * C34: paths *)
(** Every hash and every curve. The two results: the list of child numbers, and one step
    after the other with the hardening asked for explicitly. *)
Theorem C34_path_partial : forall hmac hash160 mulG pre cs post k, path_prefix pre -> path_suffix post -> cs <> [] ->
  Forall component_good cs -> len (pre ++ path_body cs ++ post) < 2^63 ->
  hk_derive_path hmac hash160 mulG k (pre ++ path_body cs ++ post) = Ok (hk_derive hmac hash160 mulG k (map child_number cs)) /\
  hk_derive_path hmac hash160 mulG k (pre ++ path_body cs ++ post) =
    Ok (fold_left (fun k c => hk_child_of hmac hash160 mulG k (component_value c) (component_hardened c)) cs k).
Proof. exact derive_path_good. Qed.
Print Assumptions C34_path_partial.
Example C34_path_case :
  path_body [([4; 4], Some 39); ([0], Some 104); ([1; 2], None)] = chars "44'/0h/12" /\
  prv_path (chars "m/44'/0h/12/") = Ok (Some [2^31 + 44; 2^31; 12]).
Proof. vm_compute. split; reflexivity. Qed.
(** Missing from the full property: the mark H, and characters right after a leading m. *)
(** False: a path with H is refused (an empty key is returned). *)
Theorem C34_upper_case_refuted : forall hmac hash160 mulG k pre body, pre = [] /\ hd 0 body <> 109 \/ pre = chars "m/" ->
  In 72 body -> len (pre ++ body) < 2^63 -> hk_derive_path hmac hash160 mulG k (pre ++ body) = Ok hk_new.
Proof. exact derive_H. Qed.
Print Assumptions C34_upper_case_refuted.
(** False: whatever follows a leading m is skipped instead of refused. *)
Theorem C34_second_character_refuted : forall hmac hash160 mulG k c x t, len t < 2^62 ->
  hk_derive_path hmac hash160 mulG k (109 :: c :: x :: t) = hk_derive_path hmac hash160 mulG k (109 :: 47 :: x :: t).
Proof. exact derive_skip. Qed.
Print Assumptions C34_second_character_refuted.
Example C34_dropped_digit_case : prv_path (chars "m44'/0'") = Ok (Some [2^31 + 4; 2^31]).
Proof. vm_compute. reflexivity. Qed.
(** Any other character anywhere else is refused. *)
Theorem C34_refuse_partial : forall hmac hash160 mulG k pre body c, pre = [] /\ hd 0 body <> 109 \/ pre = chars "m/" -> In c body ->
  ~ In c (chars "0123456789/'h" ++ [0]) -> len (pre ++ body) < 2^63 ->
  hk_derive_path hmac hash160 mulG k (pre ++ body) = Ok hk_new.
Proof. exact derive_refuse. Qed.
Print Assumptions C34_refuse_partial.
Theorem C34_refuse_pub_partial : forall hmac hash160 mulG padd k pre body c, pre = [] /\ hd 0 body <> 109 \/ pre = chars "m/" ->
  In c body -> ~ In c (chars "0123456789/" ++ [0]) -> len (pre ++ body) < 2^63 ->
  hp_derive_path hmac hash160 mulG padd k (pre ++ body) = Ok hp_new.
Proof. exact derive_refuse_pub. Qed.
Print Assumptions C34_refuse_pub_partial.
Example C34_refuse_case : prv_path (chars "m/44'/x") = Ok None /\ pub_path (chars "m/44'/0") = Ok None.
Proof. vm_compute. split; reflexivity. Qed.
(** What an accepted path is: digits and at most one mark per component, each number taken
    modulo 2^32 (C35). *)
Theorem C34_sound_partial : forall hmac hash160 mulG k path k', c_string path -> len path < 2^63 ->
  hk_derive_path hmac hash160 mulG k path = Ok k' ->
  k' = hk_new \/ exists pre cs post, path = pre ++ path_body cs ++ post /\ (pre = [] \/ exists c, pre = [109; c]) /\ path_suffix post /\
    cs <> [] /\ Forall component_ok cs /\ k' = hk_derive hmac hash160 mulG k (map child_mod cs).
Proof. exact derive_sound. Qed.
Print Assumptions C34_sound_partial.

(** * C35: no component of 2^31 or more, and no read outside the string *)
(** False: every ten-digit number is accepted, taken modulo 2^32. *)
Theorem C35_ten_digits_refuted : forall hmac hash160 mulG k ds, Forall (fun d => 0 <= d <= 9) ds -> length ds = 10%nat ->
  hk_derive_path hmac hash160 mulG k (map (fun d => 48 + d) ds) = Ok (hk_child_of hmac hash160 mulG k (be_val 10 ds mod 2^32) false).
Proof. exact derive_ten. Qed.
Print Assumptions C35_ten_digits_refuted.
(** The public version accepts numbers of any length. *)
Theorem C35_pub_digits_refuted : forall hmac hash160 mulG padd k ds, Forall (fun d => 0 <= d <= 9) ds -> ds <> [] -> len ds < 2^63 ->
  hp_derive_path hmac hash160 mulG padd k (map (fun d => 48 + d) ds) = Ok (hp_child_of hmac hash160 mulG padd k (be_val 10 ds mod 2^32)).
Proof. exact derive_digits_pub. Qed.
Print Assumptions C35_pub_digits_refuted.
Example C35_wrap_case : prv_path (chars "4294967296") = Ok (Some [0]) /\ prv_path (chars "2147483648") = Ok (Some [2^31]) /\
  pub_path (chars "0/340282366920938463463374607431768211463") = Ok (Some [0; 7]).
Proof. vm_compute. repeat split; reflexivity. Qed.
(** False for exactly three texts: the empty one, m and m/. *)
Theorem C35_bounds_partial : forall hmac hash160 mulG k path, len path < 2^63 ->
  hk_derive_path hmac hash160 mulG k path = UB <-> path = [] \/ path = chars "m" \/ path = chars "m/".
Proof. exact derive_ub. Qed.
Print Assumptions C35_bounds_partial.
Theorem C35_pub_bounds_partial : forall hmac hash160 mulG padd k path, len path < 2^63 ->
  hp_derive_path hmac hash160 mulG padd k path = UB <-> path = [] \/ path = chars "m" \/ path = chars "m/".
Proof. exact derive_ub_pub. Qed.
Print Assumptions C35_pub_bounds_partial.

(** * C36: there and back *)
Theorem C36_xprv_roundtrip : forall test t v k k0 rest, slip132_prv test t = Some v -> hk_net k = net_of test -> hk_type k = t ->
  hk_sized k -> hk_valued k -> 0 < be_val 256 (hk_num k) < group_order -> hk_sized k0 -> hk_status k0 = DONE ->
  hk_hex k = bip32_bytes v (hk_depth k) (hk_fp k) (hk_child k) (hk_chain k) (0 :: hk_num k) /\
  hk_parse k0 (hk_hex k ++ rest) =
  (mkHk (hk_num k) (hk_chain k) (hk_depth k) (hk_fp k) (hk_child k) (hk_net k) (hk_type k) (be_bytes 4 v) DONE 78, 78, rest).
Proof. exact hk_roundtrip. Qed.
Print Assumptions C36_xprv_roundtrip.
(** The two assumptions on points: decompression undoes compression, and the point is valid. *)
Theorem C36_xpub_roundtrip : forall uncompress valid garbage test t v k k0 rest, slip132_pub test t = Some v ->
  hp_net k = net_of test -> hp_type k = t -> hp_sized k -> hp_valued k -> hp_sized k0 -> hp_status k0 = DONE ->
  uncompress (sec_of (hp_point k)) garbage = Ok (hp_point k) -> valid (hp_point k) = true ->
  hp_hex k = bip32_bytes v (hp_depth k) (hp_fp k) (hp_child k) (hp_chain k) (sec_of (hp_point k)) /\
  hp_parse uncompress valid garbage k0 (hp_hex k ++ rest) =
  Ok (mkHp (hp_point k) (hp_chain k) (hp_depth k) (hp_fp k) (hp_child k) (hp_net k) (hp_type k) (be_bytes 4 v) DONE 78, 78, rest).
Proof. exact hp_roundtrip. Qed.
Print Assumptions C36_xpub_roundtrip.
Example C36_xpub_case :
  let k := to_pub ex_mulG (hk_child_of ex_hmac ex_hash160 ex_mulG ex_key 5 true) in
  ex_uncompress (sec_of (hp_point k)) [] = Ok (hp_point k) /\ hp_depth k = 1 /\ hp_child k = 2^31 + 5 /\
  (let! r := hp_parse ex_uncompress (fun _ => true) [] hp_new (hp_hex k ++ [3]) in
   let '(k', n, rest) := r in Ok (hp_hex k', n, rest)) = Ok (hp_hex k, 78, [3]).
Proof. vm_compute. repeat split; reflexivity. Qed.
(** The text forms. *)
Theorem C36_xprv_text_roundtrip : forall dsha, (forall m, length (dsha m) = 32%nat) -> (forall m, bytes_ok (dsha m)) ->
  forall test t v k out, slip132_prv test t = Some v -> hk_net k = net_of test -> hk_type k = t ->
  hk_sized k -> hk_valued k -> 0 < be_val 256 (hk_num k) < group_order -> 112 <= len out ->
  exists text, xprv dsha k out = (len text, text ++ zeros (length out - length text)) /\
    base58check_text dsha (bip32_bytes v (hk_depth k) (hk_fp k) (hk_child k) (hk_chain k) (0 :: hk_num k)) text /\
    hk_from_str dsha text =
      (len text, mkHk (hk_num k) (hk_chain k) (hk_depth k) (hk_fp k) (hk_child k) (hk_net k) (hk_type k) (be_bytes 4 v) DONE 78).
Proof. exact xprv_roundtrip. Qed.
Print Assumptions C36_xprv_text_roundtrip.
Theorem C36_xpub_text_roundtrip : forall uncompress valid garbage dsha, (forall m, length (dsha m) = 32%nat) -> (forall m, bytes_ok (dsha m)) ->
  forall test t v k k0 out, slip132_pub test t = Some v -> hp_net k = net_of test -> hp_type k = t ->
  hp_sized k -> hp_valued k -> hp_sized k0 -> hp_status k0 = DONE ->
  uncompress (sec_of (hp_point k)) garbage = Ok (hp_point k) -> valid (hp_point k) = true -> 112 <= len out ->
  exists text, xpub_text dsha k out = (len text, text ++ zeros (length out - length text)) /\
    base58check_text dsha (bip32_bytes v (hp_depth k) (hp_fp k) (hp_child k) (hp_chain k) (sec_of (hp_point k))) text /\
    hp_from_str dsha uncompress valid garbage k0 text =
      Ok (len text, mkHp (hp_point k) (hp_chain k) (hp_depth k) (hp_fp k) (hp_child k) (hp_net k) (hp_type k) (be_bytes 4 v) DONE 78).
Proof. exact xpub_roundtrip. Qed.
Print Assumptions C36_xpub_text_roundtrip.
Example C36_text_case :
  let '(l, t) := xprv ex_dsha ex_key (zeros 112) in
  l = 111 /\ firstn 4 t = chars "tprv" /\ hk_num (snd (hk_from_str ex_dsha (firstn 111 t))) = hk_num ex_key.
Proof. vm_compute. repeat split; reflexivity. Qed.
(** What is accepted is such an encoding, the secret modulo the group order. *)
Theorem C36_xprv_sound : forall k0 st k n rest, hk_sized k0 -> hk_status k0 = DONE -> bytes_ok st -> hk_parse k0 st = (k, n, rest) ->
  hk_status k = DONE ->
  exists test v num, slip132_prv test (hk_type k) = Some v /\ hk_net k = net_of test /\ n = 78 /\
    st = bip32_bytes v (hk_depth k) (hk_fp k) (hk_child k) (hk_chain k) (0 :: num) ++ rest /\
    hk_sized k /\ hk_valued k /\ length num = 32%nat /\ 0 < be_val 256 num /\
    be_val 256 (hk_num k) = be_val 256 num mod group_order.
Proof. exact hk_sound. Qed.
Print Assumptions C36_xprv_sound.
Theorem C36_xpub_sound : forall uncompress valid garbage k0 st k n rest, hp_sized k0 -> hp_status k0 = DONE -> bytes_ok st ->
  hp_parse uncompress valid garbage k0 st = Ok (k, n, rest) -> hp_status k = DONE ->
  exists test v key, slip132_pub test (hp_type k) = Some v /\ hp_net k = net_of test /\ n = 78 /\
    st = bip32_bytes v (hp_depth k) (hp_fp k) (hp_child k) (hp_chain k) key ++ rest /\
    length key = 33%nat /\ uncompress key garbage = Ok (hp_point k) /\ valid (hp_point k) = true.
Proof. exact hp_sound. Qed.
Print Assumptions C36_xpub_sound.
(** The secret n, not a valid key, is accepted and becomes 0. *)
Theorem C36_order_refuted : forall test t v dp fp cn ch k0 rest, slip132_prv test t = Some v -> hk_sized k0 -> hk_status k0 = DONE ->
  length fp = 4%nat -> length ch = 32%nat -> 0 <= cn < 2^32 ->
  hk_parse k0 (bip32_bytes v dp fp cn ch (0 :: be_bytes 32 group_order) ++ rest) =
  (mkHk (zeros 32) ch dp fp cn (net_of test) t (be_bytes 4 v) DONE 78, 78, rest).
Proof. exact hk_order_refuted. Qed.
Print Assumptions C36_order_refuted.
(** A type without a prefix of its own (P2PKH, multisig and others) is lost. *)
Theorem C36_type_refuted : forall test k k0 rest, hk_net k = net_of test -> hk_sized k -> hk_valued k ->
  0 < be_val 256 (hk_num k) < group_order -> slip132_prv test (hk_type k) = None -> hk_sized k0 -> hk_status k0 = DONE ->
  exists k', hk_parse k0 (hk_hex k ++ rest) = (k', 78, rest) /\ hk_status k' = DONE /\ hk_type k' = UNKNOWN_TYPE /\ hk_type k <> UNKNOWN_TYPE.
Proof. exact hk_type_lost. Qed.
Print Assumptions C36_type_refuted.
(** A regtest key comes back as a testnet key. *)
Theorem C36_regtest_refuted : forall k k0 rest, hk_net k = Regtest -> hk_sized k -> hk_valued k ->
  0 < be_val 256 (hk_num k) < group_order -> hk_sized k0 -> hk_status k0 = DONE ->
  exists k', hk_parse k0 (hk_hex k ++ rest) = (k', 78, rest) /\ hk_status k' = DONE /\ hk_net k' = Testnet /\ n_bech32 Testnet <> n_bech32 Regtest.
Proof. exact hk_regtest_lost. Qed.
Print Assumptions C36_regtest_refuted.
(** The text of a payload of another length is accepted: up to 7 bytes too many are
    ignored, and missing bytes are read as zeros. *)
Theorem C36_text_length_refuted : forall dsha, (forall m, length (dsha m) = 32%nat) -> (forall m, bytes_ok (dsha m)) ->
  forall test t v k payload text, slip132_prv test t = Some v -> hk_net k = net_of test -> hk_type k = t ->
  hk_sized k -> hk_valued k -> 0 < be_val 256 (hk_num k) < group_order ->
  (exists extra, payload = hk_hex k ++ extra /\ bytes_ok extra /\ len extra <= 7) \/
  (exists j, payload ++ zeros j = hk_hex k /\ payload <> []) ->
  base58check_text dsha payload text ->
  hk_from_str dsha text =
    (len text, mkHk (hk_num k) (hk_chain k) (hk_depth k) (hk_fp k) (hk_child k) (hk_net k) (hk_type k) (be_bytes 4 v) DONE 78).
Proof. exact xprv_length_refuted. Qed.
Print Assumptions C36_text_length_refuted.
(** A public key that failed to parse once cannot be read into again, whatever the text. *)
Theorem C36_reuse_refuted : forall dsha uncompress valid garbage k s l k', hp_status k = FAILED ->
  hp_from_str dsha uncompress valid garbage k s = Ok (l, k') -> k' = k.
Proof. exact hp_failed_sticks. Qed.
Print Assumptions C36_reuse_refuted.

(** * C37: private and public derivation *)
(** For every HMAC, every hash, and every pair of operations on points such that the sum of
    two multiples of the generator is the multiple by the sum. *)
Theorem C37_child_agree : forall hmac hash160 mulG padd,
  (forall a b, length a = 32%nat -> bytes_ok a -> length b = 32%nat -> bytes_ok b ->
    be_val 256 a < group_order -> be_val 256 b < group_order ->
    padd (mulG a) (mulG b) = mulG (be_bytes 32 ((be_val 256 a + be_val 256 b) mod group_order))) ->
  (forall k m, length (hmac k m) = 64%nat) -> (forall k m, bytes_ok (hmac k m)) ->
  forall k i, length (hk_num k) = 32%nat -> bytes_ok (hk_num k) -> be_val 256 (hk_num k) < group_order ->
  0 <= i < 2^31 -> to_pub mulG (hk_child_of hmac hash160 mulG k i false) = hp_child_of hmac hash160 mulG padd (to_pub mulG k) i.
Proof. exact child_pub. Qed.
Print Assumptions C37_child_agree.
Theorem C37_derive_agree : forall hmac hash160 mulG padd,
  (forall a b, length a = 32%nat -> bytes_ok a -> length b = 32%nat -> bytes_ok b ->
    be_val 256 a < group_order -> be_val 256 b < group_order ->
    padd (mulG a) (mulG b) = mulG (be_bytes 32 ((be_val 256 a + be_val 256 b) mod group_order))) ->
  (forall k m, length (hmac k m) = 64%nat) -> (forall k m, bytes_ok (hmac k m)) ->
  forall l k, length (hk_num k) = 32%nat -> bytes_ok (hk_num k) -> be_val 256 (hk_num k) < group_order ->
  Forall (fun i => 0 <= i < 2^31) l ->
  to_pub mulG (hk_derive hmac hash160 mulG k l) = hp_derive hmac hash160 mulG padd (to_pub mulG k) l.
Proof. exact derive_pub. Qed.
Print Assumptions C37_derive_agree.
Theorem C37_path_agree : forall hmac hash160 mulG padd,
  (forall a b, length a = 32%nat -> bytes_ok a -> length b = 32%nat -> bytes_ok b ->
    be_val 256 a < group_order -> be_val 256 b < group_order ->
    padd (mulG a) (mulG b) = mulG (be_bytes 32 ((be_val 256 a + be_val 256 b) mod group_order))) ->
  (forall k m, length (hmac k m) = 64%nat) -> (forall k m, bytes_ok (hmac k m)) ->
  forall pre cs post k, length (hk_num k) = 32%nat -> bytes_ok (hk_num k) -> be_val 256 (hk_num k) < group_order ->
  path_prefix pre -> path_suffix post -> cs <> [] -> Forall component_good cs -> Forall (fun c => snd c = None) cs ->
  len (pre ++ path_body cs ++ post) < 2^63 ->
  exists k', hk_derive_path hmac hash160 mulG k (pre ++ path_body cs ++ post) = Ok k' /\
    hp_derive_path hmac hash160 mulG padd (to_pub mulG k) (pre ++ path_body cs ++ post) = Ok (to_pub mulG k').
Proof. exact derive_path_pub. Qed.
Print Assumptions C37_path_agree.
Example C37_case :
  to_pub ex_mulG (hk_derive ex_hmac ex_hash160 ex_mulG ex_key [1; 5; 0]) =
  hp_derive ex_hmac ex_hash160 ex_mulG ex_padd (to_pub ex_mulG ex_key) [1; 5; 0] /\
  be_val 256 (hk_num ex_key) < group_order.
Proof. vm_compute. split; reflexivity. Qed.

(** * C38: composition *)
Theorem C38_derive_compose : forall hmac hash160 mulG k a b,
  hk_derive hmac hash160 mulG k (a ++ b) = hk_derive hmac hash160 mulG (hk_derive hmac hash160 mulG k a) b.
Proof. exact derive_app. Qed.
Print Assumptions C38_derive_compose.
Theorem C38_derive_compose_pub : forall hmac hash160 mulG padd k a b,
  hp_derive hmac hash160 mulG padd k (a ++ b) = hp_derive hmac hash160 mulG padd (hp_derive hmac hash160 mulG padd k a) b.
Proof. exact hp_derive_app. Qed.
Print Assumptions C38_derive_compose_pub.
Theorem C38_path_compose : forall hmac hash160 mulG k a b, a <> [] -> b <> [] -> Forall component_good a -> Forall component_good b ->
  len (path_body a ++ chars "/" ++ path_body b) < 2^62 ->
  hk_derive_path hmac hash160 mulG k (path_body a ++ chars "/" ++ path_body b) =
  let! k' := hk_derive_path hmac hash160 mulG k (path_body a) in hk_derive_path hmac hash160 mulG k' (path_body b).
Proof. exact derive_path_app. Qed.
Print Assumptions C38_path_compose.
Example C38_case :
  hk_derive_path ex_hmac ex_hash160 ex_mulG ex_key (chars "44h/1h/7") =
  (let! k := hk_derive_path ex_hmac ex_hash160 ex_mulG ex_key (chars "44h") in
   hk_derive_path ex_hmac ex_hash160 ex_mulG k (chars "1h/7")).
Proof. vm_compute. reflexivity. Qed.

(** * C63: child keys are those of BIP32 *)
Theorem C63_child_partial : forall hmac hash160 mulG, (forall k m, length (hmac k m) = 64%nat) -> (forall k m, bytes_ok (hmac k m)) ->
  forall k i num chain, 0 <= i < 2^32 -> hk_depth k < 255 -> 0 <= hk_depth k ->
  ckd_priv hmac (hk_num k) (hk_chain k) (compressed (mulG (hk_num k))) i = Some (num, chain) ->
  hk_num (hk_child_of hmac hash160 mulG k i false) = num /\ hk_chain (hk_child_of hmac hash160 mulG k i false) = chain /\
  hk_fp (hk_child_of hmac hash160 mulG k i false) = firstn 4 (hash160 (compressed (mulG (hk_num k)))) /\
  hk_child (hk_child_of hmac hash160 mulG k i false) = i /\ hk_depth (hk_child_of hmac hash160 mulG k i false) = hk_depth k + 1.
Proof. exact child_bip32. Qed.
Print Assumptions C63_child_partial.
Theorem C63_master_partial : forall hmac seed net num chain, bip32_master hmac seed = Some (num, chain) ->
  from_seed hmac seed net = mkHk num chain 0 (zeros 4) 0 net UNKNOWN_TYPE (zeros 4) DONE 0.
Proof. exact master_bip32. Qed.
Print Assumptions C63_master_partial.
Example C63_case : exists num chain,
  ckd_priv ex_hmac (hk_num ex_key) (hk_chain ex_key) (compressed (ex_mulG (hk_num ex_key))) (2^31 + 3) = Some (num, chain).
Proof. eexists. eexists. vm_compute. reflexivity. Qed.
(** Missing: keys BIP32 declares invalid are not refused, whatever the hash functions. *)
Theorem C63_invalid_child_refuted : forall hmac hash160 mulG, (forall k m, length (hmac k m) = 64%nat) -> (forall k m, bytes_ok (hmac k m)) ->
  forall k i, 0 <= i < 2^32 -> ckd_priv hmac (hk_num k) (hk_chain k) (compressed (mulG (hk_num k))) i = None ->
  hk_status (hk_child_of hmac hash160 mulG k i false) = DONE /\ length (hk_num (hk_child_of hmac hash160 mulG k i false)) = 32%nat /\
  hk_child (hk_child_of hmac hash160 mulG k i false) = i.
Proof. exact child_invalid. Qed.
Print Assumptions C63_invalid_child_refuted.
Theorem C63_invalid_master_refuted : forall hmac seed net, bip32_master hmac seed = None ->
  hk_status (from_seed hmac seed net) = DONE /\ hk_num (from_seed hmac seed net) = firstn 32 (hmac (chars "Bitcoin seed") seed) /\
  (be_val 256 (hk_num (from_seed hmac seed net)) = 0 \/ group_order <= be_val 256 (hk_num (from_seed hmac seed net))).
Proof. exact master_invalid. Qed.
Print Assumptions C63_invalid_master_refuted.
(** Below depth 255 the depth starts again at 0. *)
Theorem C63_depth_refuted : forall hmac hash160 mulG, (forall k m, length (hmac k m) = 64%nat) -> (forall k m, bytes_ok (hmac k m)) ->
  forall k i, 0 <= i < 2^32 -> hk_depth k = 255 -> hk_depth (hk_child_of hmac hash160 mulG k i false) = 0.
Proof. exact child_depth. Qed.
Print Assumptions C63_depth_refuted.
(** A public key derives a child for a hardened index, which BIP32 forbids. *)
Theorem C63_public_hardened_refuted : forall hmac hash160 mulG padd k i, hp_status (hp_child_of hmac hash160 mulG padd k i) = DONE /\
  hp_child (hp_child_of hmac hash160 mulG padd k i) = i.
Proof. exact pub_child_hardened. Qed.
Print Assumptions C63_public_hardened_refuted.
(** A regtest key becomes a testnet key on the way along m/84h/1h. *)
Theorem C63_regtest_refuted : forall hmac hash160 mulG k, hk_net k = Regtest -> hk_depth k = 1 ->
  hk_net (hk_child_of hmac hash160 mulG k 1 true) = Testnet.
Proof. exact regtest_child. Qed.
Print Assumptions C63_regtest_refuted.
