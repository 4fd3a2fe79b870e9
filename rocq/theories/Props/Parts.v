(** C92: extended keys made from their parts. [dsha] stands for double SHA-256, of which only the length of the result is used. *)
From Coq Require Import Lia.
From Verif Require Import Base.Bytes Base.BytesFacts Spec.Codecs Spec.Keys Spec.Scalar Spec.Curve Spec.Schemes Spec.Point Spec.HD Spec.Parts
  Model.Stream Model.Networks Model.Sign Model.Bignum Model.Point Model.HD Model.PointOps Model.KeyStrings Model.Wallet Model.Parts Proof.PartsFacts.
Open Scope Z_scope.

(** HDPrivateKey(secret, chain code, depth, fingerprint, child number, network, type): the object is what was given, its
    public key has the same parts, and its text is the one of BIP 32 and SLIP 132, from which the object can be made again. *)
Theorem C92_private : forall dsha, (forall m, length (dsha m) = 32%nat) -> (forall m, bytes_ok (dsha m)) ->
  forall rz secret p test v, random_below field_prime rz -> is_scalar secret -> 0 < number secret -> parts_ok p ->
  pa_net p = net_of test -> slip132_prv test (pa_type p) = Some v ->
  exists k text, hk_make rz secret p = Ok k /\ prv_holds k secret p /\
    to_pub (code_mulG rz) k = hp_make (point_bytes (ec_mul (number secret) gen)) p /\
    xprv_string dsha k = Ok text /\ base58check_text dsha (bip32_bytes v (pa_depth p) (pa_print p) (pa_child p) (pa_chain p) (0 :: secret)) text /\
    exists k', hk_from_str dsha text = (len text, k') /\ prv_holds k' secret p /\ hk_status k' = DONE.
Proof. exact private_parts. Qed.
Print Assumptions C92_private.
(** HDPublicKey(point, ...) for a point of the curve, whatever memory ([garbage]) and object ([k0]) the text is read with. *)
Theorem C92_public : forall dsha, (forall m, length (dsha m) = 32%nat) -> (forall m, bytes_ok (dsha m)) ->
  forall garbage k0 x y p test v, on_curve x y -> parts_ok p -> pa_net p = net_of test -> slip132_pub test (pa_type p) = Some v ->
  hp_sized k0 -> hp_status k0 = DONE ->
  exists text, xpub_string dsha (hp_make (coords x y) p) = Ok text /\
    base58check_text dsha (bip32_bytes v (pa_depth p) (pa_print p) (pa_child p) (pa_chain p) (sec_bytes true x y)) text /\
    exists k', hp_from_str dsha uncompress_pubkey pt_valid_bytes garbage k0 text = Ok (len text, k') /\ pub_holds k' (coords x y) p /\ hp_status k' = DONE.
Proof. exact public_parts. Qed.
Print Assumptions C92_public.
(** A key made again from the parts of another one has the same children, address, text and public key. *)
Theorem C92_again : forall hmac hash160 mulG dsha rz k, random_below field_prime rz -> is_scalar (hk_num k) ->
  exists k', hk_make rz (hk_num k) (parts_of k) = Ok k' /\
    (forall l, l <> [] -> hk_derive hmac hash160 mulG k' l = hk_derive hmac hash160 mulG k l) /\
    hk_address_string dsha hash160 mulG k' = hk_address_string dsha hash160 mulG k /\ xprv_string dsha k' = xprv_string dsha k /\ to_pub mulG k' = to_pub mulG k.
Proof. exact made_again. Qed.
Print Assumptions C92_again.
(** False: secrets that are no keys are not refused. From the group order on an assertion stops the program; ... *)
Theorem C92_large_refuted : forall rz secret p, word256 secret -> group_order <= number secret -> hk_make rz secret p = UB.
Proof. exact make_over. Qed.
Print Assumptions C92_large_refuted.
(** ... 0 gives an object in good order, whose serialization the library itself refuses. *)
Theorem C92_zero_refuted : forall rz p test v k0 rest, random_below field_prime rz -> parts_ok p -> pa_net p = net_of test ->
  slip132_prv test (pa_type p) = Some v -> hk_sized k0 -> hk_status k0 = DONE ->
  exists k, hk_make rz (zeros 32) p = Ok k /\ hk_status k = DONE /\ exists k', hk_parse k0 (hk_hex k ++ rest) = (k', 78, rest) /\ hk_status k' = FAILED.
Proof. exact zero_parts. Qed.
Print Assumptions C92_zero_refuted.
(** False: a point off the curve is not refused. Its serialization is either refused later or read as another point. *)
Theorem C92_off_curve_refuted : forall garbage k0 x y p test v rest, 0 <= x < 2^256 -> 0 <= y < 2^256 -> ~ on_curve x y -> parts_ok p ->
  pa_net p = net_of test -> slip132_pub test (pa_type p) = Some v -> hp_sized k0 -> hp_status k0 = DONE -> length garbage = 64%nat -> bytes_ok garbage ->
  hp_status (hp_make (coords x y) p) = DONE /\
  exists k', hp_parse uncompress_pubkey pt_valid_bytes garbage k0 (hp_hex (hp_make (coords x y) p) ++ rest) = Ok (k', 78, rest) /\
    (hp_status k' = FAILED \/ hp_point k' <> coords x y).
Proof. exact off_curve. Qed.
Print Assumptions C92_off_curve_refuted.
(** Parts with and without a fingerprint; a secret; a point off the curve. *)
Example C92_case : let p := mkParts (repeat 7 32) 3 (Some [1; 2; 3; 4]) (2^31 + 5) Testnet P2WPKH in let q := mkParts (repeat 7 32) 0 None 0 Mainnet UNKNOWN_TYPE in
  parts_ok p /\ parts_ok q /\ pa_net p = net_of true /\ slip132_prv true P2WPKH = Some 0x045f18bc /\ is_scalar (zeros 31 ++ [5]) /\ 0 < number (zeros 31 ++ [5]) /\
  ~ on_curve 5 1 /\ hk_hex (mkHk (zeros 31 ++ [5]) (repeat 7 32) 3 (pa_print p) (2^31 + 5) Testnet P2WPKH (zeros 4) DONE 0) =
    [4; 95; 24; 188; 3; 1; 2; 3; 4; 128; 0; 0; 5] ++ repeat 7 32 ++ zeros 32 ++ [5].
Proof.
  cbv zeta. assert (B : forall n, bytes_ok (repeat 7 n)) by (intros n; induction n; constructor; [unfold byte_ok; lia|exact IHn]).
  split; [split; [split; [apply B|reflexivity]|]; split; [unfold byte_ok; cbn [pa_depth]; lia|]; split; [repeat constructor; unfold byte_ok; lia|]; split; [reflexivity|cbn [pa_child]; lia]|].
  split; [split; [split; [apply B|reflexivity]|]; split; [unfold byte_ok; cbn [pa_depth]; lia|]; split; [apply bytes_ok_zeros|]; split; [reflexivity|cbn [pa_child]; lia]|].
  split; [reflexivity|]. split; [reflexivity|]. split; [split; [split; [apply bytes_ok_app; split; [apply bytes_ok_zeros|repeat constructor; unfold byte_ok; lia]|reflexivity]|reflexivity]|].
  split; [reflexivity|]. split; [|reflexivity]. intros (_ & _ & E). vm_compute in E. discriminate.
Qed.
