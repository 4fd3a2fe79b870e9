(** Electrum's format for unsigned transactions (version 3.0 to 3.3, a single key per input), and what signing them means. *)
From Verif Require Import Base.Bytes Spec.Codecs Spec.Wire Spec.Objects Spec.Keys Spec.HD Spec.Scalar Spec.Point Spec.Signature Spec.Sighash Spec.Curve Spec.Schemes Spec.PSBTSign
  Model.Stream Model.Script Model.Tx Model.Sign Model.HD Model.Electrum.
Open Scope Z_scope.

(** An extended public key: network, kind of address, BIP32 data, and the 64 bytes of the point's coordinates. *)
Record s_xpub := { x_test : bool; x_type : script_type; x_depth : Z; x_fp : list Z; x_child : Z; x_chain : list Z; x_point : list Z }.
(** The 78 bytes of the key; none when there is no version number for the kind of address. *)
Definition xpub_bytes (x : s_xpub) : list Z :=
  match slip132_pub (x_test x) (x_type x) with
  | Some v => bip32_bytes v (x_depth x) (x_fp x) (x_child x) (x_chain x) (compressed (x_point x))
  | None => []
  end.
Definition xpub_ok (x : s_xpub) : Prop :=
  slip132_pub (x_test x) (x_type x) <> None /\ byte_ok (x_depth x) /\ length (x_fp x) = 4%nat /\ bytes_ok (x_fp x) /\ 0 <= x_child x < 2^32 /\
  length (x_chain x) = 32%nat /\ bytes_ok (x_chain x) /\ length (x_point x) = 64%nat /\ bytes_ok (x_point x).

(** What the format says about an input: the extended key and the two indexes below it, the amount, and seven
    more bytes that tell how the input is to be signed. *)
Record s_einput := { e_key : s_xpub; e_first : Z; e_second : Z; e_amount : Z; e_how : list Z }.
Definition einput_ok (x : s_einput) : Prop :=
  xpub_ok (e_key x) /\ 0 <= e_first x < 2^16 /\ 0 <= e_second x < 2^16 /\ 0 <= e_amount x < 2^64 /\ length (e_how x) = 7%nat.
Definition e_path (x : s_einput) : list Z := le_bytes 2 (e_first x) ++ le_bytes 2 (e_second x).

(** "EPTF", ff 00. *)
Definition electrum_magic : list Z := chars "EPTF" ++ [255; 0].
(** In place of the witness of an input: fe ff ff ff ff, the amount, seven bytes, the key and the indexes.
    [key] are the 78 bytes of the key, so that other bytes can be put there, too. *)
Definition witness_with (key : list Z) (x : s_einput) : list Z :=
  [254; 255; 255; 255; 255] ++ le_bytes 8 (e_amount x) ++ e_how x ++ key ++ e_path x.
Definition segwit_with (keys : s_einput -> list Z) (v : s_tx) (xs : list s_einput) : list Z :=
  electrum_magic ++ before_witness v ++ flat_map (fun x => witness_with (keys x) x) xs ++ le_bytes 4 (s_lock v).
Definition electrum_segwit (v : s_tx) (xs : list s_einput) : list Z := segwit_with (fun x => xpub_bytes (e_key x)) v xs.
(** Without witnesses: key and indexes are in the input script, behind 01 ff 4c 53 ff; amounts are not told. *)
Definition electrum_script (x : s_einput) : list Z := [1; 255; 76; 83; 255] ++ xpub_bytes (e_key x) ++ e_path x.
Definition with_scripts (v : s_tx) (xs : list s_einput) : s_tx :=
  {| s_version := s_version v; s_ins := map (fun p => with_sig (fst p) (electrum_script (snd p)) (si_seq (fst p))) (combine (s_ins v) xs);
     s_outs := s_outs v; s_lock := s_lock v |}.
Definition electrum_legacy (v : s_tx) (xs : list s_einput) : list Z := electrum_magic ++ wire_legacy (with_scripts v xs).

(** An object that holds the transaction and these data about its inputs; the amounts are separate. *)
Definition xpub_holds (k : hdpub) (x : s_xpub) : Prop :=
  hp_point k = x_point x /\ hp_chain k = x_chain x /\ hp_depth k = x_depth x /\ hp_fp k = x_fp x /\ hp_child k = x_child x /\
  hp_net k = net_of (x_test x) /\ hp_type k = x_type x.
Definition meta_holds (m : emeta) (x : s_einput) : Prop :=
  xpub_holds (em_hd m) (e_key x) /\ em_d0 m = e_first x /\ em_d1 m = e_second x.
Definition electrum_holds (e : electrum) (v : s_tx) (xs : list s_einput) : Prop :=
  tx_holds (el_tx e) v /\ length xs = length (s_ins v) /\ exists ms, el_metas e = Some ms /\ Forall2 meta_holds ms xs.
Definition amounts_hold (e : electrum) (xs : list s_einput) : Prop :=
  exists ms, el_metas e = Some ms /\ map em_amount ms = map e_amount xs.

(** Unsigned: no scripts and no witnesses. *)
Definition no_witnesses (v : s_tx) : Prop := Forall (fun i => si_wit i = []) (s_ins v).
Definition no_scripts (v : s_tx) : Prop := Forall (fun i => si_sig i = []) (s_ins v).

(** The key is a point of the curve. *)
Definition key_on_curve (x : s_einput) : Prop := exists a b, on_curve a b /\ x_point (e_key x) = coords a b.

(** ** Fees *)
Definition total (l : list Z) : Z := fold_right Z.add 0 l.

(** ** Signing *)
(** The kinds of keys whose inputs are spent without a witness. *)
Definition spends_legacy (ty : script_type) : bool := match ty with UNKNOWN_TYPE | P2PKH | P2SH | DIRECT_SCRIPT => true | _ => false end.
Section Signed.
Variable dsha hash160 sha256 : list Z -> list Z.
(** The hash that is signed for input [idx], which is [i], with the public key [sec]. *)
Definition electrum_hash (v : s_tx) (idx : nat) (i : s_txin) (x : s_einput) (sec : list Z) : list Z :=
  if spends_legacy (x_type (e_key x)) then dsha (legacy_preimage v idx (key_code (hash160 sec)) 1)
  else dsha (bip143_preimage dsha v idx i (key_code (hash160 sec)) (e_amount x) 1).
(** The input with the signature [der]. *)
Definition electrum_signed (i : s_txin) (x : s_einput) (sec der : list Z) : s_txin :=
  let ty := x_type (e_key x) in
  let program := [0; 20] ++ hash160 sec in
  if spends_legacy ty then signed_in i (expected_sig true sec der (key_code (hash160 sec))) (si_wit i)
  else signed_in i (expected_redeem (script_type_eqb ty P2SH_P2WPKH || script_type_eqb ty P2SH_P2WSH) true sha256 program)
         (expected_wit true sec der program).
End Signed.
(** The inputs whose key is the point [pt]. *)
Definition has_key (pt : list Z) (x : s_einput) : bool := if list_eq_dec Z.eq_dec (x_point (e_key x)) pt then true else false.
(** The input [i], number [j] of [v], signed for the wallet with the secret [k] and chain code [c]: with the secret [d]
    that BIP32 derives along the two indexes and the key at [a], [b] that belongs to it. *)
Definition electrum_input_signed (dsha hash160 sha256 : list Z -> list Z) (hmac hmac512 : list Z -> list Z -> list Z) (k c : list Z) (v : s_tx) (j : nat) (i : s_txin) (x : s_einput) (i' : s_txin) : Prop :=
  exists d c' a b r s der, bip32_derive hmac512 k c [e_first x; e_second x] = Some (d, c') /\ ec_mul (number d) gen = Some (a, b) /\
    signed_with hmac d (electrum_hash dsha hash160 v j i x (sec_bytes true a b)) a b r s /\ der_sig r s der /\
    i' = electrum_signed hash160 sha256 i x (sec_bytes true a b) der.
Definition with_ins (v : s_tx) (ins : list s_txin) : s_tx := {| s_version := s_version v; s_ins := ins; s_outs := s_outs v; s_lock := s_lock v |}.
(** The transaction after signing: inputs whose key is that of the secret [k] are signed, the others are as before. *)
Definition electrum_all_signed (dsha hash160 sha256 : list Z -> list Z) (hmac hmac512 : list Z -> list Z -> list Z) (k c : list Z) (v : s_tx) (xs : list s_einput) (js : list s_txin) : Prop :=
  length js = length (s_ins v) /\
  forall j i x, nth_error (s_ins v) j = Some i -> nth_error xs j = Some x -> exists i', nth_error js j = Some i' /\
    if has_key (point_bytes (ec_mul (number k) gen)) x then electrum_input_signed dsha hash160 sha256 hmac hmac512 k c v j i x i' else i' = i.
