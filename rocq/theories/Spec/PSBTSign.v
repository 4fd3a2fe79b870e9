(** What a signer is told about the inputs of a partially signed transaction, and what it has to sign. *)
From Verif Require Import Base.Bytes Spec.Codecs Spec.Wire Spec.Objects Spec.Keys Spec.HD Spec.Scalar Spec.Point Spec.Signature Spec.Sighash Spec.Curve Spec.Schemes Spec.PSBT
  Model.Stream Model.Script Model.Tx Model.Signature Model.Point Model.PSBT.
Open Scope Z_scope.

(** The key at [dv_x], [dv_y] comes from the wallet [dv_fp] along [dv_path]. *)
Record s_deriv := { dv_x : Z; dv_y : Z; dv_fp : list Z; dv_path : list Z }.
(** What is known about an input: the output that it spends, the scripts behind a hash, keys, signatures. *)
Record s_input := { sp_out : s_txout; sp_redeem : list Z; sp_witness : list Z; sp_ders : list s_deriv; sp_sigs : list s_psig }.
(** Nothing known: the empty output, no scripts, no keys. *)
Definition nothing_known : s_input :=
  {| sp_out := {| so_value := 0; so_script := [] |}; sp_redeem := []; sp_witness := []; sp_ders := []; sp_sigs := [] |}.

Definition deriv_holds (d : pderiv) (e : s_deriv) : Prop :=
  d_set d = true /\ pt_xy (d_pub d) = coords (dv_x e) (dv_y e) /\ on_curve (dv_x e) (dv_y e) /\ d_fp d = dv_fp e /\ d_path d = dv_path e /\
  Forall (fun w => 0 <= w < 2^32) (dv_path e).
Definition input_holds (m : inmeta) (u : s_input) : Prop :=
  txout_holds (im_out m) (sp_out u) /\ script_holds (im_redeem m) (sp_redeem u) /\ script_holds (im_witness m) (sp_witness u) /\
  Forall2 deriv_holds (im_ders m) (sp_ders u) /\ Forall2 psig_holds (im_sigs m) (sp_sigs u).
(** An object that holds the transaction [v] and knows [us] about its inputs. *)
Definition psbt_knows (p : psbt) (v : s_tx) (us : list s_input) : Prop :=
  tx_holds (ps_tx p) v /\ (exists outs, ps_outs p = Some outs /\ length outs = length (s_outs v)) /\
  exists ins, ps_ins p = Some ins /\ length us = length (s_ins v) /\ Forall2 input_holds ins us.
Definition add_sigs (u : s_input) (gs : list s_psig) : s_input :=
  {| sp_out := sp_out u; sp_redeem := sp_redeem u; sp_witness := sp_witness u; sp_ders := sp_ders u; sp_sigs := sp_sigs u ++ gs |}.

(** ** What the entries of a map tell about its input *)
Definition set_out (u : s_input) (o : s_txout) : s_input :=
  {| sp_out := o; sp_redeem := sp_redeem u; sp_witness := sp_witness u; sp_ders := sp_ders u; sp_sigs := sp_sigs u |}.
Definition set_redeem (u : s_input) (b : list Z) : s_input :=
  {| sp_out := sp_out u; sp_redeem := b; sp_witness := sp_witness u; sp_ders := sp_ders u; sp_sigs := sp_sigs u |}.
Definition set_witness (u : s_input) (b : list Z) : s_input :=
  {| sp_out := sp_out u; sp_redeem := sp_redeem u; sp_witness := b; sp_ders := sp_ders u; sp_sigs := sp_sigs u |}.
Definition add_der (u : s_input) (e : s_deriv) : s_input :=
  {| sp_out := sp_out u; sp_redeem := sp_redeem u; sp_witness := sp_witness u; sp_ders := sp_ders u ++ [e]; sp_sigs := sp_sigs u |}.
(** The entry [e] in the map of the input [i], of which [u] was known before. *)
Inductive entry_tells (dsha : list Z -> list Z) (i : s_txin) (u : s_input) : list Z * list Z -> s_input -> Prop :=
| tells_prev : forall e w o, prev_entry e w -> spends dsha i w -> nth_error (s_outs w) (Z.to_nat (si_vout i)) = Some o -> entry_tells dsha i u e (set_out u o)
| tells_utxo : forall e o, utxo_entry e o -> entry_tells dsha i u e (set_out u o)
| tells_sig : forall e g, psig_any g e -> psig_ok g -> len (sp_sigs u) < 255 -> entry_tells dsha i u e (add_sigs u [g])
| tells_redeem : forall b, entry_tells dsha i u ([4], b) (set_redeem u b)
| tells_witness : forall b, entry_tells dsha i u ([5], b) (set_witness u b)
| tells_der : forall c e, on_curve (dv_x e) (dv_y e) -> path_fine (dv_fp e) (dv_path e) -> len (sp_ders u) < 255 ->
    entry_tells dsha i u (6 :: sec_bytes c (dv_x e) (dv_y e), dv_fp e ++ path_bytes (dv_path e)) (add_der u e)
| tells_other : forall c k b, c = 3 \/ 6 < c -> len k < 251 -> entry_tells dsha i u (c :: k, b) u.
Inductive map_tells (dsha : list Z -> list Z) (i : s_txin) : s_input -> list (list Z * list Z) -> s_input -> Prop :=
| map_nil : forall u, map_tells dsha i u [] u
| map_cons : forall u e u1 l u2, entry_tells dsha i u e u1 -> map_tells dsha i u1 l u2 -> map_tells dsha i u (e :: l) u2.
(** All inputs. *)
Inductive maps_tell (dsha : list Z -> list Z) : list s_txin -> list (list (list Z * list Z)) -> list s_input -> Prop :=
| maps_nil : maps_tell dsha [] [] []
| maps_cons : forall i is m ms u us, map_tells dsha i nothing_known m u -> maps_tell dsha is ms us -> maps_tell dsha (i :: is) (m :: ms) (u :: us).

(** ** What is signed (BIP 143, BIP 174), always with SIGHASH_ALL *)
(** A witness program of version 0 with 20 bytes. *)
Definition is_wpkh (s : list Z) : bool := match s with a :: b :: h => (a =? 0) && (b =? 20) && (len h =? 20) | _ => false end.
Section Hash.
Variable dsha hash160 : list Z -> list Z.
(** For the input [i], number [idx]; [sec] are the bytes of the key. *)
Definition input_hash (v : s_tx) (idx : nat) (i : s_txin) (u : s_input) (sec : list Z) : list Z :=
  let amount := so_value (sp_out u) in
  match sp_witness u with
  | _ :: _ => dsha (bip143_preimage dsha v idx i (sp_witness u) amount 1)
  | [] =>
      let script := match sp_redeem u with [] => so_script (sp_out u) | r => r end in
      if is_wpkh script then dsha (bip143_preimage dsha v idx i (key_code (hash160 sec)) amount 1)
      else dsha (legacy_preimage v idx script 1)
  end.
End Hash.

(** ** Who signs *)
(** BIP32 from the secret [k] and the chain code [c] along a path. [None]: no such key. *)
Fixpoint bip32_derive (hmac : list Z -> list Z -> list Z) (k c path : list Z) : option (list Z * list Z) :=
  match path with
  | [] => Some (k, c)
  | i :: t => match ckd_priv hmac k c (compressed (point_bytes (ec_mul (number k) gen))) i with
              | Some (k', c') => bip32_derive hmac k' c' t
              | None => None
              end
  end.
(** The indexes of a path up to the first one that is not hardened. *)
Fixpoint hardened_part (path : list Z) : list Z :=
  match path with
  | i :: t => if 2^31 <=? i then i :: hardened_part t else []
  | [] => []
  end.
(** The entries with the fingerprint [fp]. *)
Definition of_wallet (fp : list Z) (l : list s_deriv) : list s_deriv :=
  filter (fun e => if list_eq_dec Z.eq_dec (dv_fp e) fp then true else false) l.
(** The hardened part of the first of them. *)
Definition first_part (fp : list Z) (l : list s_deriv) : list Z :=
  match of_wallet fp l with e :: _ => hardened_part (dv_path e) | [] => [] end.
(** No path is shorter than the hardened part of the first one. *)
Definition paths_reach (fp : list Z) (l : list s_deriv) : Prop :=
  Forall (fun e => (length (first_part fp l) <= length (dv_path e))%nat) (of_wallet fp l).

(** [own e] says that the entry is one of the wallet's own, [by_ e g] that [g] is the signature for it: one
    signature for each of its own entries, in order. *)
Inductive signatures (own : s_deriv -> Prop) (by_ : s_deriv -> s_psig -> Prop) : list s_deriv -> list s_psig -> Prop :=
| sign_none : signatures own by_ [] []
| sign_skip : forall e l gs, ~ own e -> signatures own by_ l gs -> signatures own by_ (e :: l) gs
| sign_own : forall e g l gs, own e -> by_ e g -> signatures own by_ l gs -> signatures own by_ (e :: l) (g :: gs).

(** The wallet with the secret [k] and chain code [c] has the secret [d] for the entry. *)
Definition has_secret (hmac : list Z -> list Z -> list Z) (fp k c : list Z) (e : s_deriv) (d : list Z) : Prop :=
  dv_fp e = fp /\ (exists c', bip32_derive hmac k c (dv_path e) = Some (d, c')) /\ ec_mul (number d) gen = Some (dv_x e, dv_y e).
(** The signature [r], [s] made of the hash [h] with the secret [d], whose public key is at [x], [y]: from the
    first number of RFC 6979 that is usable; if none of the first 10000 is, a pair of zeros. *)
Definition signed_with (hmac : list Z -> list Z -> list Z) (d h : list Z) (x y r s : Z) : Prop :=
  let usable j := ecdsa_usable (number d) (number h) (rfc6979_number hmac d h j) in
  (exists j recid, (j < Z.to_nat 10000)%nat /\ ecdsa_signature (number d) (number h) (rfc6979_number hmac d h j) r s recid /\ (forall j', (j' < j)%nat -> ~ usable j') /\
     ecdsa_valid (Some (x, y)) (number h) r s /\ 2 * s <= group_order) \/
  (forall j, (j < Z.to_nat 10000)%nat -> ~ usable j) /\ r = 0 /\ s = 0.
(** The fingerprint of the key with the secret [k]. *)
Definition wallet_fp (hash160 : list Z -> list Z) (k : list Z) : list Z := firstn 4 (hash160 (compressed (point_bytes (ec_mul (number k) gen)))).
(** Each input with its signatures. *)
Definition with_sigs (us : list s_input) (gss : list (list s_psig)) : list s_input :=
  map (fun x => add_sigs (fst x) (snd x)) (combine us gss).
Definition entries (us : list s_input) : list s_deriv := flat_map sp_ders us.
(** There is room for a signature for each entry. *)
Definition room_for_sigs (us : list s_input) : Prop := Forall (fun u => len (sp_sigs u) + len (sp_ders u) <= 255) us.
(** The signatures [gss] for the inputs: each is by a key of the wallet, for that input of that transaction. *)
Definition all_signed (dsha hash160 : list Z -> list Z) (hmac hmac512 : list Z -> list Z -> list Z) (k c : list Z)
    (v : s_tx) (us : list s_input) (gss : list (list s_psig)) : Prop :=
  length gss = length us /\
  forall j i u gs, nth_error (s_ins v) j = Some i -> nth_error us j = Some u -> nth_error gss j = Some gs ->
    signatures (fun e => exists d, has_secret hmac512 (wallet_fp hash160 k) k c e d)
      (fun e g => g_comp g = true /\ g_x g = dv_x e /\ g_y g = dv_y e /\
         exists d, has_secret hmac512 (wallet_fp hash160 k) k c e d /\
           signed_with hmac d (input_hash dsha hash160 v j i u (sec_bytes true (dv_x e) (dv_y e))) (dv_x e) (dv_y e) (g_r g) (g_s g))
      (sp_ders u) gs.
(** Random numbers as the code draws them. *)
Definition draws (rz : list Z) (rzs rks : nat -> nat -> list Z) : Prop :=
  random_below field_prime rz /\ (forall n i, random_below field_prime (rzs n i)) /\ (forall n i, random_below group_order (rks n i)).
(** No path is too short, and the wallet has a key for each of its entries. *)
Definition signable (hash160 : list Z -> list Z) (hmac512 : list Z -> list Z -> list Z) (k c : list Z) (us : list s_input) : Prop :=
  paths_reach (wallet_fp hash160 k) (entries us) /\
  Forall (fun e => bip32_derive hmac512 k c (dv_path e) <> None) (of_wallet (wallet_fp hash160 k) (entries us)).
(** The same apart from signatures and, where a redeem or witness script is given, from the script of the output. *)
Definition same_for_signing (u u' : s_input) : Prop :=
  so_value (sp_out u) = so_value (sp_out u') /\ sp_redeem u = sp_redeem u' /\ sp_witness u = sp_witness u' /\ sp_ders u = sp_ders u' /\
  (so_script (sp_out u) = so_script (sp_out u') \/ sp_witness u <> [] \/ sp_redeem u <> []).
(** Hash functions with the sizes of double SHA-256, Hash160 and HMAC-SHA512. *)
Definition hash_sizes (dsha hash160 : list Z -> list Z) (hmac512 : list Z -> list Z -> list Z) : Prop :=
  (forall m, word256 (dsha m)) /\ (forall m, length (hash160 m) = 20%nat /\ bytes_ok (hash160 m)) /\
  (forall k m, length (hmac512 k m) = 64%nat /\ bytes_ok (hmac512 k m)).
(** The same maps with an entry that asks for signatures of a given type (PSBT_IN_SIGHASH_TYPE). *)
Definition asking_type (ty : Z) (maps : list (list (list Z * list Z))) : list (list (list Z * list Z)) :=
  map (fun m => m ++ [([3], le_bytes 4 ty)]) maps.
