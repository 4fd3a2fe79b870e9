(** Signing of partially signed transactions: src/PSBT.cpp:602-680. *)
From Verif Require Import Base.Bytes Model.Conversion Model.Stream Model.Script Model.Tx Model.Sign Model.Signature Model.Bignum Model.Point Model.HD Model.PointOps Model.PSBT.
Open Scope Z_scope.

(** PSBT.cpp:619-625: the leading hardened indexes of a path (first_derivation_len is their number). *)
Fixpoint hardened_prefix (path : list Z) : list Z :=
  match path with
  | [] => []
  | i :: t => if HARDENED_INDEX <=? i then i :: hardened_prefix t else []
  end.

Section PsbtSign.
(** The double SHA-256, and what the uninitialised array of ECPoint::from_stream holds. *)
Variable dsha : list Z -> list Z.
Variable garbage : list Z.
(** As in Model/HD.v: HMAC-SHA512, Hash160, a scalar times the generator. *)
Variable hmac512 : list Z -> list Z -> list Z.
Variable hash160 : list Z -> list Z.
Variable mulG : list Z -> list Z.
(** PrivateKey::sign (Bitcoin.cpp:647-654) with this secret and hash; the calls are numbered, since each
    draws random numbers of its own. *)
Variable signer : nat -> list Z -> list Z -> outcome signature.

(** HDWallet.cpp:363-369 [fingerprint]. *)
Definition hk_fingerprint (k : hdpriv) : list Z := firstn 4 (hash160 (sec_of (mulG (hk_num k)))).

(** PSBT.cpp:608-610: the cached account key and the path to it; [None] as long as first_derivation is NULL. *)
Definition account : Type := option (list Z * hdpriv).
(** PSBT.cpp:615-627. (The pointer to a path without elements is taken not to be NULL.) *)
Definition cached (root : hdpriv) (a : account) (path : list Z) : list Z * hdpriv :=
  match a with
  | Some c => c
  | None => (hardened_prefix path, hk_derive hmac512 hash160 mulG root (hardened_prefix path))
  end.
(** PSBT.cpp:628-634: the secret. memcmp reads as many indexes of the path as the cached one has. *)
Definition sign_secret (root : hdpriv) (c : list Z * hdpriv) (path : list Z) : outcome (list Z) :=
  if len path <? len (fst c) then UB
  else Ok (hk_num (if list_eqb (fst c) (firstn (length (fst c)) path)
                   then hk_derive hmac512 hash160 mulG (snd c) (skipn (length (fst c)) path)
                   else hk_derive hmac512 hash160 mulG root path)).

(** PSBT.cpp:637-656: the hash that is signed for input [i]. *)
Definition sign_hash (t : tx) (i : Z) (m : inmeta) (sec : list Z) : outcome (list Z) :=
  let amount := to_amount (im_out m) in
  if 1 <? script_length (im_witness m) then tx_sigHashSegwit dsha t i (im_witness m) amount SIGHASH_ALL
  else if 1 <? script_length (im_redeem m) then
    if script_type_eqb (script_type_of (im_redeem m)) P2WPKH
    then tx_sigHashSegwit dsha t i (script_of_pubkey hash160 sec P2PKH) amount SIGHASH_ALL
    else tx_sigHash dsha t i (im_redeem m) SIGHASH_ALL
  else if script_type_eqb (script_type_of (to_script (im_out m))) P2WPKH
  then tx_sigHashSegwit dsha t i (script_of_pubkey hash160 sec P2PKH) amount SIGHASH_ALL
  else tx_sigHash dsha t i (to_script (im_out m)) SIGHASH_ALL.

(** PSBT.cpp:660-672: key and value of the entry, parsed from the arrays arr and varr. *)
Definition sig_entry (pub : ecpoint) (sg : signature) : outcome (script * script) :=
  let! a := serialize (pt_to_stream pub) 65 0 in
  let l := u8 (1 + fst a) in
  let! k := script_parse script_new (firstn (Z.to_nat (l + 1)) (l :: 2 :: snd a)) in
  let! b := serialize (sig_to_stream sg) 99 0 in
  let l := u8 (1 + fst b) in
  let! varr := aset (l :: snd b) l SIGHASH_ALL in
  let! v := script_parse script_new (firstn (Z.to_nat (l + 1)) varr) in
  Ok (fst (fst k), fst (fst v)).

(** What the loops change. [sn_calls] counts the signatures that were made, [sn_count] is the variable counter. *)
Record signing := mkSigning { sn_psbt : psbt; sn_count : Z; sn_account : account; sn_calls : nat }.
(** PSBT.cpp:614-675: one derivation entry [d] of input [i]. The result of add is not looked at. *)
Definition sign_entry (root : hdpriv) (i : Z) (s : signing) (d : pderiv) : outcome signing :=
  if negb (d_set d) then UB
  else if list_eqb (hk_fingerprint root) (d_fp d) then
    let c := cached root (sn_account s) (d_path d) in
    let! secret := sign_secret root c (d_path d) in
    let pub := mkPt (mulG secret) true DONE 0 in
    if pt_eq (d_pub d) pub then
      let! m := at_ptr (ps_ins (sn_psbt s)) i in
      let! h := sign_hash (ps_tx (sn_psbt s)) i m (sec_of (mulG secret)) in
      let! sg := signer (sn_calls s) secret h in
      let! e := sig_entry pub sg in
      let! r := psbt_add dsha garbage (sn_psbt s) (u8 (i + 1)) (fst e) (snd e) in
      Ok (mkSigning (fst r) (u8 (sn_count s + 1)) (Some c) (S (sn_calls s)))
    else Ok (mkSigning (sn_psbt s) (sn_count s) (Some c) (sn_calls s))
  else Ok s.
(** PSBT.cpp:613. *)
Fixpoint sign_entries (root : hdpriv) (i : Z) (s : signing) (l : list pderiv) : outcome signing :=
  match l with
  | [] => Ok s
  | d :: t => let! s1 := sign_entry root i s d in sign_entries root i s1 t
  end.
(** PSBT.cpp:611-612: [n] inputs from [i] on. (add leaves the derivation entries as they are.) *)
Fixpoint sign_inputs (root : hdpriv) (n : nat) (i : Z) (s : signing) : outcome signing :=
  match n with
  | O => Ok s
  | S n' =>
      let! m := at_ptr (ps_ins (sn_psbt s)) i in
      let! s1 := sign_entries root i s (im_ders m) in
      sign_inputs root n' (i + 1) s1
  end.
(** PSBT.cpp:602-680 [sign]: the object afterwards and the number returned. *)
Definition psbt_sign (p : psbt) (root : hdpriv) : outcome (psbt * Z) :=
  let! s := sign_inputs root (length (t_ins (ps_tx p))) 0 (mkSigning p 0 None 0) in
  Ok (sn_psbt s, sn_count s).
End PsbtSign.

(** With the multiplication and the signatures of the code: [rz] is the random number of the multiplications
    (the same for all of them), [rzs] and [rks] give those of each signature. *)
Definition psbt_sign_code (dsha : list Z -> list Z) (garbage : list Z) (hmac512 : list Z -> list Z -> list Z) (hash160 : list Z -> list Z)
    (rz : bn) (rzs rks : nat -> nat -> bn) (p : psbt) (root : hdpriv) : outcome (psbt * Z) :=
  psbt_sign dsha garbage hmac512 hash160 (code_mulG rz)
    (fun n d h => prv_sign (rzs n) (rks n) (mkPrv d (mkPt (code_mulG rz d) true DONE 0)) h) p root.
