(** Script templates and transaction signing: src/Script.cpp, src/Transaction.cpp. *)
From Verif Require Import Base.Bytes Model.Conversion Model.Stream Model.Script Model.Tx.
Open Scope Z_scope.

(** Bitcoin.h:40-52. *)
Inductive script_type := UNKNOWN_TYPE | DIRECT_SCRIPT | P2PKH | P2SH | P2WPKH | P2WSH | P2SH_P2WPKH | P2SH_P2WSH | MULTISIG.
Definition script_type_eqb (a b : script_type) : bool :=
  match a, b with
  | UNKNOWN_TYPE, UNKNOWN_TYPE | DIRECT_SCRIPT, DIRECT_SCRIPT | P2PKH, P2PKH | P2SH, P2SH | P2WPKH, P2WPKH
  | P2WSH, P2WSH | P2SH_P2WPKH, P2SH_P2WPKH | P2SH_P2WSH, P2SH_P2WSH | MULTISIG, MULTISIG => true
  | _, _ => false
  end.

(** scriptArray[i]: within the block for every index used below when scriptLen
    is the size of the block. *)
Definition at_ (s : script) (i : Z) : Z := nth (Z.to_nat i) (sc_arr s) (-1).

(** Script.cpp:332-366. OP_DUP 118, OP_HASH160 169, OP_EQUAL 135, OP_EQUALVERIFY 136, OP_CHECKSIG 172. *)
Definition script_type_of (s : script) : script_type :=
  if (sc_len s =? 25) && (at_ s 0 =? 118) && (at_ s 1 =? 169) && (at_ s 2 =? 20) && (at_ s 23 =? 136) && (at_ s 24 =? 172)
  then P2PKH
  else if (sc_len s =? 23) && (at_ s 0 =? 169) && (at_ s 1 =? 20) && (at_ s 22 =? 135) then P2SH
  else if (sc_len s =? 22) && (at_ s 0 =? 0) && (at_ s 1 =? 20) then P2WPKH
  else if (sc_len s =? 34) && (at_ s 0 =? 0) && (at_ s 1 =? 32) then P2WSH
  else UNKNOWN_TYPE.

Section Templates.
(** Hash.cpp: both are functions of the bytes given. *)
Variable hash160 sha256 : list Z -> list Z.

Definition script_with (data : list Z) : script := mkScript data (len data) 0 DONE 0.

(** Script.cpp:16-23, 25-32, 112-117, 119-124; [sec] is what pub.sec() writes. *)
Definition pkh (sec : list Z) : script := script_of ([118; 169; 20] ++ hash160 sec ++ [136; 172]).
Definition wpkh (sec : list Z) : script := script_of ([0; 20] ++ hash160 sec).
Definition wsh (s : script) : script := script_of ([0; 32] ++ sha256 (firstn (Z.to_nat (sc_len s)) (sc_arr s))).
Definition sh (s : script) : script := script_of ([169; 20] ++ hash160 (firstn (Z.to_nat (sc_len s)) (sc_arr s)) ++ [135]).

(** Script.cpp:210-235. *)
Definition script_of_pubkey (sec : list Z) (type : script_type) : script :=
  match type with
  | P2PKH => script_with ([118; 169; 20] ++ hash160 sec ++ [136; 172])
  | P2WPKH => script_with ([0; 20] ++ hash160 sec)
  | _ => script_new
  end.
(** Script.cpp:236-255, 479-482. *)
Definition script_of_script (s : script) (type : script_type) : script :=
  let data := firstn (Z.to_nat (sc_len s)) (sc_arr s) in
  match type with
  | P2SH => script_with ([169; 20] ++ hash160 data ++ [135])
  | P2WSH => script_with ([0; 32] ++ sha256 data)
  | _ => script_new
  end.
End Templates.

(** Script.cpp:670-675, with [sec] the bytes pubkey.sec() writes. *)
Definition witness_push_pubkey (w : witness) (sec : list Z) : outcome witness := witness_push w sec.
(** Script.cpp:676-682: the type byte is stored behind the DER bytes, in der[75]. *)
Definition witness_push_sig (w : witness) (der : list Z) (sigType : Z) : outcome witness :=
  if len der <? 75 then witness_push w (der ++ [u8 sigType]) else UB.
(** Script.cpp:683-693. *)
Definition witness_push_script (w : witness) (sc : script) : outcome witness :=
  let! r := serialize (script_to_stream sc) (Z.to_nat (script_length sc)) 0 in
  let '(l, tmp) := r in
  let! dl := readVarInt tmp in
  if (0 <=? l - dl) && (l <=? len tmp)
  then witness_push w (firstn (Z.to_nat dl) (skipn (Z.to_nat (l - dl)) tmp)) else UB.

(** SIGHASH_ALL, the default of the push functions (Bitcoin.h:525, 580). *)
Definition SIGHASH_ALL : Z := 1.

Section Signing.
Variable dsha : list Z -> list Z.
Variable hash160 sha256 : list Z -> list Z.
(** The private key: the bytes of its public key, and the DER bytes of its
    signature of a hash (Bitcoin.cpp:647-654). *)
Variable sec : list Z.
Variable sign_der : list Z -> list Z.

Fixpoint set_in (l : list txin) (i : nat) (f : txin -> txin) : outcome (list txin) :=
  match l, i with
  | [], _ => UB
  | t :: r, O => Ok (f t :: r)
  | t :: r, S k => let! r' := set_in r k f in Ok (t :: r')
  end.
Definition tx_set_in (t : tx) (i : Z) (f : txin -> txin) : outcome tx :=
  let! l := set_in (t_ins t) (Z.to_nat i) f in
  Ok (mkTx (t_version t) l (t_outs t) (t_lock t) (t_segflag t) (t_status t) (t_parsed t)).

(** Transaction.cpp:698-716. *)
Definition tx_signInput (t : tx) (inputIndex : Z) (redeem : script) (sighash : Z) : outcome (tx * list Z) :=
  let! h := tx_sigHash dsha t inputIndex redeem sighash in
  let der := sign_der h in
  let sc1 := script_push_pubkey (script_push_sig script_new der SIGHASH_ALL) sec in
  let! sc2 := (if script_type_eqb (script_type_of redeem) P2PKH then Ok sc1 else script_push_script sc1 redeem) in
  let! t' := tx_set_in t (u8 inputIndex) (fun i =>
    mkTxin (ti_hash i) (ti_index i) (script_assign (ti_script i) sc2) (ti_seq i) (ti_wit i) (ti_status i) (ti_parsed i)) in
  Ok (t', der).

(** Transaction.cpp:717-754. *)
Definition tx_signSegwitInput (t : tx) (inputIndex : Z) (redeem : script) (amount : Z) (type : script_type) (sighash : Z)
  : outcome (tx * list Z) :=
  let wpkh_in := script_type_eqb (script_type_of redeem) P2WPKH in
  let! h := (if wpkh_in then tx_sigHashSegwit dsha t inputIndex (script_of_pubkey hash160 sec P2PKH) amount sighash
             else tx_sigHashSegwit dsha t inputIndex redeem amount sighash) in
  let der := sign_der h in
  let! ssig := (if script_type_eqb type P2SH_P2WPKH || script_type_eqb type P2SH_P2WSH then
                  if wpkh_in then script_push_script script_new redeem
                  else script_push_script script_new (script_of_script hash160 sha256 redeem P2WSH)
                else Ok script_new) in
  let! w1 := witness_push_sig witness_new der SIGHASH_ALL in
  let! w2 := witness_push_pubkey w1 sec in
  let! w3 := (if wpkh_in then Ok w2 else witness_push_script w2 redeem) in
  let! t' := tx_set_in t (u8 inputIndex) (fun i =>
    mkTxin (ti_hash i) (ti_index i) (script_assign (ti_script i) ssig) (ti_seq i) (witness_assign (ti_wit i) w3)
      (ti_status i) (ti_parsed i)) in
  Ok (t', der).
End Signing.
