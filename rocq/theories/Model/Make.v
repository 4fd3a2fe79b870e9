(** Objects made from text: constructors of TxIn, TxOut and PrivateKey, and txid() as a String. *)
From Verif Require Import Base.Bytes Model.Conversion Model.Strings Model.Stream Model.Keys Model.Script Model.Tx Model.Address.
Open Scope Z_scope.

(** Transaction.cpp:45-58. [prev_id] is the text without its NUL. fromHex clears arr first (Conversion.cpp:95). *)
Definition txin_text (prev_id : list Z) (prev_index sequence : Z) : outcome txin :=
  if len prev_id <? 64 then Ok txin_new
  else
    let! r := fromHex (firstn 64 prev_id) (zeros 32) in
    Ok (mkTxin (rev (snd r)) prev_index script_new sequence witness_new DONE 0).
(** Transaction.cpp:59-71. This one does not call init(): [memory] is what the 32 bytes of hash hold before. *)
Definition txin_text_script (memory prev_id : list Z) (prev_index : Z) (sc : script) (sequence : Z) : outcome txin :=
  if len prev_id <? 64 then Ok (mkTxin memory prev_index script_new sequence witness_new DONE 0)
  else
    let! r := fromHex (firstn 64 prev_id) (zeros 32) in
    Ok (mkTxin (rev (snd r)) prev_index (script_assign script_new (script_copy sc)) sequence witness_new DONE 0).

Section Make.
Variable heap : nat -> list Z.
(** Hash.cpp [doubleSha]. *)
Variable dsha : list Z -> list Z.

(** Transaction.cpp:589-593 [String Tx::txid()]. *)
Definition tx_txid_string (t : tx) : outcome (list Z) :=
  let! id := tx_txid dsha t in toHex_string heap id.

(** Bitcoin.h:634-635 with 489. *)
Definition txout_text (amount : Z) (address : list Z) : outcome txout :=
  let! s := script_fromAddress dsha script_new address in
  Ok (mkTxout (zeros 8) amount (script_assign script_new s) DONE 0).

(** Bitcoin.cpp:702-704. [memory] is what the object holds before fromWIF: ECScalar() and PublicKey() have run, nothing has
    set [network]. *)
Definition privkey_text (memory : privkey) (text : list Z) : privkey := snd (fromWIF dsha memory text).
End Make.
