(** Copies and assignments of transactions, PSBT and Electrum transactions. Values only: what is allocated and freed for
    them is not modelled, except that a pointer that may not be followed gives [UB]. Allocations are taken to succeed, and
    assigning an object to itself, which changes nothing, is left out. *)
From Verif Require Import Base.Bytes Model.Conversion Model.Stream Model.Script Model.Tx Model.Signature Model.Point Model.HD Model.PSBT Model.Electrum.
Open Scope Z_scope.

(** Bitcoin.h:595-617: TxIn has no operator= of its own, so each member is assigned. *)
Definition txin_assign (dst src : txin) : txin :=
  mkTxin (ti_hash src) (ti_index src) (script_assign (ti_script dst) (ti_script src)) (ti_seq src)
    (witness_assign (ti_wit dst) (ti_wit src)) (ti_status src) (ti_parsed src).
(** Bitcoin.h:623-655: nor has TxOut. *)
Definition txout_assign (dst src : txout) : txout :=
  mkTxout (to_tmp src) (to_amount src) (script_assign (to_script dst) (to_script src)) (to_status src) (to_parsed src).
(** Transaction.cpp:212-229 (copy) and 230-253 (assignment): new arrays, all members taken over. *)
Definition tx_copy (src : tx) : tx :=
  mkTx (t_version src) (map (txin_assign txin_new) (t_ins src)) (map (txout_assign txout_new) (t_outs src)) (t_lock src)
    (t_segflag src) (t_status src) (t_parsed src).

(** The first [n] elements of an array behind a pointer, each copied. *)
Fixpoint copy_all {A} (copy : A -> outcome A) (l : list A) : outcome (list A) :=
  match l with
  | [] => Ok []
  | x :: t => let! y := copy x in let! t' := copy_all copy t in Ok (y :: t')
  end.
Definition copy_ptr {A} (copy : A -> outcome A) (n : Z) (l : option (list A)) : outcome (list A) :=
  if n =? 0 then Ok []
  else match l with
       | Some l => if len l <? n then UB else copy_all copy (firstn (Z.to_nat n) l)
       | None => UB
       end.

(** Electrum.cpp:3-12: is_segwit is not taken over. *)
Definition el_copy (src : electrum) : outcome electrum :=
  let! ms := copy_ptr (fun m => Ok m) (len (t_ins (el_tx src))) (el_metas src) in
  Ok (mkEl (tx_copy (el_tx src)) false (Some ms) (el_status src) (el_parsed src)).
(** Electrum.cpp:13-26: the target keeps its own is_segwit. *)
Definition el_assign (dst src : electrum) : outcome electrum :=
  let! ms := copy_ptr (fun m => Ok m) (len (t_ins (el_tx src))) (el_metas src) in
  Ok (mkEl (tx_copy (el_tx src)) (el_segwit dst) (Some ms) (el_status src) (el_parsed src)).

(** PSBT.cpp:540-548, 557-565, 781-789 and 804-812: an indeterminate length or pointer must not be used. *)
Definition der_copy (d : pderiv) : outcome pderiv := if d_set d then Ok d else UB.
(** PSBT.cpp:537-553 and 777-798. *)
Definition inmeta_copy (m : inmeta) : outcome inmeta :=
  let! ds := copy_all der_copy (im_ders m) in
  Ok (mkInMeta (txout_assign txout_new (im_out m)) ds (script_assign script_new (im_redeem m)) (script_assign script_new (im_witness m)) (im_sigs m)).
(** PSBT.cpp:554-566 and 801-813. *)
Definition outmeta_copy (m : outmeta) : outcome outmeta :=
  let! ds := copy_all der_copy (om_ders m) in
  Ok (mkOutMeta ds (script_assign script_new (om_redeem m)) (script_assign script_new (om_witness m))).
(** PSBT.cpp:530-567: only the transaction, the status and the arrays are taken over. *)
Definition psbt_copy (src : psbt) : outcome psbt :=
  let! ins := copy_ptr inmeta_copy (len (t_ins (ps_tx src))) (ps_ins src) in
  let! outs := copy_ptr outmeta_copy (len (t_outs (ps_tx src))) (ps_outs src) in
  Ok (mkPsbt script_new script_new 0 0 (tx_copy (ps_tx src)) (Some ins) (Some outs) (ps_status src) 0).
(** PSBT.cpp:740-815: what the target held is freed first; without inputs or outputs its pointers are left as they are. *)
Definition psbt_assign (dst src : psbt) : outcome psbt :=
  let! _ := psbt_release dst in
  let! ins := copy_ptr inmeta_copy (len (t_ins (ps_tx src))) (ps_ins src) in
  let! outs := copy_ptr outmeta_copy (len (t_outs (ps_tx src))) (ps_outs src) in
  Ok (mkPsbt (ps_key dst) (ps_value dst) (ps_section dst) (ps_last dst) (tx_copy (ps_tx src))
        (if 0 <? len (t_ins (ps_tx src)) then Some ins else if 0 <? len (t_ins (ps_tx dst)) then None else ps_ins dst)
        (if 0 <? len (t_outs (ps_tx src)) then Some outs else if 0 <? len (t_outs (ps_tx dst)) then None else ps_outs dst)
        (ps_status src) (ps_parsed dst)).
