(** C82: copies of transactions, PSBT and Electrum transactions (copy constructors and operator=).
    [dsha] is the double SHA-256, [garbage] and [junk] what uninitialised memory holds. *)
From Coq Require Import Lia.
From Verif Require Import Base.Bytes Base.BytesFacts Spec.Codecs Spec.Wire Spec.Objects Spec.Keys Spec.HD Spec.PSBT Spec.PSBTSign Spec.Electrum Spec.Copy
  Model.Sign Model.Stream Model.Script Model.Tx Model.Point Model.Networks Model.HD Model.PSBT Model.Electrum Model.Copy Proof.CopyFacts Proof.CopyMore.
From Verif Require Props.Tx Props.PSBT Props.PSBTSign Props.Electrum.
Open Scope Z_scope.

(** * Transactions *)
(** Version, locktime, inputs, outputs and status of a copy are those of the original, whatever state that is in. *)
Theorem C82_tx_same : forall t, same_tx (tx_copy t) t.
Proof. exact copy_same. Qed.
Print Assumptions C82_tx_same.
(** A copy serializes to the same bytes, in the same slices, and has the same length and identifiers; it holds what the original holds. *)
Theorem C82_tx_copy : forall t v, tx_holds t v ->
  tx_holds (tx_copy t) v /\ tx_length (tx_copy t) = tx_length t /\ (forall cap off, tx_to_stream (tx_copy t) cap off = tx_to_stream t cap off) /\
  forall dsha, tx_txid dsha (tx_copy t) = tx_txid dsha t /\ tx_wtxid dsha (tx_copy t) = tx_wtxid dsha t.
Proof. exact tx_copied. Qed.
Print Assumptions C82_tx_copy.
(** The copy of a complete transaction parses as the original does. *)
Theorem C82_tx_reuse : forall t st, t_status t = DONE -> tx_parse (tx_copy t) st = tx_parse t st.
Proof. exact copy_parse. Qed.
Print Assumptions C82_tx_reuse.
(** The bytes of the copy of the example of Props.Tx; the copy is another value: the scripts of the original still have what the parser left in them. *)
Example C82_tx_ex : serialize (tx_to_stream (tx_copy Tx.ex_obj)) 400 0 = serialize (tx_to_stream Tx.ex_obj) 400 0 /\
  serialize (tx_to_stream (tx_copy Tx.ex_obj)) 5 90 = Ok (5, firstn 5 (skipn 90 (wire_tx Tx.ex_tx))) /\ tx_holds (tx_copy Tx.ex_obj) Tx.ex_tx /\
  map (fun i => sc_parsed (ti_script i)) (t_ins Tx.ex_obj) = [4; 1] /\ map (fun i => sc_parsed (ti_script i)) (t_ins (tx_copy Tx.ex_obj)) = [0; 0].
Proof. split; [vm_compute; reflexivity|]. split; [vm_compute; reflexivity|]. split; [apply copy_holds; exact (proj1 Tx.ex_tx_meets)|]. vm_compute. auto. Qed.
(** A copy made while the script of an input is being read is useless: the position in the script is not taken over, so the next byte is taken for
    the sequence number and shifted by a negative amount. *)
Theorem C82_tx_halfway_refuted : forall t l1 i l2 c st, t_status t = INCOMPLETE -> 6 < t_parsed t -> t_ins t = l1 ++ i :: l2 -> Forall (fun i => ti_status i = DONE) l1 ->
  ti_status i = INCOMPLETE -> 36 < ti_parsed i < 36 + script_length (ti_script i) -> 0 <= sc_len (ti_script i) ->
  tx_parse (tx_copy t) (c :: st) = UB.
Proof. exact halfway. Qed.
Print Assumptions C82_tx_halfway_refuted.
(** The first 44 bytes of the example end in the script of the first input. *)
Definition ex_half : tx := match tx_parse tx_new (firstn 44 (wire_tx Tx.ex_tx)) with Ok (t, _, _) => t | UB => tx_new end.
Example C82_tx_halfway_ex : t_status ex_half = INCOMPLETE /\ (6 <? t_parsed ex_half) = true /\
  match t_ins ex_half with
  | i :: _ => ti_status i = INCOMPLETE /\ ti_parsed i = 37 /\ script_length (ti_script i) = 4
  | [] => False
  end /\
  tx_parse (tx_copy ex_half) (skipn 44 (wire_tx Tx.ex_tx)) = UB /\
  match tx_parse ex_half (skipn 44 (wire_tx Tx.ex_tx)) with Ok (t, _, r) => t_status t = DONE /\ r = [] | UB => False end.
Proof. vm_compute. repeat split. Qed.

(** * Partially signed transactions *)
(** Copying an object that can be destroyed gives one that can be destroyed and that agrees with it: transaction, amounts, scripts, derivations,
    signatures and status; the fee, the change outputs and the bytes are the same. *)
Theorem C82_psbt_copy : forall p, psbt_destroy p = Ok tt -> exists q, psbt_copy p = Ok q /\ psbt_destroy q = Ok tt /\ same_psbt q p /\ psbt_fee q = psbt_fee p /\
  (forall derive i, 0 <= i < len (t_outs (ps_tx p)) -> psbt_isMine derive q i = psbt_isMine derive p i) /\
  (sizes_ok (ps_tx p) -> psbt_length q = psbt_length p /\ forall cap off, psbt_to_stream q cap off = psbt_to_stream p cap off).
Proof. exact psbt_copy_seen. Qed.
Print Assumptions C82_psbt_copy.
(** The same for an assignment, whatever the target held. *)
Theorem C82_psbt_assign : forall d p, psbt_destroy d = Ok tt -> psbt_destroy p = Ok tt -> exists q, psbt_assign d p = Ok q /\ psbt_destroy q = Ok tt /\ same_psbt q p /\ psbt_fee q = psbt_fee p /\
  (forall derive i, 0 <= i < len (t_outs (ps_tx p)) -> psbt_isMine derive q i = psbt_isMine derive p i) /\
  (sizes_ok (ps_tx p) -> psbt_length q = psbt_length p /\ forall cap off, psbt_to_stream q cap off = psbt_to_stream p cap off).
Proof. exact psbt_assign_seen. Qed.
Print Assumptions C82_psbt_assign.
(** What the object knows, the copy knows: what C76 says of signing holds of the copy too. *)
Theorem C82_psbt_knows : forall p v us, psbt_knows p v us -> psbt_destroy p = Ok tt ->
  exists q, psbt_copy p = Ok q /\ psbt_knows q v us /\ psbt_destroy q = Ok tt /\ ps_status q = ps_status p.
Proof. exact copy_knows. Qed.
Print Assumptions C82_psbt_knows.
Theorem C82_psbt_assign_knows : forall d p v us, psbt_destroy d = Ok tt -> psbt_knows p v us -> psbt_destroy p = Ok tt -> s_ins v <> [] -> s_outs v <> [] ->
  exists q, psbt_assign d p = Ok q /\ psbt_knows q v us /\ psbt_destroy q = Ok tt /\ ps_status q = ps_status p.
Proof. exact assign_knows. Qed.
Print Assumptions C82_psbt_assign_knows.
(** An object parsed from bytes: its copy, and targets it is assigned to (a used one and a new one), show the same. *)
Definition ex_parsed : psbt := match psbt_parse PSBT.toy (zeros 64) psbt_new (wire_psbt (wire_tx PSBT.ex_psbt_tx) [] (PSBT.ex_maps ++ [[]; []])) with Ok (p, _, _) => p | UB => psbt_new end.
Definition ex_views (r : outcome psbt) :=
  match r with
  | Ok p => Some (ps_status p, psbt_fee p, psbt_destroy p, match ps_ins p with Some l => map (fun m => (to_amount (im_out m), script_bytes (im_redeem m))) l | None => [] end)
  | UB => None
  end.
Example C82_psbt_ex : ex_views (Ok ex_parsed) = Some (DONE, Ok 377, Ok tt, [(1000, []); (77, [81; 81; 82])]) /\
  ex_views (psbt_copy ex_parsed) = ex_views (Ok ex_parsed) /\ ex_views (psbt_assign ex_parsed ex_parsed) = ex_views (Ok ex_parsed) /\
  ex_views (psbt_assign psbt_new ex_parsed) = ex_views (Ok ex_parsed) /\
  (match psbt_copy ex_parsed with Ok q => serialize (psbt_to_stream q) 500 0 | UB => UB end) = serialize (psbt_to_stream ex_parsed) 500 0.
Proof. vm_compute. repeat split. Qed.
(** An object that failed at its transaction cannot be copied, only abandoned: the copy follows pointers that were never set. *)
Theorem C82_psbt_failed_refuted : forall dsha garbage tb rest t n r, bytes_ok tb -> len tb < 2^31 -> plain_length (len tb) -> tx_parse tx_new tb = Ok (t, n, r) -> t_status t <> DONE ->
  t_ins t <> [] \/ t_outs t <> [] ->
  exists p k, psbt_parse dsha garbage psbt_new ([112; 115; 98; 116; 255] ++ wire_pair ([0], tb) ++ rest) = Ok (p, k, rest) /\ ps_status p = FAILED /\
    psbt_copy p = UB /\ forall d, psbt_assign d p = UB.
Proof. exact failed_copy. Qed.
Print Assumptions C82_psbt_failed_refuted.
(** The case of C67_failed_case. *)
Example C82_psbt_failed_ex : match psbt_parse PSBT.toy [] psbt_new ([112; 115; 98; 116; 255] ++ wire_pair ([0], firstn 60 (wire_tx PSBT.ex_psbt_tx)) ++ [0; 0]) with
  | Ok (p, _, _) => ps_status p = FAILED /\ psbt_copy p = UB /\ psbt_assign psbt_new p = UB
  | UB => False
  end.
Proof. vm_compute. repeat split. Qed.
(** A copy of an object that has been read in part starts again at the first byte: going on with it fails. *)
Theorem C82_psbt_halfway_refuted : forall dsha garbage p q c st, psbt_copy p = Ok q -> ps_status p = INCOMPLETE -> c <> 112 ->
  exists q', psbt_parse dsha garbage q (c :: st) = Ok (q', 1, st) /\ ps_status q' = FAILED.
Proof. exact psbt_halfway. Qed.
Print Assumptions C82_psbt_halfway_refuted.
(** So does an object it was assigned to, if that was at its start. *)
Theorem C82_psbt_assign_halfway_refuted : forall dsha garbage d p q c st, psbt_assign d p = Ok q -> ps_parsed d = 0 -> ps_status p = INCOMPLETE -> c <> 112 ->
  exists q', psbt_parse dsha garbage q (c :: st) = Ok (q', 1, st) /\ ps_status q' = FAILED.
Proof. exact psbt_assign_halfway. Qed.
Print Assumptions C82_psbt_assign_halfway_refuted.
(** Two pieces, cut in the last script of the inputs: the object goes on, its copy fails. *)
Example C82_psbt_halfway_ex : let bytes := wire_psbt (wire_tx PSBT.ex_psbt_tx) [] (PSBT.ex_maps ++ [[]; []]) in let cut := (length bytes - 4)%nat in
  match psbt_parse PSBT.toy [] psbt_new (firstn cut bytes) with
  | Ok (p, _, _) => ps_status p = INCOMPLETE /\
      match psbt_parse PSBT.toy [] p (skipn cut bytes), psbt_copy p with
      | Ok (p', _, _), Ok q => ps_status p' = DONE /\ match psbt_parse PSBT.toy [] q (skipn cut bytes) with Ok (q', _, _) => ps_status q' = FAILED | UB => False end
      | _, _ => False
      end
  | UB => False
  end.
Proof. vm_compute. repeat split. Qed.

(** * Electrum transactions *)
(** Copies hold the same transaction, keys, indexes and amounts, and give the same fee and bytes. *)
Theorem C82_electrum_copy : forall e v xs, electrum_holds e v xs -> exists e', el_copy e = Ok e' /\ el_status e' = el_status e /\
  electrum_holds e' v xs /\ (amounts_hold e xs -> amounts_hold e' xs) /\ el_fee e' = el_fee e /\ el_length e' = el_length e /\ (forall cap off, el_to_stream e' cap off = el_to_stream e cap off).
Proof. exact electrum_copy. Qed.
Print Assumptions C82_electrum_copy.
Theorem C82_electrum_assign : forall d e v xs, electrum_holds e v xs -> exists e', el_assign d e = Ok e' /\ el_status e' = el_status e /\
  electrum_holds e' v xs /\ (amounts_hold e xs -> amounts_hold e' xs) /\ el_fee e' = el_fee e /\ el_length e' = el_length e /\ (forall cap off, el_to_stream e' cap off = el_to_stream e cap off).
Proof. exact electrum_assign. Qed.
Print Assumptions C82_electrum_assign.
(** The object of C80_example. *)
Example C82_electrum_ex : forall garbage junk, exists e e',
  el_parse uncompress_pubkey pt_valid_bytes garbage junk el_new (electrum_segwit (Electrum.ex_etx 2) (repeat (Electrum.ex_inp P2WPKH 70000) 2) ++ []) = Ok (e, 315, []) /\
  el_copy e = Ok e' /\ el_fee e' = Ok (140000 - 300).
Proof.
  intros garbage junk. destruct (Electrum.C80_example garbage junk) as (e & P & F).
  destruct (Electrum.ex_etx_ok 2) as (T & W & _ & L). destruct (Electrum.ex_inp_ok P2WPKH 70000 ltac:(discriminate) ltac:(lia)) as (O1 & C1).
  destruct (Electrum.C79_segwit_partial garbage junk el_new (Electrum.ex_etx 2) (repeat (Electrum.ex_inp P2WPKH 70000) 2) [] eq_refl T W ltac:(rewrite L; lia) eq_refl eq_refl
    (Electrum.ex_forall _ _ _ _ O1) (Electrum.ex_forall _ _ _ _ C1)) as (e0 & P0 & _ & EH & _).
  destruct (electrum_copy e0 _ _ EH) as (e' & C & _ & _ & _ & FE & _).
  assert (E0 : e = e0) by (rewrite P in P0; exact (f_equal (fun r => match r with Ok (x, _, _) => x | UB => e end) P0)). subst e0.
  exists e, e'. split; [exact P|]. split; [exact C|]. rewrite FE. exact F.
Qed.
(** An object without the data of its inputs cannot be copied: the copy reads through NULL. *)
Theorem C82_electrum_unfinished_refuted : forall d e, t_ins (el_tx e) <> [] -> el_metas e = None -> el_copy e = UB /\ el_assign d e = UB.
Proof. exact electrum_null. Qed.
Print Assumptions C82_electrum_unfinished_refuted.
(** That is what the first 60 bytes give. *)
Definition ex_60 : electrum :=
  match el_parse uncompress_pubkey pt_valid_bytes [] (fun _ => (0, 0, 0)) el_new (firstn 60 (electrum_segwit (Electrum.ex_etx 2) (repeat (Electrum.ex_inp P2WPKH 70000) 2))) with Ok (e, _, _) => e | UB => el_new end.
Example C82_electrum_unfinished_ex : el_status ex_60 = INCOMPLETE /\ len (t_ins (el_tx ex_60)) = 2 /\ el_metas ex_60 = None /\ el_copy ex_60 = UB /\ el_assign el_new ex_60 = UB.
Proof. vm_compute. repeat split. Qed.
(** The copy forgets that the transaction is a segwit one: while the data of the inputs are being read, it takes the next bytes for another transaction. *)
Theorem C82_electrum_halfway_refuted : forall uncompress pt_valid garbage junk e e' st t n r, el_copy e = Ok e' -> el_status e = INCOMPLETE -> t_status (el_tx e) = DONE -> 6 <= el_parsed e -> st <> [] ->
  tx_parse tx_new st = Ok (t, n, r) -> t_status t = INCOMPLETE ->
  exists e2, el_parse uncompress pt_valid garbage junk e' st = Ok (e2, n, r) /\ el_status e2 = INCOMPLETE /\ el_tx e2 = t.
Proof. exact electrum_halfway. Qed.
Print Assumptions C82_electrum_halfway_refuted.
(** So does an object it was assigned to, if that had not seen a segwit transaction. *)
Theorem C82_electrum_assign_halfway_refuted : forall uncompress pt_valid garbage junk d e e' st t n r, el_assign d e = Ok e' -> el_segwit d = false ->
  el_status e = INCOMPLETE -> t_status (el_tx e) = DONE -> 6 <= el_parsed e -> st <> [] -> tx_parse tx_new st = Ok (t, n, r) -> t_status t = INCOMPLETE ->
  exists e2, el_parse uncompress pt_valid garbage junk e' st = Ok (e2, n, r) /\ el_status e2 = INCOMPLETE /\ el_tx e2 = t.
Proof. exact electrum_assign_halfway. Qed.
Print Assumptions C82_electrum_assign_halfway_refuted.
(** The first 115 bytes end in the amount of the first input; with four more the copy has a transaction without inputs. *)
Definition ex_115 : electrum :=
  match el_parse uncompress_pubkey pt_valid_bytes [] (fun _ => (0, 0, 0)) el_new (firstn 115 (electrum_segwit (Electrum.ex_etx 2) (repeat (Electrum.ex_inp P2WPKH 70000) 2))) with Ok (e, _, _) => e | UB => el_new end.
Example C82_electrum_halfway_ex : let more := firstn 4 (skipn 115 (electrum_segwit (Electrum.ex_etx 2) (repeat (Electrum.ex_inp P2WPKH 70000) 2))) in
  el_status ex_115 = INCOMPLETE /\ t_status (el_tx ex_115) = DONE /\ len (t_ins (el_tx ex_115)) = 2 /\ el_parsed ex_115 = 115 /\
  match el_copy ex_115 with
  | Ok e' => match el_parse uncompress_pubkey pt_valid_bytes [] (fun _ => (0, 0, 0)) e' more with Ok (e2, _, _) => len (t_ins (el_tx e2)) = 0 | UB => False end
  | UB => False
  end /\
  match el_parse uncompress_pubkey pt_valid_bytes [] (fun _ => (0, 0, 0)) ex_115 more with Ok (e2, _, _) => len (t_ins (el_tx e2)) = 2 | UB => False end.
Proof. vm_compute. repeat split. Qed.
