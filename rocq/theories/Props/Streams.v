(** Streams, scripts, transaction inputs and outputs (C13-C16, C58). *)
From Coq Require Import Lia.
From Verif Require Import Base.Bytes Base.BytesFacts Model.Conversion Model.Stream Model.Script Model.Tx
  Spec.Codecs Spec.Wire Spec.Objects Spec.StreamOps Proof.StreamTrace Proof.ScriptSound Proof.TxIo Proof.IoProps.
Open Scope Z_scope.

(** * C13 *)
(** Any sequence of reads on non-empty hex text sees what it sees on the decoded bytes. *)
Theorem C13_hex_raw_reads : forall text bs ops, hex_text text bs -> text <> [] -> len text < 2^64 ->
  exists t, rtrace (pb_new text HEX) ops = Ok t /\ rtrace (pb_new bs RAW) ops = Ok t.
Proof. exact hex_raw_reads. Qed.
Print Assumptions C13_hex_raw_reads.
Example C13_reads_ex : rtrace (pb_new (chars "0aFf7") HEX) [RAvailable; RRead; RLast; RReadN 3; RRead; RAvailable]
  = Ok [[2]; [10]; [10]; [255]; [-1]; [0]].
Proof. vm_compute. reflexivity. Qed.
(** A raw stream delivers the bytes in order. *)
Theorem C13_raw_reads_bytes : forall bs before c rest l, bs = before ++ c :: rest -> bytes_ok bs -> len bs < 2^64 ->
  let s := mkPbs bs (len before) RAW l in
  pb_available s = len (c :: rest) /\ pb_read s = Ok (c, mkPbs bs (len before + 1) RAW c).
Proof. intros bs before c rest l E B L. exact (raw_reads_list bs before c rest E B L l). Qed.
Print Assumptions C13_raw_reads_bytes.
(** Writing: the buffer holds the encoding of what a list of the same capacity
    holds after the same calls, and every call returns the same. *)
Theorem C13_stream_writes : forall f buf ops, len buf < 2^64 -> Forall wop_ok ops ->
  let n := (length buf / scale f)%nat in
  let r := ltrace n [] ops in
  wtrace (sb_new buf f) ops = Ok (fst r, enc f (snd r) ++ zeros (length buf - scale f * length (snd r))).
Proof. exact stream_writes. Qed.
Print Assumptions C13_stream_writes.
Example C13_writes_ex : wtrace (sb_new (repeat 9 5) HEX) [WAvailable; WWriteN [171]; WWriteN [1; 2; 3]; WWrite 7]
  = Ok ([2; 1; 1; 0], chars "ab01" ++ [0]).
Proof. vm_compute. reflexivity. Qed.
(** The case left out above: read() on an empty hex stream reads out of bounds
    (available() is 0 there, so a caller that asks first is safe). *)
Theorem C13_empty_hex_read_refuted : pb_read (pb_new [] HEX) = UB /\ pb_available (pb_new [] HEX) = 0.
Proof. exact (conj hex_read_empty eq_refl). Qed.
Print Assumptions C13_empty_hex_read_refuted.

(** * C14 *)
Theorem C14_script_serializes : forall s bs, script_holds s bs ->
  gives_slices (script_to_stream s) (wire_bytes bs) /\ script_length s = len (wire_bytes bs).
Proof. exact script_slices. Qed.
Print Assumptions C14_script_serializes.
Theorem C14_script_parses_back : forall s old bs rest, sc_status s = DONE -> script_holds s old ->
  bytes_ok bs -> len bs < 2^31 ->
  exists s', script_parse s (wire_bytes bs ++ rest) = Ok (s', len (wire_bytes bs), rest) /\
    sc_status s' = DONE /\ script_holds s' bs.
Proof. exact script_parse_back. Qed.
Print Assumptions C14_script_parses_back.
Example C14_ex : let s := script_of (repeat 81 300) in
  serialize (script_to_stream s) 303 0 = Ok (303, 253 :: 44 :: 1 :: repeat 81 300) /\
  script_parse script_new (253 :: 44 :: 1 :: repeat 81 300 ++ [1; 2]) =
    Ok (mkScript (repeat 81 300) 300 3 DONE 303, 303, [1; 2]).
Proof. vm_compute. auto. Qed.

(** * C15: scripts, inputs and outputs *)
Theorem C15_script_slices : forall s bs, script_holds s bs -> gives_slices (script_to_stream s) (wire_bytes bs).
Proof. intros s bs H. exact (proj1 (script_slices s bs H)). Qed.
Print Assumptions C15_script_slices.
Theorem C15_txin_slices : forall t i, txin_holds t i ->
  gives_slices (txin_to_stream t) (wire_in i) /\ txin_length t = len (wire_in i).
Proof. exact txin_slices. Qed.
Print Assumptions C15_txin_slices.
Theorem C15_txout_slices : forall t o, txout_holds t o ->
  gives_slices (txout_to_stream t) (wire_out o) /\ txout_length t = len (wire_out o).
Proof. exact txout_slices. Qed.
Print Assumptions C15_txout_slices.
Example C15_ex : let t := txout_of 5000000000 (script_of [118; 169; 20]) in
  txout_holds t {| so_value := 5000000000; so_script := [118; 169; 20] |} /\
  serialize (txout_to_stream t) 6 5 = Ok (6, [0; 0; 0; 3; 118; 169]).
Proof.
  split; [|vm_compute; reflexivity]. unfold txout_holds, script_holds. cbn [so_value so_script].
  repeat split; try reflexivity; try lia. apply bytes_ok_bool. reflexivity.
Qed.

(** * C16: scripts, inputs and outputs *)
(** For any bytes, valid or not: whenever parsing them at once is defined, any
    way of cutting them gives the same object, status, count and rest (or fails too). *)
Theorem C16_script_chunks : forall s, sc_status s <> INCOMPLETE -> chunk_invariant script_parse sc_status s.
Proof. exact script_chunks_idle. Qed.
Print Assumptions C16_script_chunks.
Theorem C16_txin_chunks : forall t, ti_status t <> INCOMPLETE -> chunk_invariant txin_parse ti_status t.
Proof. exact txin_chunks_idle. Qed.
Print Assumptions C16_txin_chunks.
Theorem C16_txout_chunks : forall t o, to_status t = DONE -> txout_holds t o -> chunk_invariant txout_parse to_status t.
Proof. exact txout_chunks_idle. Qed.
Print Assumptions C16_txout_chunks.
(** Valid encodings with anything behind them. *)
Theorem C16_script_feed : forall s old bs rest chunks, sc_status s = DONE -> script_holds s old ->
  bytes_ok bs -> len bs < 2^31 -> Forall (fun c => c <> [] /\ bytes_ok c) chunks -> concat chunks = wire_bytes bs ++ rest ->
  exists s', feed script_parse sc_status s chunks = Ok (s', len (wire_bytes bs), rest) /\
    sc_status s' = DONE /\ script_holds s' bs.
Proof. exact script_feed. Qed.
Print Assumptions C16_script_feed.
Theorem C16_txin_feed : forall t old i rest chunks, ti_status t = DONE -> txin_holds t old -> in_ok i ->
  Forall (fun c => c <> [] /\ bytes_ok c) chunks -> concat chunks = wire_in i ++ rest ->
  feed txin_parse ti_status t chunks = txin_parse t (wire_in i ++ rest).
Proof. exact txin_feed. Qed.
Print Assumptions C16_txin_feed.
Theorem C16_txin_parses_back : forall t old i rest, ti_status t = DONE -> txin_holds t old -> in_ok i ->
  exists t', txin_parse t (wire_in i ++ rest) = Ok (t', len (wire_in i), rest) /\ ti_status t' = DONE /\
    ti_wit t' = ti_wit t /\ (forall w, witness_holds (ti_wit t) w ->
      txin_holds t' {| si_prev := si_prev i; si_vout := si_vout i; si_sig := si_sig i; si_seq := si_seq i; si_wit := w |}).
Proof. exact txin_parse_back. Qed.
Print Assumptions C16_txin_parses_back.
Theorem C16_txout_feed : forall t old o rest chunks, to_status t = DONE -> txout_holds t old -> out_ok o ->
  Forall (fun c => c <> [] /\ bytes_ok c) chunks -> concat chunks = wire_out o ++ rest ->
  feed txout_parse to_status t chunks = txout_parse t (wire_out o ++ rest).
Proof. exact txout_feed. Qed.
Print Assumptions C16_txout_feed.
Theorem C16_txout_parses_back : forall t old o rest, to_status t = DONE -> txout_holds t old -> out_ok o ->
  exists t', txout_parse t (wire_out o ++ rest) = Ok (t', len (wire_out o), rest) /\ to_status t' = DONE /\ txout_holds t' o.
Proof. exact txout_parse_back. Qed.
Print Assumptions C16_txout_parses_back.
Example C16_ex :
  feed txout_parse to_status txout_new [[1; 2; 0]; [0; 0; 0; 0; 0; 2]; [171]; [172; 9]; [8]]
  = Ok (mkTxout [1; 2; 0; 0; 0; 0; 0; 0] 513 (mkScript [171; 172] 2 1 DONE 3) DONE 11, 11, [9; 8]) /\
  feed txout_parse to_status txout_new [[1; 2; 0]; [0; 0; 0; 0; 0; 2]; [171]; [172; 9]; [8]]
  = txout_parse txout_new [1; 2; 0; 0; 0; 0; 0; 0; 2; 171; 172; 9; 8].
Proof. vm_compute. auto. Qed.
(** Empty chunks are excluded above; they do break the parse. *)
Theorem C16_empty_chunk_refuted : exists s, script_parse script_new [] = Ok (s, 0, []) /\ sc_status s = FAILED.
Proof. exact script_empty_chunk. Qed.
Print Assumptions C16_empty_chunk_refuted.

(** * C58 *)
(** A script parse that reports success read exactly the encoding of the script
    it gives ... *)
Theorem C58_script_sound_partial : forall s old a s' n rest, sc_status s = DONE -> script_holds s old ->
  bytes_ok a -> a <> [] -> hd 0 a <> 255 ->
  script_parse s a = Ok (s', n, rest) -> sc_status s' = DONE ->
  exists bs, script_holds s' bs /\ a = wire_bytes bs ++ rest /\ n = len (wire_bytes bs).
Proof. exact script_sound_holds. Qed.
Print Assumptions C58_script_sound_partial.
Example C58_ex : script_parse script_new [253; 252; 0; 7] =
  Ok (mkScript (zeros 252) 252 3 FAILED 3, 3, [7]) /\
  script_parse script_new [2; 8; 7; 6] = Ok (mkScript [8; 7] 2 1 DONE 3, 3, [6]).
Proof. vm_compute. auto. Qed.
(** ... unless the length starts with 0xff: there the parse can report success on
    bytes that are no script, with a length of 2^64-4, and serializing the result
    reads out of bounds. *)
Theorem C58_script_sound_refuted : exists s n,
  script_parse script_new [255; 252; 255; 255; 255] = Ok (s, n, []) /\ sc_status s = DONE /\
  sc_len s = 2^64 - 4 /\ (forall bs, [255; 252; 255; 255; 255] <> wire_bytes bs) /\
  script_to_stream s None 0 = UB.
Proof. exact script_ff_accepts. Qed.
Print Assumptions C58_script_sound_refuted.
