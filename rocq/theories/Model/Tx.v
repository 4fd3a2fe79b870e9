(** Transactions: src/Transaction.cpp, src/Bitcoin.h. *)
From Verif Require Import Base.Bytes Model.Conversion Model.Stream Model.Script.
Open Scope Z_scope.

(** [x += c << (8*(pos-base))] on a uint32_t field. *)
Definition acc32 (base : Z) (acc pos c : Z) : outcome Z :=
  let! v := shl_int c (8 * (pos - base)) in Ok (u32 (acc + v)).

(** ** TxIn *)

(** Bitcoin.h:595-612. *)
Record txin := mkTxin {
  ti_hash : list Z; ti_index : Z; ti_script : script; ti_seq : Z; ti_wit : witness;
  ti_status : pstatus; ti_parsed : Z }.

(** Transaction.cpp:19-28. *)
Definition txin_new : txin := mkTxin (zeros 32) 0 script_new 0 witness_new DONE 0.

(** Transaction.cpp:29-44: the previous id is stored reversed. *)
Definition txin_of (prev_id : list Z) (prev_index : Z) (sc : script) (sequence : Z) : txin :=
  mkTxin (rev prev_id) prev_index (script_copy sc) sequence witness_new DONE 0.

(** Transaction.cpp:139-141. *)
Definition txin_length (t : txin) : Z := 32 + 4 + script_length (ti_script t) + 4.

(** Bitcoin.h:613. *)
Definition txin_isSegwit (t : txin) : bool := 0 <? witness_count (ti_wit t).

(** Transaction.cpp:81-117: after the status checks. [pos] is bytes_read+bytes_parsed. *)
Definition txin_parse_body (t : txin) (st : list Z) : outcome (txin * Z * list Z) :=
  let p0 := ti_parsed t in
  let! r1 := read_loop_o 32 p0 (fun a p c => aset a p c) (ti_hash t) st in
  let '(hash1, pos1, st1) := r1 in
  let! r2 := read_loop_o 36 pos1 (acc32 32) (ti_index t) st1 in
  let '(idx2, pos2, st2) := r2 in
  let! r3 := (match st2 with
              | _ :: _ => if pos2 =? 36 then script_parse (ti_script t) st2 else Ok (ti_script t, 0, st2)
              | [] => Ok (ti_script t, 0, st2)
              end) in
  let '(sc3, n3, st3) := r3 in
  let! r4 := (match st3, sc_status sc3 with
              | _ :: _, INCOMPLETE => script_parse sc3 st3
              | _, _ => Ok (sc3, 0, st3)
              end) in
  let '(sc4, n4, st4) := r4 in
  let pos4 := pos2 + n3 + n4 in
  match sc_status sc4 with
  | FAILED => Ok (mkTxin hash1 idx2 sc4 (ti_seq t) (ti_wit t) FAILED pos4, pos4 - p0, st4)
  | _ =>
    let sl := script_length sc4 in
    let! r5 := read_loop_o (40 + sl) pos4 (acc32 (36 + sl)) (ti_seq t) st4 in
    let '(seq5, pos5, st5) := r5 in
    let stat := if pstatus_eqb (sc_status sc4) DONE && (pos5 =? 40 + sl) then DONE else INCOMPLETE in
    Ok (mkTxin hash1 idx2 sc4 seq5 (ti_wit t) stat pos5, pos5 - p0, st5)
  end.

(** Transaction.cpp:71-118. *)
Definition txin_parse (t : txin) (st : list Z) : outcome (txin * Z * list Z) :=
  match ti_status t with
  | FAILED => Ok (t, 0, st)
  | DONE => txin_parse_body
              (mkTxin (ti_hash t) 0 (script_assign (ti_script t) script_new) 0 (ti_wit t) DONE 0) st
  | INCOMPLETE => txin_parse_body t st
  end.

(** Transaction.cpp:119-138. *)
Definition txin_to_stream (t : txin) : serializer := fun cap offset =>
  let! w1 := write_loop 32 0 32 (ti_hash t) (mkWst offset cap []) in
  let! a1 := intToLittleEndian (ti_index t) 4 in
  let! w2 := write_loop 4 32 4 a1 w1 in
  let l := script_length (ti_script t) in
  let! w3 := write_obj 36 l (script_to_stream (ti_script t)) w2 in
  let! a2 := intToLittleEndian (ti_seq t) 4 in
  let! w4 := write_loop 4 (36 + l) 4 a2 w3 in
  Ok (w_out w4).

(** ** TxOut *)

(** Bitcoin.h:623-641. *)
Record txout := mkTxout {
  to_tmp : list Z; to_amount : Z; to_script : script; to_status : pstatus; to_parsed : Z }.

(** Bitcoin.h:631-632. [tmp] is not initialised by the constructor; it is
    cleared before its first use, so any contents will do. *)
Definition txout_new : txout := mkTxout (zeros 8) 0 script_new DONE 0.
Definition txout_of (amount : Z) (sc : script) : txout :=
  mkTxout (zeros 8) amount (script_copy sc) DONE 0.

(** Bitcoin.h:636. *)
Definition txout_length (t : txout) : Z := 8 + script_length (to_script t).

(** Transaction.cpp:156-178. *)
Definition txout_amount_step (st : list Z * Z) (pos c : Z) : outcome (list Z * Z) :=
  let! tmp := aset (fst st) pos c in Ok (tmp, littleEndianToInt tmp).
Definition txout_parse_body (t : txout) (st : list Z) : outcome (txout * Z * list Z) :=
  let p0 := to_parsed t in
  let! r1 := read_loop_o 8 p0 txout_amount_step (to_tmp t, to_amount t) st in
  let '(ta, pos1, st1) := r1 in
  let! r2 := (match st1 with
              | _ :: _ => if pos1 =? 8 then script_parse (to_script t) st1 else Ok (to_script t, 0, st1)
              | [] => Ok (to_script t, 0, st1)
              end) in
  let '(sc2, n2, st2) := r2 in
  let! r3 := (match st2, sc_status sc2 with
              | _ :: _, INCOMPLETE => script_parse sc2 st2
              | _, _ => Ok (sc2, 0, st2)
              end) in
  let '(sc3, n3, st3) := r3 in
  let pos3 := pos1 + n2 + n3 in
  let stat := match sc_status sc3 with
              | FAILED => FAILED
              | DONE => if pos3 =? 8 + script_length sc3 then DONE else INCOMPLETE
              | INCOMPLETE => INCOMPLETE
              end in
  Ok (mkTxout (fst ta) (snd ta) sc3 stat pos3, pos3 - p0, st3).

(** Transaction.cpp:145-179. *)
Definition txout_parse (t : txout) (st : list Z) : outcome (txout * Z * list Z) :=
  match to_status t with
  | FAILED => Ok (t, 0, st)
  | DONE =>
      let sc := script_clear (to_script t) in
      txout_parse_body (mkTxout (zeros 8) 0 (mkScript (sc_arr sc) (sc_len sc) (sc_lenLen sc) DONE 0) DONE 0) st
  | INCOMPLETE => txout_parse_body t st
  end.

(** Transaction.cpp:181-195. *)
Definition txout_to_stream (t : txout) : serializer := fun cap offset =>
  let! a := intToLittleEndian (to_amount t) 8 in
  let! w1 := write_loop 8 0 8 a (mkWst offset cap []) in
  let! w2 := write_obj 8 (script_length (to_script t)) (script_to_stream (to_script t)) w1 in
  Ok (w_out w2).

(** ** Tx *)

(** Bitcoin.h:661-678. inputsNumber/outputsNumber are the lengths of the lists. *)
Record tx := mkTx {
  t_version : Z; t_ins : list txin; t_outs : list txout; t_lock : Z;
  t_segflag : Z; t_status : pstatus; t_parsed : Z }.

(** Transaction.cpp:198-208. *)
Definition tx_new : tx := mkTx 1 [] [] 0 1 DONE 0.

(** Transaction.cpp:284-291. *)
Definition tx_isSegwit (t : tx) : bool := existsb txin_isSegwit (t_ins t).
Definition b2z (b : bool) : Z := if b then 1 else 0.
Definition zsum (l : list Z) : Z := fold_right Z.add 0 l.

(** Transaction.cpp:270-283. *)
Definition tx_length (t : tx) : Z :=
  let sg := tx_isSegwit t in
  4 + 4 + lenVarInt (len (t_ins t)) + lenVarInt (len (t_outs t)) + 2 * b2z sg
  + zsum (map (fun i => txin_length i + (if sg then witness_length (ti_wit i) else 0)) (t_ins t))
  + zsum (map txout_length (t_outs t)).

(** Transaction.cpp:601-626 (copies of the arrays; the new element is copied). *)
Definition txin_copy (t : txin) : txin :=
  mkTxin (ti_hash t) (ti_index t) (script_copy (ti_script t)) (ti_seq t) (witness_copy (ti_wit t)) (ti_status t) (ti_parsed t).
Definition tx_addInput (t : tx) (i : txin) : tx :=
  mkTx (t_version t) (t_ins t ++ [i]) (t_outs t) (t_lock t) (t_segflag t) (t_status t) (t_parsed t).
Definition tx_addOutput (t : tx) (o : txout) : tx :=
  mkTx (t_version t) (t_ins t) (t_outs t ++ [o]) (t_lock t) (t_segflag t) (t_status t) (t_parsed t).

(** Transaction.cpp:316-322, 329-335, 337-343: a loop writing objects one after
    the other; [base] is cur_offset. Returns the state and cur_offset. *)
Fixpoint write_objs {E} (length_of : E -> Z) (ser : E -> serializer) (l : list E) (base : Z) (w : wst)
  : outcome (wst * Z) :=
  match l with
  | [] => Ok (w, base)
  | e :: t => let! w1 := write_obj base (length_of e) (ser e) w in
              write_objs length_of ser t (base + length_of e) w1
  end.

(** Transaction.cpp:292-351. *)
Definition tx_to_stream (t : tx) : serializer := fun cap offset =>
  let! a0 := intToLittleEndian (t_version t) 4 in
  let! w1 := write_loop 4 0 4 a0 (mkWst offset cap []) in
  let sg := tx_isSegwit t in
  let w2 := if sg && w_available w1 && (w_pos w1 =? 4) then w_put w1 0 else w1 in
  let w3 := if sg && w_available w2 && (w_pos w2 =? 5) then w_put w2 1 else w2 in
  let base := 4 + 2 * b2z sg in
  let! r1 := writeVarInt (len (t_ins t)) (zeros 10) in
  let! w4 := write_one base (fst r1) (snd r1) w3 in
  let! r2 := write_objs txin_length txin_to_stream (t_ins t) (base + fst r1) w4 in
  let '(w5, base5) := r2 in
  let! r3 := writeVarInt (len (t_outs t)) (zeros 10) in
  let! w6 := write_one base5 (fst r3) (snd r3) w5 in
  let! r4 := write_objs txout_length txout_to_stream (t_outs t) (base5 + fst r3) w6 in
  let '(w7, base7) := r4 in
  let! r5 := (if sg then write_objs (fun i => witness_length (ti_wit i)) (fun i => witness_to_stream (ti_wit i))
                           (t_ins t) base7 w7
              else Ok (w7, base7)) in
  let '(w8, base8) := r5 in
  let! a9 := intToLittleEndian (t_lock t) 4 in
  let! w9 := write_loop 4 base8 4 a9 w8 in
  Ok (w_out w9).

(** Transaction.cpp:378-380, 396-398, 418-420, 437-439: parse every element, whatever is available. *)
Fixpoint parse_all {E} (parse : E -> list Z -> outcome (E * Z * list Z)) (l : list E) (st : list Z)
  : outcome (list E * Z * list Z) :=
  match l with
  | [] => Ok ([], 0, st)
  | e :: t => let! r := parse e st in
              let '(e1, n1, st1) := r in
              let! r2 := parse_all parse t st1 in
              let '(t2, n2, st2) := r2 in
              Ok (e1 :: t2, n1 + n2, st2)
  end.

(** Transaction.cpp:400-409, 422-431, 442-452: continue incomplete elements;
    stop (true) at the first failed one. *)
Fixpoint parse_more {E} (parse : E -> list Z -> outcome (E * Z * list Z)) (status : E -> pstatus)
    (l : list E) (st : list Z) : outcome (list E * Z * list Z * bool) :=
  match l with
  | [] => Ok ([], 0, st, false)
  | e :: t =>
      let! r := (match st, status e with
                 | _ :: _, INCOMPLETE => parse e st
                 | _, _ => Ok (e, 0, st)
                 end) in
      let '(e1, n1, st1) := r in
      if pstatus_eqb (status e1) FAILED then Ok (e1 :: t, n1, st1, true)
      else let! r2 := parse_more parse status t st1 in
           let '(t2, n2, st2, f) := r2 in
           Ok (e1 :: t2, n1 + n2, st2, f)
  end.

(** Parsing the witness inside an input ([s->parse(&txIns[i].witness)]). *)
Definition txin_parse_wit (t : txin) (st : list Z) : outcome (txin * Z * list Z) :=
  let! r := witness_parse (ti_wit t) st in
  let '(w, n, st1) := r in
  Ok (mkTxin (ti_hash t) (ti_index t) (ti_script t) (ti_seq t) w (ti_status t) (ti_parsed t), n, st1).
Definition txin_wit_status (t : txin) : pstatus := wi_status (ti_wit t).

(** Transaction.cpp:370-399: input count, with the segwit marker and flag.
    Result: inputs, segwit flag, position, stream, failed. *)
Definition tx_parse_count (ins : list txin) (sf pos : Z) (st : list Z)
  : outcome (list txin * Z * Z * list Z * bool) :=
  (* 370-382 *)
  let! a := (match st with
             | c :: t =>
                 if pos =? 4 then
                   if c =? 0 then Ok (ins, 1, pos + 1, t)
                   else let! r := parse_all txin_parse (repeat txin_new (Z.to_nat c)) t in
                        let '(l, n, t1) := r in Ok (l, sf, pos + 1 + n, t1)
                 else Ok (ins, sf, pos, st)
             | [] => Ok (ins, sf, pos, st)
             end) in
  let '(ins1, sf1, pos1, st1) := a in
  (* 383-391 *)
  let '(pos2, st2, bad) :=
    match st1 with
    | c :: t => if (0 <? sf1) && (pos1 =? 5) then (pos1 + 1, t, negb (c =? 1)) else (pos1, st1, false)
    | [] => (pos1, st1, false)
    end in
  if bad then Ok (ins1, sf1, pos2, st2, true) else
  (* 392-399 *)
  let! b := (match st2 with
             | c :: t =>
                 if (0 <? sf1) && (pos2 =? 6) then
                   let! r := parse_all txin_parse (repeat txin_new (Z.to_nat c)) t in
                   let '(l, n, t1) := r in Ok (l, pos2 + 1 + n, t1)
                 else Ok (ins1, pos2, st2)
             | [] => Ok (ins1, pos2, st2)
             end) in
  let '(ins3, pos3, st3) := b in
  Ok (ins3, sf1, pos3, st3, false).

(** Transaction.cpp:464-479. *)
Definition tx_completed (sf : Z) (ins : list txin) (outs : list txout) : bool :=
  forallb (fun i => pstatus_eqb (ti_status i) DONE &&
                    (if 0 <? sf then pstatus_eqb (txin_wit_status i) DONE else true)) ins
  && forallb (fun o => pstatus_eqb (to_status o) DONE) outs.

(** Transaction.cpp:363-486: after the status checks. *)
Definition tx_parse_body (t : tx) (st : list Z) : outcome (tx * Z * list Z) :=
  let p0 := t_parsed t in
  let fail ver ins outs sf pos s :=
    Ok (mkTx ver ins outs (t_lock t) sf FAILED pos, pos - p0, s) in
  let! r1 := read_loop_o 4 p0 (acc32 0) (t_version t) st in
  let '(ver, pos1, st1) := r1 in
  let! r2 := tx_parse_count (t_ins t) (t_segflag t) pos1 st1 in
  let '(ins2, sf, pos2, st2, bad2) := r2 in
  if bad2 then fail ver ins2 (t_outs t) sf pos2 st2 else
  (* 400-409 *)
  let! r3 := parse_more txin_parse ti_status ins2 st2 in
  let '(ins3, n3, st3, bad3) := r3 in
  let pos3 := pos2 + n3 in
  if bad3 then fail ver ins3 (t_outs t) sf pos3 st3 else
  (* 410-413 *)
  let off1 := 5 + 2 * sf + zsum (map txin_length ins3) in
  (* 414-421 *)
  let! r4 := (match st3 with
              | c :: t' =>
                  if pos3 =? off1 then
                    let! r := parse_all txout_parse (repeat txout_new (Z.to_nat c)) t' in
                    let '(l, n, s1) := r in Ok (l, pos3 + 1 + n, s1)
                  else Ok (t_outs t, pos3, st3)
              | [] => Ok (t_outs t, pos3, st3)
              end) in
  let '(outs4, pos4, st4) := r4 in
  (* 422-431 *)
  let! r5 := parse_more txout_parse to_status outs4 st4 in
  let '(outs5, n5, st5, bad5) := r5 in
  let pos5 := pos4 + n5 in
  if bad5 then fail ver ins3 outs5 sf pos5 st5 else
  (* 432-435 *)
  let off2 := off1 + 1 + zsum (map txout_length outs5) in
  (* 436-440: note that availability is not checked *)
  let! r6 := (if (0 <? sf) && (pos5 =? off2) then
                let! r := parse_all txin_parse_wit ins3 st5 in
                let '(l, n, s1) := r in Ok (l, pos5 + n, s1)
              else Ok (ins3, pos5, st5)) in
  let '(ins6, pos6, st6) := r6 in
  (* 441-455 *)
  let! r7 := (if 0 <? sf then
                let! r := parse_more txin_parse_wit txin_wit_status ins6 st6 in
                let '(l, n, s1, bad) := r in Ok (l, pos6 + n, s1, bad)
              else Ok (ins6, pos6, st6, false)) in
  let '(ins7, pos7, st7, bad7) := r7 in
  if bad7 then fail ver ins7 outs5 sf pos7 st7 else
  let off3 := off2 + (if 0 <? sf then zsum (map (fun i => witness_length (ti_wit i)) ins7) else 0) in
  (* 457-461 *)
  let! r8 := read_loop_o (off3 + 4) pos7 (acc32 off3) (t_lock t) st7 in
  let '(lock, pos8, st8) := r8 in
  (* 462-483 *)
  let stat := if (pos8 =? off3 + 4) && tx_completed sf ins7 outs5 then DONE else INCOMPLETE in
  Ok (mkTx ver ins7 outs5 lock sf stat pos8, pos8 - p0, st8).

(** Transaction.cpp:352-486. *)
Definition tx_parse (t : tx) (st : list Z) : outcome (tx * Z * list Z) :=
  match t_status t with
  | FAILED => Ok (t, 0, st)
  | DONE => tx_parse_body (mkTx 0 [] [] 0 0 DONE 0) st
  | INCOMPLETE => tx_parse_body t st
  end.

(** ** Hashes of a transaction; [dsha] is the double SHA-256 of what was written. *)
Section Hashes.
Variable dsha : list Z -> list Z.

(** s.serialize(&obj, 0) on a hash object. *)
Definition hash_obj (ser : serializer) : outcome (list Z) := ser None 0.
Fixpoint hash_objs {E} (ser : E -> serializer) (l : list E) : outcome (list Z) :=
  match l with
  | [] => Ok []
  | e :: t => let! a := hash_obj (ser e) in let! b := hash_objs ser t in Ok (a ++ b)
  end.
(** writeVarInt(n, arr, 10); s.write(arr, l). *)
Definition hash_varint (n : Z) : outcome (list Z) :=
  let! r := writeVarInt n (zeros 10) in Ok (firstn (Z.to_nat (fst r)) (snd r)).

(** Transaction.cpp:519-541: the bytes hashed, and the hash. *)
Definition tx_hash_data (t : tx) : outcome (list Z) :=
  let! v := intToLittleEndian (t_version t) 4 in
  let! n1 := hash_varint (len (t_ins t)) in
  let! i := hash_objs txin_to_stream (t_ins t) in
  let! n2 := hash_varint (len (t_outs t)) in
  let! o := hash_objs txout_to_stream (t_outs t) in
  let! l := intToLittleEndian (t_lock t) 4 in
  Ok (v ++ n1 ++ i ++ n2 ++ o ++ l).
Definition tx_hash (t : tx) : outcome (list Z) := let! d := tx_hash_data t in Ok (dsha d).

(** Transaction.cpp:542-570. *)
Definition tx_whash (t : tx) : outcome (list Z) :=
  let! v := intToLittleEndian (t_version t) 4 in
  let! n1 := hash_varint (len (t_ins t)) in
  let! i := hash_objs txin_to_stream (t_ins t) in
  let! n2 := hash_varint (len (t_outs t)) in
  let! o := hash_objs txout_to_stream (t_outs t) in
  let! w := hash_objs (fun i => witness_to_stream (ti_wit i)) (t_ins t) in
  let! l := intToLittleEndian (t_lock t) 4 in
  Ok (dsha (v ++ [0; 1] ++ n1 ++ i ++ n2 ++ o ++ w ++ l)).

(** Transaction.cpp:571-586. *)
Definition tx_txid (t : tx) : outcome (list Z) := let! h := tx_hash t in Ok (rev h).
Definition tx_wtxid (t : tx) : outcome (list Z) := let! h := tx_whash t in Ok (rev h).

(** Transaction.cpp:487-518. Inputs other than [inputIndex] get an empty script.
    [inputIndex] is a uint8_t. *)
Fixpoint sighash_ins (l : list txin) (i inputIndex : Z) (sc : script) : list txin :=
  match l with
  | [] => []
  | t :: r =>
      mkTxin (ti_hash t) (ti_index t)
        (script_assign (script_copy (ti_script t)) (if i =? inputIndex then sc else script_new))
        (ti_seq t) (witness_copy (ti_wit t)) (ti_status t) (ti_parsed t)
      :: sighash_ins r (i + 1) inputIndex sc
  end.
Definition tx_sigHash (t : tx) (inputIndex : Z) (scriptPubkey : script) (sighash : Z) : outcome (list Z) :=
  let! v := intToLittleEndian (t_version t) 4 in
  let! n1 := hash_varint (len (t_ins t)) in
  let! i := hash_objs txin_to_stream (sighash_ins (t_ins t) 0 (u8 inputIndex) scriptPubkey) in
  let! n2 := hash_varint (len (t_outs t)) in
  let! o := hash_objs txout_to_stream (t_outs t) in
  let! l := intToLittleEndian (t_lock t) 4 in
  let! h := intToLittleEndian sighash 4 in
  Ok (dsha (v ++ n1 ++ i ++ n2 ++ o ++ l ++ h)).

(** Transaction.cpp:628-661. *)
Fixpoint prevouts_data (l : list txin) : outcome (list Z) :=
  match l with
  | [] => Ok []
  | t :: r => let! a := intToLittleEndian (ti_index t) 4 in
              let! b := prevouts_data r in Ok (ti_hash t ++ a ++ b)
  end.
Fixpoint sequence_data (l : list txin) : outcome (list Z) :=
  match l with
  | [] => Ok []
  | t :: r => let! a := intToLittleEndian (ti_seq t) 4 in
              let! b := sequence_data r in Ok (a ++ b)
  end.
Definition tx_hashPrevouts (t : tx) : outcome (list Z) := let! d := prevouts_data (t_ins t) in Ok (dsha d).
Definition tx_hashSequence (t : tx) : outcome (list Z) := let! d := sequence_data (t_ins t) in Ok (dsha d).
Definition tx_hashOutputs (t : tx) : outcome (list Z) :=
  let! d := hash_objs txout_to_stream (t_outs t) in Ok (dsha d).

(** Transaction.cpp:663-696. An [inputIndex] past the inputs is undefined. *)
Definition tx_sigHashSegwit (t : tx) (inputIndex : Z) (scriptPubKey : script) (amount sighash : Z)
  : outcome (list Z) :=
  let! v := intToLittleEndian (t_version t) 4 in
  let! hp := tx_hashPrevouts t in
  let! hs := tx_hashSequence t in
  match nth_error (t_ins t) (Z.to_nat (u8 inputIndex)) with
  | None => UB
  | Some i =>
    let! ix := intToLittleEndian (ti_index i) 4 in
    let! sc := hash_obj (script_to_stream scriptPubKey) in
    let! am := intToLittleEndian amount 8 in
    let! sq := intToLittleEndian (ti_seq i) 4 in
    let! ho := tx_hashOutputs t in
    let! l := intToLittleEndian (t_lock t) 4 in
    let! h := intToLittleEndian sighash 4 in
    Ok (dsha (v ++ hp ++ hs ++ ti_hash i ++ ix ++ sc ++ am ++ sq ++ ho ++ l ++ h))
  end.
End Hashes.
