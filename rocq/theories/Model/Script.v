(** Script and Witness containers: src/Script.cpp, src/Bitcoin.h. *)
From Verif Require Import Base.Bytes Model.Conversion Model.Stream.
Open Scope Z_scope.

(** calloc and malloc are taken to succeed for requests below 2^31 bytes and to
    fail above (simplification: how much memory there is depends on the board). *)
Definition alloc_ok (n : Z) : bool := n <? 2^31.

(** [c << sh] in a read loop: an int shifted by [8*(pos-1)]; undefined from 32
    on. The result wraps to the 32-bit int. *)
Definition shl_int (c sh : Z) : outcome Z :=
  if (0 <=? sh) && (sh <? 32) then Ok (i32 (Z.shiftl c sh)) else UB.

(** Number of bytes of the varint whose first byte is [b] (Script.cpp:276-288, 576-583). *)
Definition varint_len (b : Z) : Z := if b <? 253 then 1 else 1 + Z.shiftl 1 (b - 252).

(** ** Script *)

(** Bitcoin.h:475-485. [sc_arr] is the block scriptArray points to ([] for NULL). *)
Record script := mkScript {
  sc_arr : list Z; sc_len : Z; sc_lenLen : Z; sc_status : pstatus; sc_parsed : Z }.

(** Script.cpp:127-135. *)
Definition script_new : script := mkScript [] 0 0 DONE 0.

(** Script.cpp:256-263. *)
Definition script_clear (s : script) : script :=
  if 0 <? sc_len s then mkScript [] 0 0 (sc_status s) (sc_parsed s) else s.

(** Script.cpp:417-419. *)
Definition script_length (s : script) : Z := u64 (sc_len s + lenVarInt (sc_len s)).

(** Script.cpp:420-437. *)
Definition MAX_SCRIPT_SIZE : Z := 10000.
Definition script_push_byte (s : script) (code : Z) : script :=
  if sc_len s + 1 >? MAX_SCRIPT_SIZE then script_clear s
  else mkScript (sc_arr s ++ [u8 code]) (sc_len s + 1) (sc_lenLen s) (sc_status s) (sc_parsed s).

(** Script.cpp:438-454. *)
Definition script_push (s : script) (data : list Z) : script :=
  if sc_len s + len data >? MAX_SCRIPT_SIZE then script_clear s
  else mkScript (sc_arr s ++ data) (sc_len s + len data) (sc_lenLen s) (sc_status s) (sc_parsed s).

(** Script.cpp:136-139. *)
Definition script_of (data : list Z) : script := script_push script_new data.

(** Script.cpp:484-494: assignment. lenLen is kept when the target was empty. *)
Definition script_assign (dst src : script) : script :=
  let d := script_clear (mkScript (sc_arr dst) (sc_len dst) (sc_lenLen dst) DONE 0) in
  if 0 <? sc_len src then mkScript (sc_arr src) (sc_len src) (sc_lenLen d) DONE 0 else d.

(** Script.cpp:495-503: copy construction. *)
Definition script_copy (src : script) : script :=
  if 0 <? sc_len src then mkScript (sc_arr src) (sc_len src) 0 DONE 0 else script_new.

(** Script.cpp:291-294: the rest of the length varint. *)
Definition script_len_step (acc pos c : Z) : outcome Z :=
  let! v := shl_int c (8 * (pos - 1)) in Ok (u64 (acc + v)).

(** Script.cpp:306-309: the script bytes. *)
Definition script_byte_step (lenLen : Z) (arr : list Z) (pos c : Z) : outcome (list Z) :=
  aset arr (pos - lenLen) c.

(** Script.cpp:272-315: the part of from_stream after the status checks.
    [pos] is bytes_parsed+bytes_read; the returned count is bytes_read.
    Allocation of at most 255 bytes (lines 279-289) is taken to succeed. *)
Definition script_parse_body (s : script) (st : list Z) : outcome (script * Z * list Z) :=
  let '(arr1, len1, lenLen1, pos1, st1) :=
    match st with
    | b :: t =>
        if sc_parsed s =? 0 then
          if b <? 253
          then ((if 0 <? b then zeros (Z.to_nat b) else sc_arr s), b, 1, 1, t)
          else (zeros 255, 0, varint_len b, 1, t)
        else (sc_arr s, sc_len s, sc_lenLen s, sc_parsed s, st)
    | [] => (sc_arr s, sc_len s, sc_lenLen s, sc_parsed s, st)
    end in
  let! r := read_loop_o lenLen1 pos1 script_len_step len1 st1 in
  let '(len2, pos2, st2) := r in
  let at_len := pos2 =? lenLen1 in
  if at_len && (0 <? len2) && negb (alloc_ok len2) then
    Ok (mkScript [] 0 lenLen1 FAILED (sc_parsed s), 0, st2)
  else
  let arr2 := if at_len && (0 <? len2) then zeros (Z.to_nat len2) else arr1 in
  if at_len && negb (lenVarInt len2 =? lenLen1) then
    Ok (mkScript arr2 len2 lenLen1 FAILED pos2, pos2 - sc_parsed s, st2)
  else
  let limit := u64 (len2 + lenLen1) in
  let! r3 := read_loop_o limit pos2 (script_byte_step lenLen1) arr2 st2 in
  let '(arr3, pos3, st3) := r3 in
  Ok (mkScript arr3 len2 lenLen1 (if pos3 =? limit then DONE else INCOMPLETE) pos3,
      pos3 - sc_parsed s, st3).

(** Script.cpp:264-315. *)
Definition script_parse (s : script) (st : list Z) : outcome (script * Z * list Z) :=
  match sc_status s with
  | FAILED => Ok (s, 0, st)
  | DONE => script_parse_body (script_clear (mkScript (sc_arr s) (sc_len s) (sc_lenLen s) DONE 0)) st
  | INCOMPLETE => script_parse_body s st
  end.

(** writeVarInt into a 10-byte stack array, as a list of its bytes. *)
Definition varint_arr (n : Z) : outcome (list Z) :=
  let! r := writeVarInt n (zeros 10) in Ok (snd r).

(** Script.cpp:316-331. *)
Definition script_to_stream (s : script) : serializer := fun cap offset =>
  let l := u8 (lenVarInt (sc_len s)) in
  let! arr := varint_arr (sc_len s) in
  let! w1 := write_loop 10 0 l arr (mkWst offset cap []) in
  let! w2 := write_loop (length (sc_arr s)) l (sc_len s) (sc_arr s) w1 in
  Ok (w_out w2).

(** Script.cpp:455-461, with [sec] the bytes pubkey.sec() writes. *)
Definition script_push_pubkey (s : script) (sec : list Z) : script :=
  script_push (script_push_byte s (len sec)) sec.
(** Script.cpp:462-469, with [der] the bytes sig.der() writes. *)
Definition script_push_sig (s : script) (der : list Z) (sigType : Z) : script :=
  script_push_byte (script_push (script_push_byte s (len der + 1)) der) sigType.
(** Script.cpp:470-478. *)
Definition script_push_script (s sc : script) : outcome script :=
  let! r := serialize (script_to_stream sc) (Z.to_nat (script_length sc)) 0 in
  Ok (script_push s (snd r)).

(** Script.cpp:34-50, with the keys' sec bytes. OP_1 = 0x51, OP_CHECKMULTISIG = 0xae. *)
Definition multi (threshold : Z) (secs : list (list Z)) : script :=
  let n := len secs in
  if (threshold >? n) || (n =? 0) || (n >? 16) || (threshold =? 0) then script_new
  else
    let s1 := script_push_byte script_new (81 + threshold - 1) in
    let s2 := fold_left script_push_pubkey secs s1 in
    script_push_byte (script_push_byte s2 (81 + n - 1)) 174.
(** Script.cpp:105-110: the keys are passed on unchanged. *)
Definition sortedmulti (threshold : Z) (secs : list (list Z)) : script := multi threshold secs.

(** ** Witness *)

(** Bitcoin.h:551-563. *)
Record witness := mkWitness {
  wi_arr : list Z; wi_len : Z; wi_num : Z;
  wi_cur : Z; wi_elen : Z; wi_eparsed : Z; wi_curLen : Z; wi_lenLen : Z;
  wi_status : pstatus; wi_parsed : Z }.

(** Script.cpp:515-525, Bitcoin.h:564. *)
Definition witness_new : witness := mkWitness [] 0 0 0 0 0 0 0 DONE 0.

(** Script.cpp:507-513. (That the freed pointer stays in place is the subject
    of the memory model, Model/Memory.v.) *)
Definition witness_clear (w : witness) : witness :=
  mkWitness (if 0 <? wi_len w then [] else wi_arr w) 0 0
    (wi_cur w) (wi_elen w) (wi_eparsed w) (wi_curLen w) (wi_lenLen w) (wi_status w) (wi_parsed w).

(** Script.cpp:648-650. *)
Definition witness_length (w : witness) : Z := wi_len w + lenVarInt (wi_num w).
(** Bitcoin.h:573: the count is returned as a uint8_t. *)
Definition witness_count (w : witness) : Z := u8 (wi_num w).

(** Writing [n] as a varint at [off] in [arr] (writeVarInt(n, arr+off, lenVarInt(n))). *)
Fixpoint write_at (arr : list Z) (off : Z) (l : list Z) : outcome (list Z) :=
  match l with
  | [] => Ok arr
  | b :: t => let! a := aset arr off b in write_at a (off + 1) t
  end.
Definition varint_at (arr : list Z) (off n : Z) : outcome (list Z) :=
  let! r := writeVarInt n (zeros (Z.to_nat (lenVarInt n))) in write_at arr off (snd r).

(** Loop state of the element being read: array, element length, curLen, position. *)

(** Script.cpp:570-624: one iteration of the element loop. [pos] is
    bytes_parsed+bytes_read at its start. Returns the witness, the new position,
    the rest, and whether the function returned early (failure). *)
Definition witness_element (w : witness) (pos : Z) (st : list Z) : outcome (witness * Z * list Z * bool) :=
  let offset := u64 (pos - lenVarInt (wi_num w) - wi_eparsed w) in
  let '(elen1, curLen1, epos1, st1) :=
    match st with
    | b :: t =>
        if wi_eparsed w =? 0 then
          if b <? 253 then (b, 1, 1, t) else (0, varint_len b, 1, t)
        else (wi_elen w, wi_curLen w, wi_eparsed w, st)
    | [] => (wi_elen w, wi_curLen w, wi_eparsed w, st)
    end in
  let! r := read_loop_o curLen1 epos1 script_len_step elen1 st1 in
  let '(elen2, epos2, st2) := r in
  if negb (lenVarInt elen2 =? curLen1) && (epos2 =? curLen1) then
    (* 590-596 *)
    Ok (mkWitness (wi_arr w) (wi_len w) (wi_num w) (wi_cur w) elen2 epos2 curLen1 (wi_lenLen w)
          FAILED (pos + (epos2 - wi_eparsed w)),
        pos + (epos2 - wi_eparsed w), st2, true)
  else
  (* 597-610: grow the array once the length is known *)
  let grow := (epos2 =? curLen1) && (0 <? epos2 - wi_eparsed w) in
  let need := wi_len w + elen2 + lenVarInt elen2 in
  if grow && negb (alloc_ok need) then
    Ok (mkWitness [] 0 (wi_num w) (wi_cur w) elen2 (wi_eparsed w) curLen1 (wi_lenLen w) FAILED (wi_parsed w),
        wi_parsed w, st2, true)
  else
  let! arr2 :=
    (if grow then
       if wi_len w =? 0
       then varint_at (zeros (Z.to_nat need)) 0 elen2
       else varint_at (wi_arr w ++ zeros (Z.to_nat (elen2 + lenVarInt elen2))) offset elen2
     else Ok (wi_arr w)) in
  let len2 := if grow then need else wi_len w in
  let total := u64 (elen2 + lenVarInt elen2) in
  let! r3 := read_loop_o total epos2 (fun a p c => aset a (offset + p) c) arr2 st2 in
  let '(arr3, epos3, st3) := r3 in
  let pos3 := pos + (epos3 - wi_eparsed w) in
  if epos3 =? total then
    Ok (mkWitness arr3 len2 (wi_num w) (wi_cur w + 1) 0 0 0 (wi_lenLen w) INCOMPLETE (wi_parsed w), pos3, st3, false)
  else
    Ok (mkWitness arr3 len2 (wi_num w) (wi_cur w) elen2 epos3 curLen1 (wi_lenLen w) INCOMPLETE (wi_parsed w), pos3, st3, false).

(** Script.cpp:570: the element loop; running out of fuel is reported as UB. *)
Fixpoint witness_elements (fuel : nat) (w : witness) (pos : Z) (st : list Z)
  : outcome (witness * Z * list Z * bool) :=
  match st with
  | [] => Ok (w, pos, st, false)
  | _ :: _ =>
      if wi_cur w <? wi_num w then
        match fuel with
        | O => UB
        | S k =>
            let! r := witness_element w pos st in
            let '(w1, pos1, st1, stop) := r in
            if stop then Ok (w1, pos1, st1, true) else witness_elements k w1 pos1 st1
        end
      else Ok (w, pos, st, false)
  end.

(** Script.cpp:548-631. *)
Definition witness_parse_body (w : witness) (st : list Z) : outcome (witness * Z * list Z) :=
  let upd w num lenLen := mkWitness (wi_arr w) (wi_len w) num (wi_cur w) (wi_elen w) (wi_eparsed w)
                            (wi_curLen w) lenLen INCOMPLETE (wi_parsed w) in
  let fin w s p := mkWitness (wi_arr w) (wi_len w) (wi_num w) (wi_cur w) (wi_elen w) (wi_eparsed w)
                            (wi_curLen w) (wi_lenLen w) s p in
  let '(w1, pos1, st1, failed) :=
    match st with
    | b :: t =>
        if wi_parsed w =? 0 then
          if b <? 253 then (upd w b 1, 1, t, false) else (upd w 0 b, 1, t, true)
        else (upd w (wi_num w) (wi_lenLen w), wi_parsed w, st, false)
    | [] => (upd w (wi_num w) (wi_lenLen w), wi_parsed w, st, false)
    end in
  if failed then Ok (fin w1 FAILED pos1, pos1 - wi_parsed w, st1)
  else if (pos1 =? wi_lenLen w1) && negb (lenVarInt (wi_num w1) =? wi_lenLen w1) then
    Ok (fin w1 FAILED pos1, pos1 - wi_parsed w, st1)
  else
  let! r := witness_elements (S (length st1)) w1 pos1 st1 in
  let '(w2, pos2, st2, stop) := r in
  if stop then Ok (w2, pos2 - wi_parsed w, st2)
  else Ok (fin w2 (if wi_cur w2 =? wi_num w2 then DONE else INCOMPLETE) pos2, pos2 - wi_parsed w, st2).

(** Script.cpp:535-631. reset() (Bitcoin.h:564) clears the parsing fields. *)
Definition witness_parse (w : witness) (st : list Z) : outcome (witness * Z * list Z) :=
  match wi_status w with
  | FAILED => Ok (w, 0, st)
  | DONE => witness_parse_body (witness_clear (mkWitness (wi_arr w) (wi_len w) (wi_num w) 0 0 0 0 0 DONE 0)) st
  | INCOMPLETE => witness_parse_body w st
  end.

(** Script.cpp:632-647. *)
Definition witness_to_stream (w : witness) : serializer := fun cap offset =>
  let l := u8 (lenVarInt (wi_num w)) in
  let! arr := varint_arr (wi_num w) in
  let! w1 := write_loop 10 0 l arr (mkWst offset cap []) in
  let! w2 := write_loop (length (wi_arr w)) l (wi_len w) (wi_arr w) w1 in
  Ok (w_out w2).

(** Script.cpp:651-669. numElements is 32 bits wide. *)
Definition witness_push (w : witness) (data : list Z) : outcome witness :=
  if wi_len w + len data + lenVarInt (len data) >? MAX_SCRIPT_SIZE then Ok (witness_clear w)
  else
    let! r := writeVarInt (len data) (zeros (Z.to_nat (lenVarInt (len data)))) in
    Ok (mkWitness ((if wi_len w =? 0 then [] else wi_arr w) ++ snd r ++ data)
          (wi_len w + len data + lenVarInt (len data)) (u32 (wi_num w + 1))
          (wi_cur w) (wi_elen w) (wi_eparsed w) (wi_curLen w) (wi_lenLen w) (wi_status w) (wi_parsed w)).

(** Script.cpp:694-703, 704-715: copies take the contents only. *)
Definition witness_copy (src : witness) : witness :=
  mkWitness (if 0 <? wi_len src then wi_arr src else []) (if 0 <? wi_len src then wi_len src else 0) (wi_num src)
    0 0 0 0 0 DONE 0.
Definition witness_assign (dst src : witness) : witness :=
  let d := witness_clear dst in
  mkWitness (if 0 <? wi_len src then wi_arr src else wi_arr d) (if 0 <? wi_len src then wi_len src else 0) (wi_num src)
    (wi_cur d) (wi_elen d) (wi_eparsed d) (wi_curLen d) (wi_lenLen d) (wi_status d) (wi_parsed d).
