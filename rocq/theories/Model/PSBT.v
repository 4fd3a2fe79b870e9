(** Partially signed transactions: src/PSBT.cpp, src/PSBT.h. *)
From Verif Require Import Base.Bytes Model.Conversion Model.Stream Model.Script Model.Tx Model.Signature Model.Point.
Open Scope Z_scope.

(** PSBT.h:10-19 [PSBTDerivation]. The structure has no constructor: until add() has stored the
    last three members they are indeterminate, which [d_set] = false stands for. *)
Record pderiv := mkDer { d_pub : ecpoint; d_fp : list Z; d_path : list Z; d_set : bool }.
(** PSBT.h:29-45 [PSBTInputMetadata]: the arrays with their lengths are lists. A signature is a
    PSBTPartialSignature, PSBT.h:21-27. *)
Record inmeta := mkInMeta {
  im_out : txout; im_ders : list pderiv; im_redeem : script; im_witness : script; im_sigs : list (ecpoint * signature) }.
(** PSBT.h:47-58 [PSBTOutputMetadata]. *)
Record outmeta := mkOutMeta { om_ders : list pderiv; om_redeem : script; om_witness : script }.
(** PSBT.cpp:190-198: new elements. *)
Definition im_new : inmeta := mkInMeta txout_new [] script_new script_new [].
Definition om_new : outmeta := mkOutMeta [] script_new script_new.

(** PSBT.h:69-84. [None] is a pointer that may not be followed: NULL, or freed. *)
Record psbt := mkPsbt {
  ps_key : script; ps_value : script; ps_section : Z; ps_last : Z;
  ps_tx : tx; ps_ins : option (list inmeta); ps_outs : option (list outmeta); ps_status : pstatus; ps_parsed : Z }.
(** PSBT.h:79. *)
Definition psbt_new : psbt := mkPsbt script_new script_new 0 0 tx_new None None DONE 0.

Definition ps_set_key (p : psbt) (k : script) : psbt :=
  mkPsbt k (ps_value p) (ps_section p) (ps_last p) (ps_tx p) (ps_ins p) (ps_outs p) (ps_status p) (ps_parsed p).
Definition ps_set_value (p : psbt) (v : script) : psbt :=
  mkPsbt (ps_key p) v (ps_section p) (ps_last p) (ps_tx p) (ps_ins p) (ps_outs p) (ps_status p) (ps_parsed p).
(** The two arrays of metadata. *)
Definition metas : Type := (option (list inmeta) * option (list outmeta))%type.
Definition ps_metas (p : psbt) : metas := (ps_ins p, ps_outs p).
Definition ps_set_metas (p : psbt) (m : metas) : psbt :=
  mkPsbt (ps_key p) (ps_value p) (ps_section p) (ps_last p) (ps_tx p) (fst m) (snd m) (ps_status p) (ps_parsed p).
Definition ps_advance (p : psbt) (n : Z) : psbt :=
  mkPsbt (ps_key p) (ps_value p) (ps_section p) (ps_last p + n) (ps_tx p) (ps_ins p) (ps_outs p) (ps_status p) (ps_parsed p).
(** The end of from_stream: a status, and bytes_parsed += bytes_read. *)
Definition ps_end (p : psbt) (s : pstatus) (n : Z) : psbt :=
  mkPsbt (ps_key p) (ps_value p) (ps_section p) (ps_last p) (ps_tx p) (ps_ins p) (ps_outs p) s (ps_parsed p + n).

(** Element [i] of an array behind a pointer, and the array with it replaced. *)
Definition at_ptr {A} (l : option (list A)) (i : Z) : outcome A :=
  match l with
  | Some l => if i <? 0 then UB else match nth_error l (Z.to_nat i) with Some x => Ok x | None => UB end
  | None => UB
  end.
Fixpoint put_at {A} (l : list A) (i : nat) (x : A) : list A :=
  match l, i with
  | [], _ => []
  | _ :: t, O => x :: t
  | y :: t, S j => y :: put_at t j x
  end.
Definition put_ptr {A} (l : option (list A)) (i : Z) (x : A) : option (list A) :=
  match l with Some l => Some (put_at l (Z.to_nat i) x) | None => None end.

(** PSBT.cpp:323-334, 367-378, 429-440: an array grown by one element. Its length is a uint8_t: with
    255 elements it becomes 0, and the new element is stored in front of the array. *)
Definition grow {A} (l : list A) (x : A) : outcome (list A) :=
  if u8 (len l + 1) =? 0 then UB else Ok (l ++ [x]).

(** PSBT.cpp:255-260: the bytes of a key or value, with the length in front. *)
Definition ser_script (s : script) : outcome (list Z) :=
  let! r := serialize (script_to_stream s) (Z.to_nat (script_length s)) 0 in Ok (snd r).
(** lenVarInt(v->length()): taken for the length of that prefix. *)
Definition body_at (s : script) : Z := lenVarInt (script_length s).
Fixpoint list_eqb (a b : list Z) : bool :=
  match a, b with
  | [], [] => true
  | x :: a, y :: b => (x =? y) && list_eqb a b
  | _, _ => false
  end.

(** PSBT.cpp:389-391, 451-453. *)
Fixpoint path_words (n : nat) (val : list Z) (off : nat) : outcome (list Z) :=
  match n with
  | O => Ok []
  | S n' => let! w := slice val off 4 in
            let! t := path_words n' val (off + 4) in Ok (littleEndianToInt w :: t)
  end.

Section Psbt.
(** The double SHA-256, and what the uninitialised array of ECPoint::from_stream holds. *)
Variable dsha : list Z -> list Z.
Variable garbage : list Z.

(** PublicKey::parse on a new object (its static first_byte is assigned before it is read, since
    there are 33 or 65 bytes). *)
Definition parse_point (bytes : list Z) : outcome ecpoint :=
  let! r := pt_parse garbage (pt_new, 0) bytes in Ok (fst (fst (fst r))).

(** PSBT.cpp:361-394 and 423-456: PSBT_IN_BIP32_DERIVATION and PSBT_OUT_BIP32_DERIVATION. *)
Definition add_deriv (ders : list pderiv) (k v : script) (key val : list Z) : outcome (list pderiv * Z) :=
  if negb (script_length k =? 35) && negb (script_length k =? 67) then Ok (ders, -1)
  else
    let! pub := parse_point (skipn 2 key) in
    match pt_status pub with
    | DONE =>
        let l := Z.to_nat (body_at v) in
        let! fp := slice val l 4 in
        let n := u8 (u64 (script_length v - body_at v - 4) / 4) in
        let! path := path_words (Z.to_nat n) val (l + 4) in
        let! ders' := grow ders (mkDer pub fp path true) in
        Ok (ders', 1)
    | _ => let! ders' := grow ders (mkDer pub [] [] false) in Ok (ders', -1)
    end.

(** PSBT.cpp:264-403: an input section. Codes 3, 7, 8 and all unknown ones are ignored. *)
Definition add_input (m : inmeta) (i : txin) (k v : script) (key val : list Z) (code : Z) : outcome (inmeta * Z) :=
  let body := skipn (Z.to_nat (body_at v)) val in
  if code =? 0 then
    if negb (script_length k =? 2) then Ok (m, -1)
    else
      let! r := tx_parse tx_new body in
      let t := fst (fst r) in
      match t_status t with
      | DONE =>
          let! h := tx_hash dsha t in
          if negb (list_eqb h (ti_hash i)) then Ok (m, -3)
          else if len (t_outs t) <=? ti_index i then Ok (m, -3)
          else
            let! o := at_ptr (Some (t_outs t)) (ti_index i) in
            Ok (mkInMeta (mkTxout (to_tmp o) (to_amount o) (script_assign (to_script (im_out m)) (to_script o)) (to_status o) (to_parsed o))
                  (im_ders m) (im_redeem m) (im_witness m) (im_sigs m), 1)
      | _ => Ok (m, -2)
      end
  else if code =? 1 then
    if negb (script_length k =? 2) then Ok (m, -1)
    else
      let! r := txout_parse (im_out m) body in
      let o := fst (fst r) in
      Ok (mkInMeta o (im_ders m) (im_redeem m) (im_witness m) (im_sigs m),
          if pstatus_eqb (to_status o) DONE then 1 else -2)
  else if code =? 2 then
    if negb (script_length k =? 35) && negb (script_length k =? 67) then Ok (m, -1)
    else
      let! pub := parse_point (skipn 2 key) in
      if negb (pstatus_eqb (pt_status pub) DONE) then Ok (m, -1)
      else
        let! r := sig_parse sig_new (skipn 1 val) in
        let sg := fst (fst r) in
        if negb (pstatus_eqb (sg_status sg) DONE) then Ok (m, -2)
        else
          let! sigs := grow (im_sigs m) (pub, sg) in
          Ok (mkInMeta (im_out m) (im_ders m) (im_redeem m) (im_witness m) sigs, 1)
  else if code =? 4 then
    if negb (script_length k =? 2) then Ok (m, -1)
    else let! r := script_parse (im_redeem m) val in
         Ok (mkInMeta (im_out m) (im_ders m) (fst (fst r)) (im_witness m) (im_sigs m), 1)
  else if code =? 5 then
    if negb (script_length k =? 2) then Ok (m, -1)
    else let! r := script_parse (im_witness m) val in
         Ok (mkInMeta (im_out m) (im_ders m) (im_redeem m) (fst (fst r)) (im_sigs m), 1)
  else if code =? 6 then
    let! r := add_deriv (im_ders m) k v key val in
    Ok (mkInMeta (im_out m) (fst r) (im_redeem m) (im_witness m) (im_sigs m), snd r)
  else Ok (m, 0).

(** PSBT.cpp:404-458: an output section. *)
Definition add_output (m : outmeta) (k v : script) (key val : list Z) (code : Z) : outcome (outmeta * Z) :=
  if code =? 0 then
    if negb (script_length k =? 2) then Ok (m, -1)
    else let! r := script_parse (om_redeem m) val in Ok (mkOutMeta (om_ders m) (fst (fst r)) (om_witness m), 1)
  else if code =? 1 then
    if negb (script_length k =? 2) then Ok (m, -1)
    else let! r := script_parse (om_witness m) val in Ok (mkOutMeta (om_ders m) (om_redeem m) (fst (fst r)), 1)
  else if code =? 2 then
    let! r := add_deriv (om_ders m) k v key val in Ok (mkOutMeta (fst r) (om_redeem m) (om_witness m), snd r)
  else Ok (m, 0).

(** PSBT.cpp:251-462 [add] to the metadata of the transaction [t]. Allocations are taken to succeed. *)
Definition add_meta (t : tx) (m : metas) (section : Z) (k v : script) : outcome (metas * Z) :=
  let nin := len (t_ins t) in
  let nout := len (t_outs t) in
  if (section =? 0) || (section >? 1 + nin + nout) then Ok (m, 0)
  else
    let! key := ser_script k in
    let! val := ser_script v in
    let! code := aget key (body_at k) in
    if section <? 1 + nin then
      let input := u8 (section - 1) in
      let! x := at_ptr (fst m) input in
      let! i := at_ptr (Some (t_ins t)) input in
      let! r := add_input x i k v key val code in
      Ok ((put_ptr (fst m) input (fst r), snd m), snd r)
    else
      let output := u8 (section - 1 - nin) in
      let! x := at_ptr (snd m) output in
      let! r := add_output x k v key val code in
      Ok ((fst m, put_ptr (snd m) output (fst r)), snd r).
Definition psbt_add (p : psbt) (section : Z) (k v : script) : outcome (psbt * Z) :=
  let! r := add_meta (ps_tx p) (ps_metas p) section k v in Ok (ps_set_metas p (fst r), snd r).

(** PSBT.cpp:130-140: the first five bytes; [pos] is bytes_read+bytes_parsed. False at a wrong byte. *)
Definition psbt_magic : list Z := [112; 115; 98; 116; 255].
Fixpoint magic_loop (pos : Z) (st : list Z) : outcome (Z * list Z * bool) :=
  match st with
  | [] => Ok (pos, [], true)
  | c :: t =>
      if pos <? 5 then
        let! m := aget psbt_magic pos in
        if c =? m then magic_loop (pos + 1) t else Ok (pos + 1, t, false)
      else Ok (pos, st, true)
  end.

(** PSBT.cpp:93-122: the memory held for the inputs and outputs is given back. *)
Definition der_free (d : pderiv) : outcome unit := if d_set d then Ok tt else UB.
Fixpoint ders_free (l : list pderiv) : outcome unit :=
  match l with [] => Ok tt | d :: t => let! _ := der_free d in ders_free t end.
Fixpoint metas_free {A} (ders : A -> list pderiv) (l : list A) : outcome unit :=
  match l with [] => Ok tt | m :: t => let! _ := ders_free (ders m) in metas_free ders t end.
Definition release {A} (ders : A -> list pderiv) (n : Z) (l : option (list A)) : outcome unit :=
  if 0 <? n then
    match l with
    | Some l => if len l <? n then UB else metas_free ders (firstn (Z.to_nat n) l)
    | None => UB
    end
  else Ok tt.
Definition psbt_release (p : psbt) : outcome unit :=
  let! _ := release im_ders (len (t_ins (ps_tx p))) (ps_ins p) in
  release om_ders (len (t_outs (ps_tx p))) (ps_outs p).
(** PSBT.cpp:569-600: the destructor. *)
Definition psbt_destroy (p : psbt) : outcome unit := psbt_release p.

(** PSBT.cpp:89-127: an object that is parsed again starts afresh; only status and bytes_parsed of
    the transaction are reset (BaseClasses.h:129). The pointers are not cleared: where there were
    inputs or outputs they point to freed memory now. *)
Definition psbt_start (p : psbt) : outcome psbt :=
  let! _ := psbt_release p in
  let t := ps_tx p in
  Ok (mkPsbt (ps_key p) (ps_value p) 0 5
        (mkTx (t_version t) (t_ins t) (t_outs t) (t_lock t) (t_segflag t) DONE 0)
        (if 0 <? len (t_ins t) then None else ps_ins p) (if 0 <? len (t_outs t) then None else ps_outs p) INCOMPLETE 0).

(** PSBT.cpp:141-163: key and value of the global section. One round of each while loop is enough:
    a script that is still incomplete has used up the stream. *)
Definition parse_if (b : bool) (s : script) (st : list Z) : outcome (script * Z * list Z) :=
  if b then script_parse s st else Ok (s, 0, st).
Definition is_incomplete (s : script) : bool := pstatus_eqb (sc_status s) INCOMPLETE.
Definition is_done (s : script) : bool := pstatus_eqb (sc_status s) DONE.
Definition is_failed (s : script) : bool := pstatus_eqb (sc_status s) FAILED.

(** PSBT.cpp:164-200: the global transaction. False for a failure. *)
Definition psbt_global (p : psbt) : outcome (psbt * bool) :=
  let! key := ser_script (ps_key p) in
  let! bad := (if script_length (ps_key p) =? 2 then
                 let! a := aget key 0 in let! b := aget key 1 in Ok (negb (a =? 1) || negb (b =? 0))
               else Ok true) in
  if bad then Ok (p, false)
  else
    let! val := ser_script (ps_value p) in
    let! r := tx_parse (ps_tx p) (skipn (Z.to_nat (body_at (ps_value p))) val) in
    let t := fst (fst r) in
    let p := mkPsbt (ps_key p) (ps_value p) (ps_section p) (ps_last p) t (ps_ins p) (ps_outs p) (ps_status p) (ps_parsed p) in
    match t_status t with
    | DONE =>
        Ok (ps_advance (ps_set_metas p (Some (repeat im_new (length (t_ins t))), Some (repeat om_new (length (t_outs t)))))
              (script_length (ps_key p) + script_length (ps_value p)), true)
    | _ => Ok (p, false)
    end.

(** PSBT.cpp:207-240: one round of the loop. False for a failure. *)
Definition psbt_round (p : psbt) (st : list Z) : outcome (psbt * Z * list Z * bool) :=
  let! r1 := parse_if (is_done (ps_key p) && is_done (ps_value p)) (ps_key p) st in
  let '(k1, n1, st1) := r1 in
  if is_done k1 && (script_length k1 =? 1) then
    Ok (mkPsbt k1 (ps_value p) (u8 (ps_section p + 1)) (ps_last p + 1) (ps_tx p) (ps_ins p) (ps_outs p) (ps_status p) (ps_parsed p),
        n1, st1, true)
  else
    let! r2 := parse_if (is_done k1) (ps_value p) st1 in
    let '(v2, n2, st2) := r2 in
    if is_failed k1 || is_failed v2 then Ok (ps_set_value (ps_set_key p k1) v2, n1 + n2, st2, false)
    else
      let! r3 := parse_if (is_incomplete k1) k1 st2 in
      let '(k3, n3, st3) := r3 in
      let! r4 := parse_if (is_incomplete v2) v2 st3 in
      let '(v4, n4, st4) := r4 in
      let p4 := ps_set_value (ps_set_key p k3) v4 in
      let n := n1 + n2 + n3 + n4 in
      if is_done k3 && is_done v4 then
        let! r5 := psbt_add p4 (ps_section p4) k3 v4 in
        let '(p5, res) := r5 in
        if res <? 0 then Ok (p5, n, st4, false)
        else Ok (ps_advance p5 (script_length k3 + script_length v4), n, st4, true)
      else Ok (p4, n, st4, true).
(** PSBT.cpp:206-241. Every round reads at least one byte, so [fuel] may be the number of bytes; running
    out of it would be an endless loop. *)
Fixpoint psbt_loop (fuel : nat) (sections : Z) (p : psbt) (n : Z) (st : list Z) : outcome (psbt * Z * list Z * bool) :=
  match st with
  | [] => Ok (p, n, [], true)
  | _ :: _ =>
      if ps_section p <? sections then
        match fuel with
        | O => UB
        | S f =>
            let! r := psbt_round p st in
            let '(p1, n1, st1, ok) := r in
            if ok then psbt_loop f sections p1 (n + n1) st1 else Ok (p1, n + n1, st1, false)
        end
      else Ok (p, n, st, true)
  end.
(** PSBT.cpp:201-204. *)
Definition sections_number (p : psbt) : Z :=
  if 5 <? ps_last p then u8 (1 + len (t_ins (ps_tx p)) + len (t_outs (ps_tx p))) else 0.

(** PSBT.cpp:128-249, after the status checks. *)
Definition psbt_body (p : psbt) (st : list Z) : outcome (psbt * Z * list Z) :=
  let! r0 := magic_loop (ps_parsed p) st in
  let '(pos, st0, good) := r0 in
  let n0 := pos - ps_parsed p in
  if negb good then Ok (ps_end p FAILED n0, n0, st0)
  else
  let fresh := pos =? ps_last p in
  let! r1 := parse_if fresh (ps_key p) st0 in
  let '(k1, n1, st1) := r1 in
  let! r2 := parse_if fresh (ps_value p) st1 in
  let '(v2, n2, st2) := r2 in
  let! r3 := parse_if (is_incomplete k1 && negb (len st2 =? 0)) k1 st2 in
  let '(k3, n3, st3) := r3 in
  let n := n0 + n1 + n2 + n3 in
  if is_failed k3 then Ok (ps_end (ps_set_value (ps_set_key p k3) v2) FAILED n, n, st3)
  else
  let! r4 := parse_if (is_incomplete v2 && negb (len st3 =? 0)) v2 st3 in
  let '(v4, n4, st4) := r4 in
  let n := n + n4 in
  let p4 := ps_set_value (ps_set_key p k3) v4 in
  if is_failed v4 then Ok (ps_end p4 FAILED n, n, st4)
  else
  let! r5 := (if (ps_last p4 =? 5) && is_done v4 && is_done k3 then psbt_global p4 else Ok (p4, true)) in
  let '(p5, good) := r5 in
  if negb good then Ok (ps_end p5 FAILED n, n, st4)
  else
  let sections := sections_number p5 in
  let! r6 := psbt_loop (length st4) sections p5 n st4 in
  let '(p6, n, st6, good) := r6 in
  if negb good then Ok (ps_end p6 FAILED n, n, st6)
  else if (ps_section p6 =? sections) && (0 <? sections) then
    Ok (ps_end (ps_set_value (ps_set_key p6 (script_assign (ps_key p6) script_new)) (script_assign (ps_value p6) script_new)) DONE n, n, st6)
  else Ok (ps_end p6 INCOMPLETE n, n, st6).

(** PSBT.cpp:88-249 [from_stream]. *)
Definition psbt_parse (p : psbt) (st : list Z) : outcome (psbt * Z * list Z) :=
  match ps_status p with
  | FAILED => Ok (p, 0, st)
  | DONE => let! p1 := psbt_start p in psbt_body p1 st
  | INCOMPLETE => psbt_body p st
  end.
End Psbt.

(** PSBT.cpp:480-482: [while(s->available() && bytes_written+offset < base+n) bytes_written += s->serialize(...)];
    each round writes something, or the loop does not end. *)
Fixpoint write_while (fuel : nat) (base n : Z) (ser : serializer) (w : wst) : outcome wst :=
  if w_available w && (w_pos w <? base + n) then
    match fuel with
    | O => UB
    | S f => let! w1 := write_obj base n ser w in write_while f base n ser w1
    end
  else Ok w.
(** PSBT.cpp:494-497, 503-506: [while(s->available() && bytes_written+offset-cur < n)] with an unsigned difference. *)
Fixpoint write_rel (fuel : nat) (cur n : Z) (arr : list Z) (w : wst) : outcome wst :=
  if w_available w && (u64 (w_pos w - cur) <? n) then
    match fuel with
    | O => UB
    | S f => let! b := aget arr (u64 (w_pos w - cur)) in write_rel f cur n arr (w_put w b)
    end
  else Ok w.
(** PSBT.cpp:490-507: one partial signature: its key and its value. *)
Definition psig_key (s : ecpoint * signature) : outcome (list Z) :=
  let! r := serialize (pt_to_stream (fst s)) 65 0 in
  Ok (u8 (1 + fst r) :: 2 :: snd r).
Definition psig_value (s : ecpoint * signature) : outcome (list Z) :=
  let! r := serialize (sig_to_stream (snd s)) 98 0 in
  let l := u8 (1 + fst r) in
  aset (l :: snd r ++ [0]) l 1.
Definition write_psig (s : ecpoint * signature) (cur : Z) (w : wst) : outcome (wst * Z) :=
  let! key := psig_key s in
  let! kl := aget key 0 in
  let! w1 := write_rel 67 cur (kl + 1) key w in
  let cur := cur + (kl + 1) in
  let! val := psig_value s in
  let! vl := aget val 0 in
  let! w2 := write_rel 100 cur (vl + 1) val w1 in
  Ok (w2, cur + (vl + 1)).
Fixpoint write_psigs (l : list (ecpoint * signature)) (cur : Z) (w : wst) : outcome (wst * Z) :=
  match l with
  | [] => Ok (w, cur)
  | s :: t => let! r := write_psig s cur w in write_psigs t (snd r) (fst r)
  end.
(** PSBT.cpp:510-511 [s->write(0); bytes_written++]: nothing is stored when the stream is full. (That the
    count returned is then too large is not modelled.) *)
Definition put_zero (w : wst) : wst := if w_available w then w_put w 0 else mkWst (w_pos w + 1) (w_cap w) (w_out w).
(** PSBT.cpp:486-514: the sections, [k] of them left. *)
Fixpoint write_sections (k : nat) (p : psbt) (section cur : Z) (w : wst) : outcome wst :=
  match k with
  | O => Ok w
  | S k' =>
      if w_available w then
        let! r := (if (0 <? section) && (section <? len (t_ins (ps_tx p)) + 1) then
                     let! m := at_ptr (ps_ins p) (section - 1) in write_psigs (im_sigs m) cur w
                   else Ok (w, cur)) in
        let '(w1, cur) := r in
        write_sections k' p (section + 1) (cur + 1) (put_zero w1)
      else Ok w
  end.
(** PSBT.cpp:464-516 [to_stream]. *)
Definition psbt_to_stream (p : psbt) : serializer := fun cap offset =>
  let! w1 := write_loop 7 0 7 [112; 115; 98; 116; 255; 1; 0] (mkWst offset cap []) in
  let n := tx_length (ps_tx p) in
  let! r := writeVarInt n (zeros 10) in
  let! w2 := write_loop 10 7 (fst r) (snd r) w1 in
  let cur := 7 + fst r in
  let! w3 := write_while (Z.to_nat n) cur n (tx_to_stream (ps_tx p)) w2 in
  let sections := u8 (1 + len (t_ins (ps_tx p)) + len (t_outs (ps_tx p))) in
  let! w4 := write_sections (Z.to_nat sections) p 0 (cur + n) w3 in
  Ok (w_out w4).
(** PSBT.cpp:518-528 [length]. *)
Fixpoint sigs_length (l : list (ecpoint * signature)) : Z :=
  match l with
  | [] => 0
  | s :: t => 2 + pt_length (pt_comp (fst s)) + (2 + sig_length (snd s)) + sigs_length t
  end.
Fixpoint ins_length (n : nat) (p : psbt) (i : Z) : outcome Z :=
  match n with
  | O => Ok 0
  | S n' => let! m := at_ptr (ps_ins p) i in let! r := ins_length n' p (i + 1) in Ok (sigs_length (im_sigs m) + r)
  end.
Definition psbt_length (p : psbt) : outcome Z :=
  let n := tx_length (ps_tx p) in
  let sections := u8 (1 + len (t_ins (ps_tx p)) + len (t_outs (ps_tx p))) in
  let! r := ins_length (length (t_ins (ps_tx p))) p 0 in
  Ok (7 + lenVarInt n + n + sections + r).

(** PSBT.cpp:694-710 [fee]. [None]: an amount is missing (line 699 returns 0). *)
Fixpoint input_amount (n : nat) (p : psbt) (i acc : Z) : outcome (option Z) :=
  match n with
  | O => Ok (Some acc)
  | S n' => let! m := at_ptr (ps_ins p) i in
            if to_amount (im_out m) =? 0 then Ok None
            else input_amount n' p (i + 1) (u64 (acc + to_amount (im_out m)))
  end.
Definition output_amount (l : list txout) : Z := fold_left (fun a o => u64 (a + to_amount o)) l 0.
Definition psbt_fee (p : psbt) : outcome Z :=
  let! r := input_amount (length (t_ins (ps_tx p))) p 0 0 in
  match r with
  | None => Ok 0
  | Some a => let b := output_amount (t_outs (ps_tx p)) in Ok (if a <? b then 0 else u64 (a - b))
  end.

(** PSBT.cpp:712-738 [isMine]; [derive] gives the point of the key that the wallet derives along a path
    (for a private key, the point of its public key). *)
Definition psbt_isMine (derive : list Z -> outcome (list Z)) (p : psbt) (outputNumber : Z) : outcome bool :=
  let! m := at_ptr (ps_outs p) outputNumber in
  fold_left (fun acc d => let! mine := acc in
                          if d_set d then
                            let! pub := derive (d_path d) in Ok (mine || list_eqb pub (pt_xy (d_pub d)))
                          else UB) (om_ders m) (Ok false).
