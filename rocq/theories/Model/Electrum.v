(** Electrum's unsigned transactions: src/Electrum.cpp and src/Electrum.h. *)
From Verif Require Import Base.Bytes Model.Conversion Model.Stream Model.Script Model.Tx Model.Signature Model.Bignum Model.Point Model.Keys Model.Sign Model.HD Model.ECDSA Model.PointOps Model.PSBT.
Open Scope Z_scope.

(** Electrum.h:10-14 [ElectrumInputMetadata]; [em_d0] and [em_d1] are derivation[0] and derivation[1]. *)
Record emeta := mkEm { em_hd : hdpub; em_d0 : Z; em_d1 : Z; em_amount : Z }.
(** Electrum.h:21-34; [el_metas] is the array txInsMeta, [None] as long as the pointer is NULL. *)
Record electrum := mkEl { el_tx : tx; el_segwit : bool; el_metas : option (list emeta); el_status : pstatus; el_parsed : Z }.
(** Electrum.h:27. *)
Definition el_new : electrum := mkEl tx_new false None DONE 0.

(** Electrum.cpp:43. *)
Definition el_prefix : list Z := [69; 80; 84; 70; 255; 0].
(** Electrum.cpp:44-52; [pos] is bytes_read + bytes_parsed; [true] after a wrong byte. *)
Fixpoint prefix_loop (pos : Z) (st : list Z) : Z * list Z * bool :=
  match st with
  | [] => (pos, [], false)
  | c :: t => if pos <? 6 then
                if c =? nth (Z.to_nat pos) el_prefix 0 then prefix_loop (pos + 1) t else (pos + 1, t, true)
              else (pos, st, false)
  end.
(** Electrum.cpp:103-106 and 114-117: bytes read and forgotten. *)
Definition skip_loop (limit pos : Z) (st : list Z) : Z * list Z :=
  let '(_, p, s) := read_loop limit pos (fun (u : unit) _ _ => u) tt st in (p, s).
(** Electrum.cpp:108-112: a 64-bit number, the bytes shifted as uint64_t. *)
Definition acc64 (base acc pos c : Z) : Z := u64 (acc + c * 2 ^ (8 * (pos - base))).
(** Electrum.cpp:123-128; the pair is the array derivation. *)
Definition acc_der (base : Z) (d : Z * Z) (pos c : Z) : Z * Z :=
  let cur := pos - base in
  let x := c * 2 ^ (8 * (cur mod 2)) in
  if cur / 2 =? 0 then (u16 (fst d + x), snd d) else (fst d, u16 (snd d + x)).

(** Electrum.cpp:82-86: the failed transaction becomes one without witnesses; setStatus is BaseClasses.h:139. *)
Definition drop_witnesses (t : tx) : tx :=
  mkTx (t_version t)
    (map (fun i => mkTxin (ti_hash i) (ti_index i) (ti_script i) (ti_seq i) (witness_assign (ti_wit i) witness_new) (ti_status i) (ti_parsed i)) (t_ins t))
    (t_outs t) 0 (t_segflag t) DONE (t_parsed t).

Section Parse.
(** As in Model/HD.v: ecdsa_uncompress_pubkey, isValid, and what an uninitialised array holds. *)
Variable uncompress : list Z -> list Z -> outcome (list Z).
Variable pt_valid : list Z -> bool.
Variable garbage : list Z.
(** What new ElectrumInputMetadata[n] leaves in derivation[0], derivation[1] and amount of an element:
    they have no initialiser. *)
Variable junk : nat -> Z * Z * Z.
Definition new_meta (j : nat) : emeta := let '(a, b, c) := junk j in mkEm hp_new a b c.
Definition new_metas (n : nat) : list emeta := map new_meta (seq 0 n).

(** Electrum.cpp:60-76: one input of a transaction without witnesses; [true] when it is refused. *)
Definition legacy_meta (i : txin) (m : emeta) : outcome (txin * emeta * bool) :=
  if script_length (ti_script i) =? 88 then
    let! r := serialize (script_to_stream (ti_script i)) 88 0 in
    let arr := snd r in
    let! p := hp_parse uncompress pt_valid garbage (em_hd m) (skipn 6 arr) in
    let hd := fst (fst p) in
    match hp_status hd with
    | DONE =>
        Ok (mkTxin (ti_hash i) (ti_index i) (script_assign (ti_script i) script_new) (ti_seq i) (ti_wit i) (ti_status i) (ti_parsed i),
            mkEm hd (u16 (nth 84 arr 0 + nth 85 arr 0 * 256)) (u16 (nth 86 arr 0 + nth 87 arr 0 * 256)) (em_amount m), false)
    | _ => Ok (i, mkEm hd (em_d0 m) (em_d1 m) (em_amount m), true)
    end
  else Ok (i, m, true).
(** Electrum.cpp:59-77. *)
Fixpoint legacy_metas (ins : list txin) (ms : list emeta) : outcome (list txin * list emeta * bool) :=
  match ins, ms with
  | i :: ins', m :: ms' =>
      let! r := legacy_meta i m in
      let '(i1, m1, bad) := r in
      if bad then Ok (i1 :: ins', m1 :: ms', true)
      else let! r2 := legacy_metas ins' ms' in
           let '(ins2, ms2, bad2) := r2 in Ok (i1 :: ins2, m1 :: ms2, bad2)
  | _, _ => Ok ([], ms, false)
  end.

(** Electrum.cpp:119-121. A parse that reads nothing leaves everything as it was, so that the loop never
    ends: that is the outcome [UB] here. [fuel] is the number of bytes left. *)
Fixpoint hd_loop (fuel : nat) (limit pos : Z) (k : hdpub) (st : list Z) : outcome (hdpub * Z * list Z) :=
  match fuel, st with
  | S f, _ :: _ =>
      if pos <? limit then
        let! r := hp_parse uncompress pt_valid garbage k st in
        let '(k1, n, st1) := r in
        if n =? 0 then UB else hd_loop f limit (pos + n) k1 st1
      else Ok (k, pos, st)
  | _, _ => Ok (k, pos, st)
  end.
(** Electrum.cpp:103-129: the data of one input. *)
Definition segwit_meta (start pos : Z) (m : emeta) (st : list Z) : outcome (emeta * Z * list Z) :=
  let '(pos1, st1) := skip_loop (start + 5) pos st in
  let '(a, pos2, st2) := read_loop (start + 13) pos1 (acc64 (start + 5)) (em_amount m) st1 in
  let '(pos3, st3) := skip_loop (start + 20) pos2 st2 in
  let! r := hd_loop (length st3) (start + 98) pos3 (em_hd m) st3 in
  let '(hd, pos4, st4) := r in
  let '(d, pos5, st5) := read_loop (start + 102) pos4 (acc_der (start + 98)) (em_d0 m, em_d1 m) st4 in
  Ok (mkEm hd (fst d) (snd d) a, pos5, st5).
(** Electrum.cpp:102-130. *)
Fixpoint segwit_metas (start pos : Z) (ms : list emeta) (st : list Z) : outcome (list emeta * Z * list Z) :=
  match ms with
  | [] => Ok ([], pos, st)
  | m :: ms' =>
      let! r := segwit_meta start pos m st in
      let '(m1, pos1, st1) := r in
      let! r2 := segwit_metas (start + 102) pos1 ms' st1 in
      let '(ms2, pos2, st2) := r2 in Ok (m1 :: ms2, pos2, st2)
  end.
(** Electrum.cpp:100-142 with is_segwit set and the transaction complete; [p0] is bytes_parsed on entry.
    The array has an element for each input: with NULL there is none to go through. *)
Definition segwit_body (t : tx) (ms : list emeta) (p0 pos : Z) (st : list Z) : outcome (electrum * Z * list Z) :=
  let start := 6 + tx_length t + 2 - 4 in
  let! r := segwit_metas start pos ms st in
  let '(ms1, pos1, st1) := r in
  let start1 := start + 102 * len ms in
  let! r2 := read_loop_o (start1 + 4) pos1 (acc32 start1) (t_lock t) st1 in
  let '(lock, pos2, st2) := r2 in
  Ok (mkEl (mkTx (t_version t) (t_ins t) (t_outs t) lock (t_segflag t) (t_status t) (t_parsed t)) true (Some ms1)
        (if pos2 =? start1 + 4 then DONE else INCOMPLETE) pos2, pos2 - p0, st2).

(** Electrum.cpp:80-99: whether the transaction failed at its first witness. *)
Definition at_witness (t : tx) : bool :=
  match t_ins t with
  | i :: _ => pstatus_eqb (wi_status (ti_wit i)) FAILED
  | [] => false
  end.
(** Electrum.cpp:80-142. [t], [sg], [ms], [stat]: tx, is_segwit, txInsMeta and status at line 80. *)
Definition el_after (t : tx) (sg : bool) (ms : option (list emeta)) (stat : pstatus) (p0 pos : Z) (st : list Z)
  : outcome (electrum * Z * list Z) :=
  if pstatus_eqb (t_status t) FAILED then
    if at_witness t then
      segwit_body (drop_witnesses t) (map (fun _ => mkEm hp_new 0 0 0) (t_ins t)) p0 pos st
    else Ok (mkEl t sg ms FAILED pos, pos - p0, st)
  else if sg && pstatus_eqb (t_status t) DONE then
    match ms with
    | Some l => segwit_body t l p0 pos st
    | None => UB
    end
  else Ok (mkEl t sg ms stat pos, pos - p0, st).
(** Electrum.cpp:41-142, the status already set to PARSING_INCOMPLETE. *)
Definition el_body (e : electrum) (st : list Z) : outcome (electrum * Z * list Z) :=
  let p0 := el_parsed e in
  let '(pos, st1, bad) := prefix_loop p0 st in
  if bad then Ok (mkEl (el_tx e) (el_segwit e) (el_metas e) FAILED pos, pos - p0, st1)
  else if negb (el_segwit e) && (match st1 with [] => false | _ => true end) && negb (pstatus_eqb (t_status (el_tx e)) FAILED) then
    let! r := tx_parse (el_tx e) st1 in
    let '(t, n, st2) := r in
    match t_status t with
    | DONE =>
        let! r2 := legacy_metas (t_ins t) (new_metas (length (t_ins t))) in
        let '(ins, ms, bad2) := r2 in
        let t1 := mkTx (t_version t) ins (t_outs t) (t_lock t) (t_segflag t) (t_status t) (t_parsed t) in
        if bad2 then Ok (mkEl t1 false (Some ms) FAILED (pos + n), pos + n - p0, st2)
        else el_after t1 false (Some ms) DONE p0 (pos + n) st2
    | _ => el_after t (el_segwit e) (el_metas e) INCOMPLETE p0 (pos + n) st2
    end
  else el_after (el_tx e) (el_segwit e) (el_metas e) INCOMPLETE p0 pos st1.
(** Electrum.cpp:28-143 [ElectrumTx::from_stream]. *)
Definition el_parse (e : electrum) (st : list Z) : outcome (electrum * Z * list Z) :=
  match el_status e with
  | FAILED => Ok (e, 0, st)
  | DONE => el_body (mkEl tx_new false None INCOMPLETE 0) st
  | INCOMPLETE => el_body e st
  end.
End Parse.

(** Electrum.h:24 and 31. *)
Definition el_to_stream (e : electrum) : serializer := tx_to_stream (el_tx e).
Definition el_length (e : electrum) : Z := tx_length (el_tx e).

(** Electrum.cpp:166-182 [fee]; the amounts are uint64_t. Inputs without an array are a NULL pointer. *)
Fixpoint fee_inputs (ms : list emeta) (sum : Z) : option Z :=
  match ms with
  | [] => Some sum
  | m :: t => if em_amount m =? 0 then None else fee_inputs t (u64 (sum + em_amount m))
  end.
Definition fee_outputs (outs : list txout) : Z := fold_left (fun s o => u64 (s + to_amount o)) outs 0.
Definition el_fee (e : electrum) : outcome Z :=
  let! ms := (match el_metas e, t_ins (el_tx e) with
              | Some l, _ => Ok l
              | None, [] => Ok []
              | None, _ => UB
              end) in
  match fee_inputs ms 0 with
  | None => Ok 0
  | Some i => let o := fee_outputs (t_outs (el_tx e)) in Ok (if i <? o then 0 else i - o)
  end.

Section ElectrumSign.
Variable dsha : list Z -> list Z.
Variable hash160 sha256 : list Z -> list Z.
Variable hmac512 : list Z -> list Z -> list Z.
Variable mulG : list Z -> list Z.
(** The DER bytes of PrivateKey::sign (Bitcoin.cpp:647-654) with this secret and hash; the calls are
    numbered, since each draws random numbers of its own. *)
Variable signer : nat -> list Z -> list Z -> list Z.

(** Electrum.cpp:155. *)
Definition signs_legacy (ty : script_type) : bool :=
  script_type_eqb ty P2PKH || script_type_eqb ty P2SH || script_type_eqb ty UNKNOWN_TYPE || script_type_eqb ty DIRECT_SCRIPT.
(** Electrum.cpp:154 and Bitcoin.h:726-728, 738-740: the secret, and the bytes of its public key. *)
Definition child_secret (account : hdpriv) (m : emeta) : list Z :=
  hk_num (hk_child_of hmac512 hash160 mulG (hk_child_of hmac512 hash160 mulG account (em_d0 m) false) (em_d1 m) false).
(** Electrum.cpp:150-161: transaction, count and number of signatures so far. The keys are compared by
    ECPoint::operator== (BitcoinCurve.h:84), so that assigning pub.type has no effect. *)
Definition el_sign_input (account : hdpriv) (i : Z) (m : emeta) (s : tx * Z * nat) : outcome (tx * Z * nat) :=
  let '(t, res, n) := s in
  if list_eqb (hp_point (to_pub mulG account)) (hp_point (em_hd m)) then
    let secret := child_secret account m in
    let sec := sec_of (mulG secret) in
    let ty := hp_type (em_hd m) in
    let! r := (if signs_legacy ty
               then tx_signInput dsha sec (signer n secret) t (u8 i) (script_of_pubkey hash160 sec P2PKH) SIGHASH_ALL
               else tx_signSegwitInput dsha hash160 sha256 sec (signer n secret) t (u8 i) (script_of_pubkey hash160 sec P2WPKH)
                      (em_amount m) ty SIGHASH_ALL) in
    Ok (fst r, u8 (res + 1), S n)
  else Ok s.
Fixpoint el_sign_inputs (account : hdpriv) (i : Z) (ms : list emeta) (s : tx * Z * nat) : outcome (tx * Z * nat) :=
  match ms with
  | [] => Ok s
  | m :: t => let! s1 := el_sign_input account i m s in el_sign_inputs account (i + 1) t s1
  end.
(** Electrum.cpp:147-164 [sign]: the object afterwards and the number returned. The status is not looked at. *)
Definition el_sign (e : electrum) (account : hdpriv) : outcome (electrum * Z) :=
  let! ms := (match el_metas e, t_ins (el_tx e) with
              | Some l, _ => Ok l
              | None, [] => Ok []
              | None, _ => UB
              end) in
  let! s := el_sign_inputs account 0 ms (el_tx e, 0, O) in
  let '(t, res, _) := s in
  Ok (mkEl t (el_segwit e) (el_metas e) (el_status e) (el_parsed e), res).
End ElectrumSign.

(** With the multiplication and the signatures of the code: [rz] is the random number of the multiplications
    (the same for all of them), [rzs] and [rks] give those of each signature. The DER bytes are those of
    Script.cpp:462-465; that making them is undefined for no secret and hash is part of the theorems. *)
Definition der_of (o : outcome signature) : list Z :=
  match (let! g := o in sig_der g 75) with Ok (n, l) => firstn (Z.to_nat n) l | UB => [] end.
Definition el_sign_code (dsha hash160 sha256 : list Z -> list Z) (hmac512 : list Z -> list Z -> list Z)
    (rz : bn) (rzs rks : nat -> nat -> bn) (e : electrum) (account : hdpriv) : outcome (electrum * Z) :=
  el_sign dsha hash160 sha256 hmac512 (code_mulG rz)
    (fun n d h => der_of (prv_sign (rzs n) (rks n) (mkPrv d (mkPt (code_mulG rz d) true DONE 0)) h)) e account.
