(** Signature and SchnorrSignature containers: src/Bitcoin.cpp:98-368, src/Bitcoin.h:413-470. *)
From Verif Require Import Base.Bytes Model.Conversion Model.Stream Model.Script.
Open Scope Z_scope.

(** Bitcoin.h:413-430: r, s, tot[3], index and the parsing state. *)
Record signature := mkSig {
  sg_r : list Z; sg_s : list Z; sg_t0 : Z; sg_t1 : Z; sg_t2 : Z; sg_index : Z;
  sg_status : pstatus; sg_parsed : Z }.

(** Bitcoin.cpp:99-108. *)
Definition sig_new : signature := mkSig (zeros 32) (zeros 32) 0 0 0 0 DONE 0.
Definition sig_of (r s : list Z) : signature := mkSig r s 0 0 0 0 DONE 0.

(** Bitcoin.cpp:218-245: rlen() and slen(). *)
Fixpoint int_len (l : list Z) (n : Z) : Z :=
  match l with
  | [] => n
  | b :: t => if 0 <? b then (if b <? 128 then u8 (n - 1) else n) else int_len t (u8 (n - 1))
  end.
Definition sig_rlen (g : signature) : Z := int_len (sg_r g) 33.
Definition sig_slen (g : signature) : Z := int_len (sg_s g) 33.
(** Bitcoin.cpp:246-248. *)
Definition sig_length (g : signature) : Z := sig_rlen g + sig_slen g + 6.

(** Bitcoin.cpp:254-276: memzero and the writes, in a buffer of [n] bytes. *)
Definition sig_der (g : signature) (n : nat) : outcome (Z * list Z) :=
  let rl := sig_rlen g in
  let sl := sig_slen g in
  let! a0 := write_at (zeros n) 0 [48; u8 (4 + rl + 2 + sl - 2); 2; rl] in
  let! a1 := (if rl =? 33 then write_at a0 5 (sg_r g)
              else write_at a0 4 (firstn (Z.to_nat rl) (skipn (Z.to_nat (32 - rl)) (sg_r g)))) in
  let! a2 := write_at a1 (4 + rl) [2; sl] in
  let! a3 := (if sl =? 33 then write_at a2 (4 + rl + 3) (sg_s g)
              else write_at a2 (4 + rl + 2) (firstn (Z.to_nat sl) (skipn (Z.to_nat (32 - sl)) (sg_s g)))) in
  Ok (4 + rl + 2 + sl, a3).

(** Bitcoin.cpp:206-216. *)
Definition sig_to_stream (g : signature) : serializer := fun cap offset =>
  let! d := sig_der g 72 in
  let! w := write_loop 72 0 (sig_length g) (snd d) (mkWst offset cap []) in
  Ok (w_out w).

(** One [if(stream->available() && ... bytes_parsed+bytes_read < limit){ read; check }]
    of Signature::from_stream: [f] stores the byte and says whether to go on; otherwise
    the status is FAILED and the function returns (bytes_parsed is not updated). *)
Definition sig_fail (g : signature) : signature :=
  mkSig (sg_r g) (sg_s g) (sg_t0 g) (sg_t1 g) (sg_t2 g) (sg_index g) FAILED (sg_parsed g).
Definition sig_gate (cond : bool) (limit : Z) (f : Z -> signature -> signature * bool)
    (k : signature -> Z -> list Z -> outcome (signature * Z * list Z))
    (g : signature) (pos : Z) (st : list Z) : outcome (signature * Z * list Z) :=
  match st with
  | c :: t =>
      if cond && (pos <? limit) then
        let '(g1, ok) := f c g in
        if ok then k g1 (pos + 1) t else Ok (sig_fail g1, pos + 1 - sg_parsed g, t)
      else k g pos st
  | [] => k g pos st
  end.
Definition set_t0 (g : signature) (c : Z) : signature :=
  mkSig (sg_r g) (sg_s g) c (sg_t1 g) (sg_t2 g) (sg_index g) (sg_status g) (sg_parsed g).
Definition set_t1 (g : signature) (c : Z) : signature :=
  mkSig (sg_r g) (sg_s g) (sg_t0 g) c (sg_t2 g) (sg_index g) (sg_status g) (sg_parsed g).
Definition set_t2 (g : signature) (c : Z) : signature :=
  mkSig (sg_r g) (sg_s g) (sg_t0 g) (sg_t1 g) c (sg_index g) (sg_status g) (sg_parsed g).
Definition set_r (g : signature) (r : list Z) : signature :=
  mkSig r (sg_s g) (sg_t0 g) (sg_t1 g) (sg_t2 g) (sg_index g) (sg_status g) (sg_parsed g).
Definition set_s (g : signature) (s : list Z) : signature :=
  mkSig (sg_r g) s (sg_t0 g) (sg_t1 g) (sg_t2 g) (sg_index g) (sg_status g) (sg_parsed g).

(** Bitcoin.cpp:178-203: the part for s, from the tag on. *)
Definition sig_parse_s (g : signature) (pos : Z) (st : list Z) : outcome (signature * Z * list Z) :=
  let base := 4 + sg_t1 g in
  sig_gate true (base + 1) (fun c g => (g, c =? 2)) (fun g pos st =>
  sig_gate true (base + 2) (fun c g => (set_t2 g c, negb (33 <? c))) (fun g pos st =>
  sig_gate (sg_t2 g =? 33) (base + 3) (fun c g => (g, c =? 0)) (fun g pos st =>
    let! r := read_loop_o (base + 2 + sg_t2 g) pos (fun a p c => aset a (p - 4 - sg_t1 g - 2 - sg_t2 g + 32) c) (sg_s g) st in
    let '(s1, pos1, st1) := r in
    let g1 := set_s g s1 in
    if negb (sig_slen g1 =? sg_t2 g1) then Ok (sig_fail g1, pos1 - sg_parsed g, st1)
    else Ok (mkSig (sg_r g1) (sg_s g1) (sg_t0 g1) (sg_t1 g1) (sg_t2 g1) (sg_index g1)
               (if pos1 =? base + 2 + sg_t2 g then DONE else INCOMPLETE) pos1,
             pos1 - sg_parsed g, st1)) g pos st) g pos st) g pos st.
(** Bitcoin.cpp:142-177: 0x30, the total length, and the part for r. *)
Definition sig_parse_body (g : signature) (st : list Z) : outcome (signature * Z * list Z) :=
  sig_gate true 1 (fun c g => (g, c =? 48)) (fun g pos st =>
  sig_gate true 2 (fun c g => (set_t0 g c, negb (70 <? c))) (fun g pos st =>
  sig_gate true 3 (fun c g => (g, c =? 2)) (fun g pos st =>
  sig_gate true 4 (fun c g => (set_t1 g c, negb (33 <? c))) (fun g pos st =>
  sig_gate (sg_t1 g =? 33) 5 (fun c g => (g, c =? 0)) (fun g pos st =>
    let! r := read_loop_o (4 + sg_t1 g) pos (fun a p c => aset a (p - 4 + 32 - sg_t1 g) c) (sg_r g) st in
    let '(r1, pos1, st1) := r in
    let g1 := set_r g r1 in
    if negb (sig_rlen g1 =? sg_t1 g1) then Ok (sig_fail g1, pos1 - sg_parsed g, st1)
    else sig_parse_s g1 pos1 st1) g pos st) g pos st) g pos st) g pos st) g (sg_parsed g) st.
(** Bitcoin.cpp:122-204. *)
Definition sig_parse (g : signature) (st : list Z) : outcome (signature * Z * list Z) :=
  match sg_status g with
  | FAILED => Ok (g, 0, st)
  | DONE => sig_parse_body (mkSig (zeros 32) (zeros 32) 0 0 0 (sg_index g) INCOMPLETE 0) st
  | INCOMPLETE => sig_parse_body g st
  end.

(** Bitcoin.cpp:277-293: bin() into an array of [len arr] bytes. *)
Definition sig_bin (g : signature) (arr : list Z) : outcome (list Z) :=
  let l := len arr in
  let! a1 := write_at arr 0 (firstn (Z.to_nat (Z.min l 32)) (sg_r g)) in
  let! a2 := (if 32 <? l then write_at a1 32 (firstn (Z.to_nat (Z.min (l - 32) 32)) (sg_s g)) else Ok a1) in
  if 64 <? l then aset a2 64 (sg_index g) else Ok a2.
(** Bitcoin.cpp:294-310: fromBin() of an array. *)
Definition sig_fromBin (g : signature) (arr : list Z) : outcome signature :=
  let l := len arr in
  let! r1 := write_at (sg_r g) 0 (firstn (Z.to_nat (Z.min l 32)) arr) in
  let! s1 := (if 32 <? l then write_at (sg_s g) 0 (firstn (Z.to_nat (Z.min (l - 32) 32)) (skipn 32 arr)) else Ok (sg_s g)) in
  let! i := (if 64 <? l then aget arr 64 else Ok (sg_index g)) in
  Ok (mkSig r1 s1 (sg_t0 g) (sg_t1 g) (sg_t2 g) i (sg_status g) (sg_parsed g)).

(** ** SchnorrSignature *)

(** Bitcoin.h:452-470. *)
Record schnorr := mkSch { sn_r : list Z; sn_s : list Z; sn_status : pstatus; sn_parsed : Z }.
Definition sch_new : schnorr := mkSch (zeros 32) (zeros 32) DONE 0.

(** Bitcoin.cpp:341-354, after the status checks. *)
Definition sch_parse_body (g : schnorr) (st : list Z) : outcome (schnorr * Z * list Z) :=
  let! r := read_loop_o 32 (sn_parsed g) (fun a p c => aset a p c) (sn_r g) st in
  let '(r1, pos1, st1) := r in
  let! q := read_loop_o 64 pos1 (fun a p c => aset a (p - 32) c) (sn_s g) st1 in
  let '(s1, pos2, st2) := q in
  Ok (mkSch r1 s1 (if pos2 =? 64 then DONE else INCOMPLETE) pos2, pos2 - sn_parsed g, st2).
(** Bitcoin.cpp:331-355. *)
Definition sch_parse (g : schnorr) (st : list Z) : outcome (schnorr * Z * list Z) :=
  match sn_status g with
  | FAILED => Ok (g, 0, st)
  | DONE => sch_parse_body (mkSch (zeros 32) (zeros 32) INCOMPLETE 0) st
  | INCOMPLETE => sch_parse_body g st
  end.
(** Bitcoin.cpp:357-368. *)
Definition sch_to_stream (g : schnorr) : serializer := fun cap offset =>
  let! w := write_loop 64 0 64 (sn_r g ++ sn_s g) (mkWst offset cap []) in
  Ok (w_out w).
