(** Model of src/utility/segwit_addr.c. *)
From Verif Require Import Base.Bytes.
Open Scope Z_scope.

(** segwit_addr.c:27-35; [-((b >> i) & 1) & G] is G if the bit is set and 0 otherwise. *)
Definition pick (b i g : Z) : Z := if Z.testbit b i then g else 0.
Definition polymod_step (pre : Z) : Z :=
  let b := Z.shiftr pre 25 in
  Z.lxor (Z.lxor (Z.lxor (Z.lxor (Z.lxor (Z.shiftl (Z.land pre 33554431) 5)
    (pick b 0 996825010)) (pick b 1 642813549)) (pick b 2 513874426)) (pick b 3 1027748829)) (pick b 4 705979059).

(** segwit_addr.c:37. *)
Definition charset : list Z := chars "qpzry9x8gf2tvdw0s3jn54khce6mua7l".

(** segwit_addr.c:39-48. *)
Definition charset_rev : list Z :=
  [-1; -1; -1; -1; -1; -1; -1; -1; -1; -1; -1; -1; -1; -1; -1; -1;
   -1; -1; -1; -1; -1; -1; -1; -1; -1; -1; -1; -1; -1; -1; -1; -1;
   -1; -1; -1; -1; -1; -1; -1; -1; -1; -1; -1; -1; -1; -1; -1; -1;
   15; -1; 10; 17; 21; 20; 26; 30;  7;  5; -1; -1; -1; -1; -1; -1;
   -1; 29; -1; 24; 13; 25;  9;  8; 23; -1; 18; 22; 31; 27; 19; -1;
    1;  0;  3; 16; 11; 28; 12; 14;  6;  4;  2; -1; -1; -1; -1; -1;
   -1; 29; -1; 24; 13; 25;  9;  8; 23; -1; 18; 22; 31; 27; 19; -1;
    1;  0;  3; 16; 11; 28; 12; 14;  6;  4;  2; -1; -1; -1; -1; -1].

Definition upper (c : Z) : bool := (65 <=? c) && (c <=? 90).
Definition lower (c : Z) : bool := (97 <=? c) && (c <=? 122).
Definition printable (c : Z) : bool := (33 <=? c) && (c <=? 126).

(** Writing [l] at the start of a buffer; outside of it is UB. *)
Fixpoint put_chars (buf : list Z) (i : Z) (l : list Z) : outcome (list Z) :=
  match l with
  | [] => Ok buf
  | c :: t => let! b := aset buf i c in put_chars b (i + 1) t
  end.

(** segwit_addr.h:29. *)
Definition MAX_BECH32_SIZE : Z := 1000.

(** segwit_addr.c:53-62: first pass over the prefix; None: refused. *)
Fixpoint enc_high (chk : Z) (hrp : list Z) : option Z :=
  match hrp with
  | [] => Some chk
  | ch :: t => if negb (printable ch) || upper ch then None
               else enc_high (Z.lxor (polymod_step chk) (Z.shiftr ch 5)) t
  end.
(** segwit_addr.c:65-68. *)
Definition enc_low (chk : Z) (hrp : list Z) : Z :=
  fold_left (fun k ch => Z.lxor (polymod_step k) (Z.land ch 31)) hrp chk.
(** segwit_addr.c:70-74: the characters written, and the checksum unless a value is above 31. *)
Fixpoint enc_data (chk : Z) (data : list Z) : list Z * option Z :=
  match data with
  | [] => ([], Some chk)
  | v :: t => if negb (Z.shiftr v 5 =? 0) then ([], None)
              else let '(s, r) := enc_data (Z.lxor (polymod_step chk) v) t in
                   (nth (Z.to_nat v) charset 0 :: s, r)
  end.
Definition six_steps (chk : Z) : Z :=
  polymod_step (polymod_step (polymod_step (polymod_step (polymod_step (polymod_step chk))))).
(** segwit_addr.c:75-81. *)
Definition enc_check (chk : Z) : list Z :=
  let c := Z.lxor (six_steps chk) 1 in
  map (fun i => nth (Z.to_nat (Z.land (Z.shiftr c ((5 - i) * 5)) 31)) charset 0) [0; 1; 2; 3; 4; 5].

(** segwit_addr.c:50-84 [bech32_encode(output, hrp, data, data_len)]: return value and
    the output buffer. [hrp] without its terminating NUL. '1' = 49. Output is only
    written, in order, so the writes are done together at the end. *)
Definition bech32_encode (output hrp data : list Z) : outcome (Z * list Z) :=
  match enc_high 1 hrp with
  | None => Ok (0, output)
  | Some chk =>
      if len hrp + 7 + len data >? MAX_BECH32_SIZE then Ok (0, output)
      else
        match enc_data (enc_low (polymod_step chk) hrp) data with
        | (s, None) => let! b := put_chars output 0 (hrp ++ [49] ++ s) in Ok (0, b)
        | (s, Some chk') => let! b := put_chars output 0 (hrp ++ [49] ++ s ++ enc_check chk' ++ [0]) in Ok (1, b)
        end
  end.

(** segwit_addr.c:96-98: characters behind the last '1'. *)
Definition data_part (input : list Z) : Z :=
  Z.of_nat (count_while (fun c => negb (c =? 49)) (rev input)).

(** segwit_addr.c:104-117: the prefix, [n] characters of it; [input] ends with the
    terminating NUL. Result: None = refused; else checksum, case flags, buffer. *)
Fixpoint dec_high (n : nat) (i : Z) (input hrp : list Z) (chk : Z) (lo up : bool)
  : outcome (option (Z * bool * bool * list Z)) :=
  match n with
  | O => Ok (Some (chk, lo, up, hrp))
  | S k =>
      match input with
      | [] => UB
      | ch :: t =>
          if negb (printable ch) then Ok None
          else
            let c := if upper ch then ch + 32 else ch in
            let! hrp' := aset hrp i c in
            dec_high k (i + 1) t hrp' (Z.lxor (polymod_step chk) (Z.shiftr c 5)) (lo || lower ch) (up || upper ch)
      end
  end.
(** segwit_addr.c:124-137; [rem] characters follow, the last six are not stored. *)
Fixpoint dec_data (i : Z) (input data : list Z) (chk : Z) (lo up : bool)
  : outcome (option (Z * bool * bool * list Z)) :=
  match input with
  | [] => Ok (Some (chk, lo, up, data))
  | ch :: t =>
      let v := if (ch <? 0) || (127 <? ch) then -1 else nth (Z.to_nat ch) charset_rev (-1) in
      if v =? -1 then Ok None
      else
        let! data' := (if 6 <=? len t then aset data i v else Ok data) in
        dec_data (i + 1) t data' (Z.lxor (polymod_step chk) v) (lo || lower ch) (up || upper ch)
  end.

(** segwit_addr.c:86-141 [bech32_decode(hrp, data, data_len, input)]: return value, the
    two buffers and data_len. [input] without its terminating NUL. When there is no
    '1', hrp_len is 2^64-1 and the first loop runs into the NUL. *)
Definition bech32_decode (hrp data input : list Z) : outcome (Z * list Z * list Z * Z) :=
  let n := len input in
  if (n <? 8) || (n >? MAX_BECH32_SIZE) then Ok (0, hrp, data, 0)
  else
    let dl := data_part input in
    let hrp_len := u64 (n - (1 + dl)) in
    if (hrp_len <? 1) || (dl <? 6) then Ok (0, hrp, data, dl)
    else
      let count := Z.to_nat (Z.min hrp_len (n + 1)) in
      let! r := dec_high count 0 (input ++ [0]) hrp 1 false false in
      match r with
      | None => Ok (0, hrp, data, dl - 6)
      | Some (chk, lo, up, hrp1) =>
          let! hrp2 := aset hrp1 hrp_len 0 in
          let pre := firstn (Z.to_nat hrp_len) input in
          let chk2 := enc_low (polymod_step chk) pre in
          let! r2 := dec_data 0 (skipn (S (Z.to_nat hrp_len)) input) data chk2 lo up in
          match r2 with
          | None => Ok (0, hrp2, data, dl - 6)
          | Some (chk3, lo2, up2, data') =>
              if lo2 && up2 then Ok (0, hrp2, data', dl - 6)
              else Ok ((if chk3 =? 1 then 1 else 0), hrp2, data', dl - 6)
          end
      end.

(** segwit_addr.c:150-153: the inner loop. *)
Fixpoint emit (fuel : nat) (val bits outbits maxv : Z) (out : list Z) (outlen : Z) : outcome (Z * list Z * Z) :=
  if outbits <=? bits then
    match fuel with
    | O => UB
    | S k =>
        let! out' := aset out outlen (Z.land (Z.shiftr val (bits - outbits)) maxv) in
        emit k val (bits - outbits) outbits maxv out' (outlen + 1)
    end
  else Ok (bits, out, outlen).
(** segwit_addr.c:147-154. *)
Fixpoint conv_loop (inp : list Z) (val bits outbits inbits maxv : Z) (out : list Z) (outlen : Z)
  : outcome (Z * Z * list Z * Z) :=
  match inp with
  | [] => Ok (val, bits, out, outlen)
  | x :: t =>
      let val' := Z.lor (u32 (Z.shiftl val inbits)) x in
      let! r := emit 8 val' (bits + inbits) outbits maxv out outlen in
      let '(bits', out', outlen') := r in
      conv_loop t val' bits' outbits inbits maxv out' outlen'
  end.
(** segwit_addr.c:143-163 [convert_bits(out, outlen, outbits, in, inlen, inbits, pad)],
    called with *outlen = 0. *)
Definition convert_bits (out : list Z) (outbits : Z) (inp : list Z) (inbits : Z) (pad : bool)
  : outcome (Z * list Z * Z) :=
  let maxv := Z.shiftl 1 outbits - 1 in
  let! r := conv_loop inp 0 0 outbits inbits maxv out 0 in
  let '(val, bits, out1, outlen) := r in
  if pad then
    if negb (bits =? 0) then
      let! out2 := aset out1 outlen (Z.land (u32 (Z.shiftl val (outbits - bits))) maxv) in
      Ok (1, out2, outlen + 1)
    else Ok (1, out1, outlen)
  else if negb (Z.land (u32 (Z.shiftl val (outbits - bits))) maxv =? 0) || (inbits <=? bits)
       then Ok (0, out1, outlen)
       else Ok (1, out1, outlen).

(** segwit_addr.c:165-175. The int [witver] is stored in a byte. *)
Definition segwit_addr_encode (output hrp : list Z) (witver : Z) (witprog : list Z) : outcome (Z * list Z) :=
  let n := len witprog in
  if 16 <? witver then Ok (0, output)
  else if (witver =? 0) && negb (n =? 20) && negb (n =? 32) then Ok (0, output)
  else if (n <? 2) || (40 <? n) then Ok (0, output)
  else
    let! r := convert_bits (zeros 64) 5 witprog 8 true in
    let '(_, d, dl) := r in
    bech32_encode output hrp (u8 witver :: firstn (Z.to_nat dl) d).

(** strncmp(hrp, hrp_actual, 84) != 0 with [a] and [b] NUL-terminated inside 84 bytes. *)
Definition c_string (b : list Z) : list Z := firstn (count_while (fun c => negb (c =? 0)) b) b.

(** segwit_addr.c:177-191 [segwit_addr_decode(witver, witdata, witdata_len, hrp, addr)]: None is
    the return value 0; otherwise witver, the buffer witdata and witdata_len. The
    buffers data[84] and hrp_actual[84] are not initialised by the code; only what
    bech32_decode wrote is read. *)
Definition segwit_addr_decode (witdata hrp addr : list Z) : outcome (option (Z * list Z * Z)) :=
  let! r := bech32_decode (zeros 84) (zeros 84) addr in
  let '(ok, hrp_actual, data, dl) := r in
  if ok =? 0 then Ok None
  else if (dl =? 0) || (65 <? dl) then Ok None
  else if negb (if list_eq_dec Z.eq_dec hrp (c_string hrp_actual) then true else false) then Ok None
  else
    let ver := nth 0 data 0 in
    if 16 <? ver then Ok None
    else
      let! c := convert_bits witdata 8 (firstn (Z.to_nat (dl - 1)) (skipn 1 data)) 5 false in
      let '(r, w, wl) := c in
      if r =? 0 then Ok None
      else if (wl <? 2) || (40 <? wl) then Ok None
      else if (ver =? 0) && negb (wl =? 20) && negb (wl =? 32) then Ok None
      else Ok (Some (ver, w, wl)).
