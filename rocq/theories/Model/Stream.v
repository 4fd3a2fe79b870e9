(** Byte streams: src/BaseClasses.h and src/BaseClasses.cpp. *)
From Verif Require Import Base.Bytes Model.Conversion.
Open Scope Z_scope.

(** BaseClasses.h:10-14. *)
Inductive fmt := RAW | HEX.

(** BaseClasses.h:16-20. *)
Inductive pstatus := DONE | INCOMPLETE | FAILED.
Definition pstatus_eqb (a b : pstatus) : bool :=
  match a, b with DONE, DONE | INCOMPLETE, INCOMPLETE | FAILED, FAILED => true | _, _ => false end.

(** ** ParseByteStream *)

(** BaseClasses.h:35-49: fields [buf]/[len] (the list), [cursor], [format], [last]. *)
Record pbs := mkPbs { pb_buf : list Z; pb_cur : Z; pb_fmt : fmt; pb_last : Z }.

(** BaseClasses.cpp:19-25 (the constructor at 27-33 differs only in using strlen). *)
Definition pb_new (arr : list Z) (f : fmt) : pbs := mkPbs arr 0 f (-1).

(** BaseClasses.cpp:37-43. *)
Definition pb_available (s : pbs) : Z :=
  match pb_fmt s with
  | HEX => u64 (len (pb_buf s) - pb_cur s) / 2
  | RAW => u64 (len (pb_buf s) - pb_cur s)
  end.

(** BaseClasses.cpp:44-64. The result is an int, -1 for "nothing". *)
Definition pb_read (s : pbs) : outcome (Z * pbs) :=
  match pb_fmt s with
  | HEX =>
      if pb_cur s <? u64 (len (pb_buf s) - 1) then
        let! h1 := aget (pb_buf s) (pb_cur s) in
        let! h2 := aget (pb_buf s) (pb_cur s + 1) in
        let c1 := hexToVal h1 in
        let c2 := hexToVal h2 in
        if (c1 <? 16) && (c2 <? 16) then
          let v := Z.shiftl c1 4 + c2 in
          Ok (v, mkPbs (pb_buf s) (pb_cur s + 2) HEX v)
        else Ok (-1, s)
      else Ok (-1, s)
  | RAW =>
      if pb_cur s <? len (pb_buf s) then
        let! c := aget (pb_buf s) (pb_cur s) in
        Ok (c, mkPbs (pb_buf s) (pb_cur s + 1) RAW c)
      else Ok (-1, s)
  end.

(** BaseClasses.cpp:65-67. *)
Definition pb_getLast (s : pbs) : Z := pb_last s.

(** BaseClasses.cpp:68-79: fills an array of [n] bytes; returns the bytes stored. *)
Fixpoint pb_read_n (n : nat) (s : pbs) : outcome (list Z * pbs) :=
  match n with
  | O => Ok ([], s)
  | S n' =>
      let! r := pb_read s in
      let '(b, s1) := r in
      if b <? 0 then Ok ([], s1)
      else let! r2 := pb_read_n n' s1 in
           let '(l, s2) := r2 in Ok (Z.land (u8 b) 255 :: l, s2)
  end.

(** ** SerializeByteStream *)

(** BaseClasses.h:59-71. *)
Record sbs := mkSbs { sb_buf : list Z; sb_cur : Z; sb_fmt : fmt }.

(** BaseClasses.cpp:83-91: the constructor clears the buffer. *)
Definition sb_new (arr : list Z) (f : fmt) : sbs := mkSbs (zeros (length arr)) 0 f.

(** BaseClasses.cpp:92-98. *)
Definition sb_available (s : sbs) : Z :=
  let a := u64 (len (sb_buf s) - sb_cur s) in
  match sb_fmt s with HEX => a / 2 | RAW => a end.

(** BaseClasses.cpp:102-105, 107-110: one hex digit. *)
Definition sb_digit (v : Z) : Z :=
  let c := u8 (v + 48) in if 57 <? c then u8 (c + (97 - 57 - 1)) else c.

(** BaseClasses.cpp:99-119. *)
Definition sb_write (s : sbs) (b : Z) : outcome (Z * sbs) :=
  if 0 <? sb_available s then
    match sb_fmt s with
    | HEX =>
        let! b1 := aset (sb_buf s) (sb_cur s) (sb_digit (Z.land (Z.shiftr b 4) 15)) in
        let! b2 := aset b1 (sb_cur s + 1) (sb_digit (Z.land b 15)) in
        Ok (1, mkSbs b2 (sb_cur s + 2) HEX)
    | RAW =>
        let! b1 := aset (sb_buf s) (sb_cur s) b in
        Ok (1, mkSbs b1 (sb_cur s + 1) RAW)
    end
  else Ok (0, s).

(** BaseClasses.cpp:120-127. *)
Fixpoint sb_write_n (s : sbs) (l : list Z) : outcome (Z * sbs) :=
  match l with
  | [] => Ok (0, s)
  | b :: t =>
      if 0 <? sb_available s then
        let! r := sb_write s b in
        let! r2 := sb_write_n (snd r) t in
        Ok (1 + fst r2, snd r2)
      else Ok (0, s)
  end.

(** ** The view the parsers and serializers have of a stream

    Every [from_stream] uses the stream only through [available() > 0] and
    [read()], and every [to_stream] only through [available() > 0] and [write].
    A parse stream is therefore represented below by the list of bytes still to
    be read (that a RAW or HEX ParseByteStream behaves like its list is
    property C13), and a serialize stream by the number of bytes it still takes
    ([None] for a hash object, whose available() is always 100, Hash.h:18). *)

(** The loop [while(s->available() && pos < limit){ st = f(st, pos, s->read()); pos++; }].
    Result: state, number of bytes read, rest of the stream. *)
Fixpoint read_loop {St : Type} (limit pos : Z) (f : St -> Z -> Z -> St) (st : St) (s : list Z)
  : St * Z * list Z :=
  match s with
  | [] => (st, pos, [])
  | c :: t => if pos <? limit then read_loop limit (pos + 1) f (f st pos c) t else (st, pos, s)
  end.

(** Same with a body that may be undefined. *)
Fixpoint read_loop_o {St : Type} (limit pos : Z) (f : St -> Z -> Z -> outcome St) (st : St) (s : list Z)
  : outcome (St * Z * list Z) :=
  match s with
  | [] => Ok (st, pos, [])
  | c :: t => if pos <? limit then let! st1 := f st pos c in read_loop_o limit (pos + 1) f st1 t
              else Ok (st, pos, s)
  end.

(** Serialization state: [w_pos] is bytes_written+offset, [w_cap] what the
    stream still takes, [w_out] what was written. *)
Record wst := mkWst { w_pos : Z; w_cap : option nat; w_out : list Z }.
Definition w_available (w : wst) : bool := match w_cap w with Some O => false | _ => true end.
Definition w_put (w : wst) (b : Z) : wst :=
  mkWst (w_pos w + 1) (match w_cap w with Some n => Some (Nat.pred n) | None => None end) (w_out w ++ [b]).

(** The loop [while(s->available() && bytes_written+offset < base+n){
      s->write(arr[bytes_written+offset-base]); bytes_written++; }];
    [fuel] is at least the number of iterations. *)
Fixpoint write_loop (fuel : nat) (base n : Z) (arr : list Z) (w : wst) : outcome wst :=
  if w_available w && (w_pos w <? base + n) then
    match fuel with
    | O => UB
    | S k => let! b := aget arr (w_pos w - base) in write_loop k base n arr (w_put w b)
    end
  else Ok w.

(** A [to_stream] function as a transformer of (offset, capacity): what is written. *)
Definition serializer := option nat -> Z -> outcome (list Z).

(** [if(s->available() && bytes_written+offset < base+n)
       bytes_written += s->serialize(&obj, bytes_written+offset-base);] *)
Definition write_obj (base n : Z) (ser : serializer) (w : wst) : outcome wst :=
  if w_available w && (w_pos w <? base + n) then
    let! out := ser (w_cap w) (u64 (w_pos w - base)) in
    Ok (mkWst (w_pos w + len out)
         (match w_cap w with Some k => Some (k - length out)%nat | None => None end)
         (w_out w ++ out))
  else Ok w.

(** The same with a single write: [if(s->available() && bytes_written+offset < base+n){
      s->write(arr[bytes_written+offset-base]); bytes_written++; }] *)
Definition write_one (base n : Z) (arr : list Z) (w : wst) : outcome wst :=
  if w_available w && (w_pos w <? base + n) then
    let! b := aget arr (w_pos w - base) in Ok (w_put w b)
  else Ok w.

(** BaseClasses.cpp:167-170 and BaseClasses.h:159: serialize into a buffer of [n]
    bytes (RAW), starting at [offset]. The buffer is cleared first. *)
Definition serialize (ser : serializer) (n : nat) (offset : Z) : outcome (Z * list Z) :=
  let! out := ser (Some n) offset in
  Ok (len out, out ++ zeros (n - length out)).
