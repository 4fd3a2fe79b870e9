(** Descriptor checksum: src/PSBT.cpp:16-86. *)
From Verif Require Import Base.Bytes Model.Script.
Open Scope Z_scope.

(** PSBT.cpp:17-26. [val] is 0..31 or the group symbol 0..26. *)
Definition PolyMod (c val : Z) : Z :=
  let c0 := u8 (Z.shiftr c 35) in
  let c := Z.lxor (u64 (Z.shiftl (Z.land c 0x7ffffffff) 5)) val in
  let c := if negb (Z.land c0 1 =? 0) then Z.lxor c 0xf5dee51989 else c in
  let c := if negb (Z.land c0 2 =? 0) then Z.lxor c 0xa9fdca3312 else c in
  let c := if negb (Z.land c0 4 =? 0) then Z.lxor c 0x1bab10e32d else c in
  let c := if negb (Z.land c0 8 =? 0) then Z.lxor c 0x3706b1677a else c in
  if negb (Z.land c0 16 =? 0) then Z.lxor c 0x644d626ffd else c.
(** PSBT.cpp:46, 49; two double quotes in a Coq string are one. *)
Definition DESC_INPUT : list Z :=
  chars "0123456789()[],'/*abcdefgh@:$%{}IJKLMNOPQRSTUVWXYZ&+-.;<=>?!^_|~ijklmnopqrstuvwxyzABCDEFGH`#""\ ".
Definition DESC_CHECK : list Z := chars "qpzry9x8gf2tvdw0s3jn54khce6mua7l".
(** PSBT.cpp:55-71: the loop over the characters; None is return 0. strchr also finds the
    terminating zero of the alphabet. *)
Fixpoint desc_loop (span : list Z) (c cls clscount : Z) : option (Z * Z * Z) :=
  match span with
  | [] => Some (c, cls, clscount)
  | ch :: t =>
      match strchr DESC_INPUT ch with
      | None => None
      | Some pos =>
          let c := PolyMod c (Z.land pos 31) in
          let cls := cls * 3 + Z.shiftr pos 5 in
          let clscount := clscount + 1 in
          if clscount =? 3 then desc_loop t (PolyMod c cls) 0 0 else desc_loop t c cls clscount
      end
  end.
(** PSBT.cpp:28-79: what the output array holds afterwards (it is [outputSize] long) and the
    returned length. *)
Definition descriptorChecksum (span : list Z) (outputSize : nat) : outcome (list Z * Z) :=
  let output := zeros outputSize in
  if Z.of_nat outputSize <? 8 then Ok (output, 0)
  else
    match desc_loop span 1 0 0 with
    | None => Ok (output, 0)
    | Some (c, cls, clscount) =>
        let c := if 0 <? clscount then PolyMod c cls else c in
        let c := Nat.iter 8 (fun c => PolyMod c 0) c in
        let c := Z.lxor c 1 in
        let! output := write_at output 0 (repeat 32 8) in
        let sym j := nth (Z.to_nat (Z.land (Z.shiftr c (5 * (7 - j))) 31)) DESC_CHECK 0 in
        let! output := write_at output 0 (map sym [0; 1; 2; 3; 4; 5; 6; 7]) in
        Ok (output, 8)
    end.
(** The part of a string before its first zero (strlen, String(const char * )). *)
Fixpoint cstr (l : list Z) : list Z :=
  match l with
  | [] => []
  | c :: t => if c =? 0 then [] else c :: cstr t
  end.
(** PSBT.cpp:81-86: the String version. *)
Definition descriptorChecksum_String (descriptor : list Z) : outcome (list Z) :=
  let! r := descriptorChecksum (cstr descriptor) 10 in Ok (cstr (fst r)).
