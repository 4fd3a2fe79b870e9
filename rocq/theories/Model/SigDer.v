(** ecdsa_sig_to_der: src/utility/trezor/ecdsa.c:1129-1166. *)
From Verif Require Import Base.Bytes.
Open Scope Z_scope.

(** ecdsa.c:1143, 1156: while (sig[i] == 0 && i < limit) i++. The byte is read first. [fuel] bounds the loop. *)
Fixpoint skip_zeros (fuel : nat) (sig : list Z) (i limit : Z) : outcome Z :=
  let! c := aget sig i in
  if (c =? 0) && (i <? limit) then
    match fuel with
    | O => UB
    | S f => skip_zeros f sig (i + 1) limit
    end
  else Ok i.
(** ecdsa.c:1142-1149, 1155-1162: the bytes of one integer. *)
Definition der_int (sig : list Z) (from limit : Z) : outcome (list Z) :=
  let! i := skip_zeros 33 sig from limit in
  let! c := aget sig i in
  Ok ((if 128 <=? c then [0] else []) ++ firstn (Z.to_nat (limit - i)) (skipn (Z.to_nat i) sig)).
(** ecdsa.c:1131-1166: the value returned and the buffer [der]. The lengths are bytes. *)
Definition ecdsa_sig_to_der (sig der : list Z) : outcome (Z * list Z) :=
  let! a := der_int sig 0 32 in
  let! b := der_int sig 32 64 in
  let l := u8 (u8 (len a) + u8 (len b) + 4) in
  let t := [48; l; 2; u8 (len a)] ++ a ++ [2; u8 (len b)] ++ b in
  if len der <? len t then UB else Ok (l + 2, t ++ skipn (length t) der).
