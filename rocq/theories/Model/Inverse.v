(** The modular inverse: src/utility/trezor/bignum.c:599-867 [bn_inverse], the variant
    chosen by USE_INVERSE_FAST = 1 (options.h), and scalar division.
    Failed assertions, reads outside an array and loops that do not end are [UB]. *)
From Verif Require Import Base.Bytes Model.Bignum Model.Scalar.
Open Scope Z_scope.

(** bignum.c:602-605: a register holds one number in its first [len1] words, least significant
    first, and another in the remaining ones, most significant first. *)
Record combo := mkCombo { ca : list Z; clen : nat }.
Definition w (c : combo) (i : nat) : Z := nth i (ca c) 0.
Definition low (c : combo) : list Z := firstn (clen c) (ca c).
Definition high (c : combo) : list Z := skipn (clen c) (ca c).

(** bignum.c:623-634: from 30 bit limbs to 32 bit words; [temp32] runs along. *)
Fixpoint to32_loop (limbs : list Z) (i : Z) (temp32 : Z) : list Z :=
  match limbs with
  | [] => []
  | l :: t => Z.lor temp32 (u32 (Z.shiftl l (30 - 2 * i))) :: to32_loop t (i + 1) (Z.shiftr l (2 + 2 * i))
  end.
Definition to32 (x : bn) : list Z := to32_loop (tl x) 0 (limb x 0).

(** bignum.c:675-682: the length is adjusted while the top word is zero. The check [len1 < 0]
    comes after [len1] = 0 has already made the code read [a[-1]]. *)
Fixpoint adjust_len (a : list Z) (len1 : nat) : outcome nat :=
  match len1 with
  | O => UB
  | S n => if nth n a 0 =? 0 then adjust_len a n else Ok len1
  end.
(** bignum.c:685-694: whole zero words are shifted out. *)
Fixpoint shift_words (fuel : nat) (c : combo) (k : Z) : outcome (combo * Z) :=
  match fuel with
  | O => UB
  | S f =>
      if w c 0 =? 0 then shift_words f (mkCombo (tl (ca c) ++ [0]) (clen c - 1)) (k + 32)
      else Ok (c, k)
  end.
(** bignum.c:696-699: the number of low zero bits. *)
Fixpoint count_bits (fuel : nat) (x j : Z) : outcome Z :=
  match fuel with
  | O => UB
  | S f => if Z.land x (u32 (Z.shiftl 1 j)) =? 0 then count_bits f x (j + 1) else Ok j
  end.
(** bignum.c:702-705: a number shifted right by j bits. *)
Fixpoint shr_bits (j : Z) (l : list Z) : list Z :=
  match l with
  | [] => []
  | [x] => [Z.shiftr x j]
  | x :: ((y :: _) as t) => Z.lor (Z.shiftr x j) (u32 (Z.shiftl y (32 - j))) :: shr_bits j t
  end.
(** bignum.c:713-716: a number shifted left by j bits. *)
Fixpoint shl_bits (j : Z) (l : list Z) : list Z :=
  match l with
  | [] => []
  | [x] => [u32 (Z.shiftl x j)]
  | x :: ((y :: _) as t) => Z.lor (u32 (Z.shiftl x j)) (Z.shiftr y (32 - j)) :: shl_bits j t
  end.
(** bignum.c:700-719. *)
Definition shift_j (c : combo) (j : Z) : combo :=
  let lo := shr_bits j (low c) in
  if last lo 0 =? 0 then mkCombo (removelast lo ++ shl_bits j (0 :: high c)) (clen c - 1)
  else mkCombo (lo ++ shl_bits j (high c)) (clen c).
(** bignum.c:731-736: comparison from the top word. *)
Fixpoint cmp_top (a b : list Z) : Z :=
  match a, b with
  | x :: a', y :: b' => if x =? y then cmp_top a' b' else if y <? x then 1 else -1
  | _, _ => 0
  end.
(** bignum.c:729-737. *)
Definition cmp32 (us vr : combo) : Z :=
  let cmp := Z.of_nat (clen us) - Z.of_nat (clen vr) in
  if cmp =? 0 then cmp_top (rev (low us)) (rev (low vr)) else cmp.
(** bignum.c:749-759. *)
Fixpoint sub32 (e o : list Z) (temp : Z) : list Z :=
  match e, o with
  | x :: e', y :: o' =>
      let temp := u64 (temp + (0xFFFFFFFF + x - y)) in Z.land temp 0xFFFFFFFF :: sub32 e' o' (Z.shiftr temp 32)
  | x :: e', [] =>
      let temp := u64 (temp + (0xFFFFFFFF + x)) in Z.land temp 0xFFFFFFFF :: sub32 e' [] (Z.shiftr temp 32)
  | [], _ => []
  end.
(** bignum.c:761-771; the lists start at word 8. *)
Fixpoint add32 (o e : list Z) (temp : Z) : list Z :=
  match o, e with
  | x :: o', y :: e' =>
      let temp := u64 (temp + (x + y)) in Z.land temp 0xFFFFFFFF :: add32 o' e' (Z.shiftr temp 32)
  | x :: o', [] =>
      let temp := u64 (temp + x) in Z.land temp 0xFFFFFFFF :: add32 o' [] (Z.shiftr temp 32)
  | [], _ => []
  end.
(** bignum.c:748-771: the new [even] and [odd]. *)
Definition new_even (even odd : combo) : combo := mkCombo (sub32 (low even) (low odd) 1 ++ high even) (clen even).
Definition new_odd (even odd : combo) : combo := mkCombo (low odd ++ rev (add32 (rev (high odd)) (rev (high even)) 0)) (clen odd).

Definition is_odd (x : Z) : bool := negb (Z.land x 1 =? 0).
(** bignum.c:671-725: the part of the loop that makes [even] odd; with its assertions. *)
Definition strip (odd even : combo) (k : Z) : outcome (combo * Z) :=
  if negb (is_odd (w odd 0) && is_odd (w odd 8)) then UB
  else
    let! n := adjust_len (ca even) (clen even) in
    let! r := shift_words 9 (mkCombo (ca even) n) k in
    let '(c, k) := r in
    let! j := count_bits 32 (w c 0) 0 in
    let '(c, k) := if 0 <? j then (shift_j c j, k + j) else (c, k) in
    if is_odd (w odd 0) && is_odd (w odd 8) && is_odd (w c 0) && negb (is_odd (w c 8)) then Ok (c, k) else UB.
(** bignum.c:652-795: the loop. [even_vr]: even points to vr and odd to us. The result is
    [us] and [k] when the loop is left. *)
Fixpoint inv_loop (fuel : nat) (us vr : combo) (even_vr : bool) (k : Z) : outcome (combo * Z) :=
  match fuel with
  | O => UB
  | S f =>
      let! r := strip (if even_vr then us else vr) (if even_vr then vr else us) k in
      let '(c, k) := r in
      let us := if even_vr then us else c in
      let vr := if even_vr then c else vr in
      let cmp := cmp32 us vr in
      if cmp =? 0 then Ok (us, k)
      else
        let even_vr := negb (0 <? cmp) in
        let even := if even_vr then vr else us in
        let odd := if even_vr then us else vr in
        let e := new_even even odd in
        let o := new_odd even odd in
        if is_odd (w o 0) && is_odd (w o 8) && negb (is_odd (w e 0))
        then inv_loop f (if even_vr then o else e) (if even_vr then e else o) even_vr k
        else UB
  end.
(** bignum.c:811-817: minus the inverse of the prime modulo 2^32. *)
Fixpoint neg_inverse_loop (fuel : nat) (amone inverse : Z) : outcome Z :=
  match fuel with
  | O => UB
  | S f =>
      if amone =? 0 then Ok inverse
      else let amone := u32 (amone * amone) in neg_inverse_loop f amone (u32 (inverse * u32 (amone + 1)))
  end.
Definition neg_inverse (pp0 : Z) : outcome Z :=
  if is_odd pp0 then neg_inverse_loop 7 (u32 (pp0 - 1)) (u32 (pp0 - 2)) else UB.
(** bignum.c:829-834: the words after the first; [s] least significant first. *)
Fixpoint div32_loop (s pp : list Z) (factor temp : Z) : list Z :=
  match s, pp with
  | x :: s', q :: pp' =>
      let temp := u64 (temp + (x + q * factor)) in
      Z.land temp 0xffffffff :: div32_loop s' pp' factor (Z.shiftr temp 32)
  | _, _ => [Z.land temp 0xffffffff]
  end.
(** bignum.c:819-836: one division by 2^32. *)
Definition div32 (s pp : list Z) (inverse : Z) : outcome (list Z) :=
  let s0 := nth 0 s 0 in
  let factor := u32 (inverse * s0) in
  let temp := u64 (s0 + nth 0 pp 0 * factor) in
  if Z.land temp 0xffffffff =? 0 then Ok (div32_loop (tl s) (tl pp) factor (Z.shiftr temp 32)) else UB.
Fixpoint div32_times (n : nat) (s pp : list Z) (inverse : Z) : outcome (list Z) :=
  match n with
  | O => Ok s
  | S n' => let! s := div32 s pp inverse in div32_times n' s pp inverse
  end.
(** bignum.c:847-852. *)
Fixpoint divk_loop (s pp : list Z) (factor k temp : Z) : list Z :=
  match s, pp with
  | x :: s', q :: pp' =>
      let temp := u64 (temp + u64 (Z.shiftl (u64 (x + q * factor)) (32 - k))) in
      Z.land temp 0xffffffff :: divk_loop s' pp' factor k (Z.shiftr temp 32)
  | _, _ => [Z.land temp 0xffffffff]
  end.
(** bignum.c:837-853: the division by the last [k] < 32 bits. *)
Definition divk (s pp : list Z) (inverse k : Z) : outcome (list Z) :=
  if 0 <? k then
    let s0 := nth 0 s 0 in
    let mask := u32 (u32 (Z.shiftl 1 k) - 1) in
    let factor := Z.land (u32 (inverse * s0)) mask in
    let temp := Z.shiftr (u64 (s0 + nth 0 pp 0 * factor)) k in
    if Z.land (u32 (s0 + u32 (nth 0 pp 0 * factor))) mask =? 0
    then Ok (divk_loop (tl s) (tl pp) factor k temp) else UB
  else Ok s.
(** bignum.c:856-861: back to 30 bit limbs. *)
Fixpoint from32_loop (s : list Z) (i temp32 : Z) : bn :=
  match s with
  | [] => [temp32]
  | x :: t => Z.lor (Z.land (u32 (Z.shiftl x (2 * i))) 0x3FFFFFFF) temp32 :: from32_loop t (i + 1) (Z.shiftr x (30 - 2 * i))
  end.
(** bignum.c:599-867. After the loop the words 8 down to 1 of [us] hold the result. *)
Definition bn_inverse (x prime : bn) : outcome bn :=
  let x := bn_mod (bn_fast_mod x prime) prime in
  let pp := to32 prime in
  let us := mkCombo (pp ++ [1]) 8 in
  let vr := mkCombo (to32 x ++ [0]) 8 in
  let! r := inv_loop 514 us vr true 0 in
  let '(us, k) := r in
  let! inverse := neg_inverse (nth 0 pp 0) in
  let s := rev (tl (ca us)) in
  let! s := div32_times (Z.to_nat (k / 32)) s pp inverse in
  let! s := divk s pp inverse (k mod 32) in
  Ok (from32_loop s 0 0).

(** BitcoinCurve.cpp:247-257. *)
Definition sc_div (a b : list Z) : outcome (list Z) :=
  let! binv := bn_inverse (bn_read_be b) order_limbs in
  if bn_multiply_assert binv (bn_read_be a) order_limbs
  then Ok (bn_write_be (bn_mod (bn_multiply binv (bn_read_be a) order_limbs) order_limbs))
  else UB.
