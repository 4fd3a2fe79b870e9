(** 256 bit numbers in nine 30 bit limbs: src/utility/trezor/bignum.c.
    A bignum256 is the list of its nine limbs, least significant first. The C functions update
    an argument in place; here they return its new value. The [assert]s of bignum.c are separate
    definitions ([..._assert]); bignum.c:294 holds by construction (the condition is a bool). *)
From Verif Require Import Base.Bytes.
Open Scope Z_scope.

Definition bn := list Z.
Definition limb (x : bn) (i : nat) : Z := nth i x 0.

(** bignum.c:57-63, 73-79: four bytes as a 32 bit number; 65-71, 81-87: the converse. *)
Definition read4 (d0 d1 d2 d3 : Z) : Z :=
  Z.lor (Z.lor (Z.lor (u32 (Z.shiftl d0 24)) (u32 (Z.shiftl d1 16))) (u32 (Z.shiftl d2 8))) d3.
Definition read_be (data : list Z) (i : nat) : Z :=
  read4 (nth i data 0) (nth (i + 1) data 0) (nth (i + 2) data 0) (nth (i + 3) data 0).
Definition read_le (data : list Z) (i : nat) : Z :=
  read4 (nth (i + 3) data 0) (nth (i + 2) data 0) (nth (i + 1) data 0) (nth i data 0).
Definition write_be (x : Z) : list Z := [u8 (Z.shiftr x 24); u8 (Z.shiftr x 16); u8 (Z.shiftr x 8); u8 x].

(** bignum.c:95-106, 130-141: the loop over the 32 bit words, least significant first. *)
Fixpoint read_words (words : list Z) (i : Z) (temp : Z) : bn :=
  match words with
  | [] => [temp]
  | w :: t =>
      let temp := Z.lor temp (u32 (Z.shiftl w (2 * i))) in
      Z.land temp 0x3FFFFFFF :: read_words t (i + 1) (Z.shiftr w (30 - 2 * i))
  end.
(** bignum.c:91-107 [bn_read_be]; the argument has 32 bytes. *)
Definition bn_read_be (in_number : list Z) : bn :=
  read_words (map (fun i => read_be in_number ((7 - i) * 4)) (seq 0 8)) 0 0.
(** bignum.c:126-142 [bn_read_le]. *)
Definition bn_read_le (in_number : list Z) : bn :=
  read_words (map (fun i => read_le in_number (i * 4)) (seq 0 8)) 0 0.
(** bignum.c:114-121: the loop over the limbs, most significant first. *)
Fixpoint write_words (limbs : list Z) (i : Z) (temp : Z) : list Z :=
  match limbs with
  | [] => []
  | l :: t => Z.lor (u32 (Z.shiftl temp (16 + 2 * i))) (Z.shiftr l (14 - 2 * i)) :: write_words t (i + 1) l
  end.
(** bignum.c:111-122 [bn_write_be]. *)
Definition bn_write_be (in_number : bn) : list Z :=
  concat (map write_be (write_words (rev (firstn 8 in_number)) 0 (limb in_number 8))).
(** bignum.c:146-157 [bn_write_le]: the same words, written in the opposite order. *)
Definition bn_write_le (in_number : bn) : list Z := rev (bn_write_be in_number).
(** bignum.c:159-170 [bn_read_uint32]. *)
Definition bn_read_uint32 (n : Z) : bn := [Z.land n 0x3FFFFFFF; Z.shiftr n 30; 0; 0; 0; 0; 0; 0; 0].
(** bignum.c:172-183 [bn_read_uint64]. *)
Definition bn_read_uint64 (n : Z) : bn :=
  [Z.land n 0x3FFFFFFF; Z.land (Z.shiftr n 30) 0x3FFFFFFF; Z.shiftr (Z.shiftr n 30) 30; 0; 0; 0; 0; 0; 0].
(** bignum.c:224-244 [bn_zero], [bn_one]. *)
Definition bn_zero : bn := [0; 0; 0; 0; 0; 0; 0; 0; 0].
Definition bn_one : bn := [1; 0; 0; 0; 0; 0; 0; 0; 0].
(** bignum.c:249-257 [bn_is_zero]. *)
Definition bn_is_zero (a : bn) : bool := fold_left Z.lor a 0 =? 0.
(** bignum.c:262-272 [bn_is_less]. *)
Definition bn_is_less (a b : bn) : bool :=
  let '(res1, res2) :=
    fold_left (fun r ab =>
                 (Z.lor (u32 (Z.shiftl (fst r) 1)) (Z.b2z (fst ab <? snd ab)),
                  Z.lor (u32 (Z.shiftl (snd r) 1)) (Z.b2z (snd ab <? fst ab))))
              (combine (rev a) (rev b)) (0, 0) in
  res2 <? res1.
(** bignum.c:277-284 [bn_is_equal]. *)
Definition bn_is_equal (a b : bn) : bool :=
  fold_left (fun r ab => Z.lor r (Z.lxor (fst ab) (snd ab))) (combine a b) 0 =? 0.
(** bignum.c:289-300 [bn_cmov]. *)
Definition bn_cmov (cond : bool) (truecase falsecase : bn) : bn :=
  let tmask := u32 (- Z.b2z cond) in
  let fmask := u32 (- 1 - tmask) in
  map (fun ab => Z.lor (Z.land (fst ab) tmask) (Z.land (snd ab) fmask)) (combine truecase falsecase).
(** bignum.c:304-311 [bn_lshift]. *)
Definition bn_lshift (a : bn) : bn :=
  map (fun i => if Nat.eqb i 0 then Z.land (u32 (Z.shiftl (limb a 0) 1)) 0x3FFFFFFF
                else Z.lor (Z.land (u32 (Z.shiftl (limb a i) 1)) 0x3FFFFFFF) (Z.shiftr (Z.land (limb a (i - 1)) 0x20000000) 29))
      (seq 0 9).
(** bignum.c:315-322 [bn_rshift]. *)
Definition bn_rshift (a : bn) : bn :=
  map (fun i => if Nat.eqb i 8 then Z.shiftr (limb a 8) 1
                else Z.lor (Z.shiftr (limb a i) 1) (u32 (Z.shiftl (Z.land (limb a (i + 1)) 1) 29)))
      (seq 0 9).
(** bignum.c:337-340 [bn_testbit]. *)
Definition bn_testbit (a : bn) (bit : Z) : bool :=
  negb (Z.land (limb a (Z.to_nat (bit / 30))) (Z.shiftl 1 (bit mod 30)) =? 0).
(** bignum.c:363-370: the loop of [bn_mult_half] over the limbs above the lowest. *)
Fixpoint half_loop (x p : list Z) (xodd tmp1 : Z) : list Z :=
  match x, p with
  | xj :: x', pj :: p' =>
      let tmp2 := u32 (xj + Z.land pj xodd) in
      let tmp1 := u32 (tmp1 + u32 (Z.shiftl (Z.land tmp2 1) 29)) in
      Z.land tmp1 0x3fffffff :: half_loop x' p' xodd (u32 (Z.shiftr tmp1 30 + Z.shiftr tmp2 1))
  | _, _ => [tmp1]
  end.
(** bignum.c:356-371 [bn_mult_half]. *)
Definition bn_mult_half (x prime : bn) : bn :=
  let xodd := u32 (- Z.land (limb x 0) 1) in
  let tmp1 := Z.shiftr (u32 (limb x 0 + Z.land (limb prime 0) xodd)) 1 in
  half_loop (tl x) (tl prime) xodd tmp1.

(** bignum.c:441-450, 510-516: the limbs after the first of a subtraction of [coef * p];
    with the last value of temp. *)
Fixpoint msub_loop (x p : list Z) (coef temp : Z) : list Z * Z :=
  match x, p with
  | xj :: x', pj :: p' =>
      let temp := u64 (Z.shiftr temp 30 + (0x1FFFFFFF80000000 + xj - pj * coef)) in
      let '(l, t) := msub_loop x' p' coef temp in
      (Z.land temp 0x3FFFFFFF :: l, t)
  | _, _ => ([], temp)
  end.
(** bignum.c:438-450, 507-516. *)
Definition msub (x p : list Z) (coef : Z) : list Z * Z :=
  match x, p with
  | x0 :: x', p0 :: p' =>
      let temp := u64 (0x2000000000000000 + x0 - p0 * coef) in
      let '(l, t) := msub_loop x' p' coef temp in
      (Z.land temp 0x3FFFFFFF :: l, t)
  | _, _ => ([], 0)
  end.
(** bignum.c:501-517 [bn_fast_mod]. *)
Definition bn_fast_mod (x prime : bn) : bn := fst (msub x prime (Z.shiftr (limb x 8) 16)).
(** bignum.c:376-383 [bn_mult_k]; [k] is at most 255. *)
Definition bn_mult_k (x : bn) (k : Z) (prime : bn) : bn := bn_fast_mod (map (fun v => u32 (k * v)) x) prime.
(** bignum.c:931-938: the loop of [bn_subtract]. *)
Fixpoint sub_loop (a b : list Z) (tmp : Z) : list Z :=
  match a, b with
  | x :: a', y :: b' =>
      let tmp := u32 (tmp + (0x3FFFFFFF + x - y)) in
      Z.land tmp 0x3FFFFFFF :: sub_loop a' b' (Z.shiftr tmp 30)
  | _, _ => []
  end.
(** bignum.c:929-938 [bn_subtract]. *)
Definition bn_subtract (a b : bn) : bn := sub_loop a b 1.
(** bignum.c:387-393 [bn_mod]. *)
Definition bn_mod (x prime : bn) : bn := bn_cmov (bn_is_less x prime) x (bn_subtract x prime).

(** bignum.c:405-422: the indices j of column i. *)
Definition column (i : nat) : list nat := if Nat.ltb i 9 then seq 0 (i + 1) else seq (i - 8) (17 - i).
(** bignum.c:405-423: the columns and the last limb. *)
Fixpoint long_loop (k x : bn) (is : list nat) (temp : Z) : list Z :=
  match is with
  | [] => [u32 temp]
  | i :: t =>
      let temp := fold_left (fun t j => u64 (t + limb k j * limb x (i - j))) (column i) temp in
      Z.land temp 0x3FFFFFFF :: long_loop k x t (Z.shiftr temp 30)
  end.
(** bignum.c:398-424 [bn_multiply_long]. *)
Definition bn_multiply_long (k x : bn) : list Z := long_loop k x (seq 0 17) 0.
(** bignum.c:437 and 439: the estimated quotient, and the assertion about it. *)
Definition reduce_coef (res : list Z) (i : nat) : Z :=
  u32 (Z.shiftr (nth i res 0) 16 + u32 (Z.shiftl (nth (i + 1) res 0) 14)).
Definition reduce_coef_assert (res : list Z) (i : nat) : bool := reduce_coef res i <? 0x80000000.
(** bignum.c:430-462 [bn_multiply_reduce_step]. *)
Definition bn_multiply_reduce_step (res : list Z) (prime : bn) (i : nat) : list Z :=
  let coef := reduce_coef res i in
  let '(l, t) := msub (firstn 9 (skipn (i - 8) res)) prime coef in
  let temp := u64 (Z.shiftr t 30 + (0x1FFFFFFF80000000 + nth (i + 1) res 0)) in
  firstn (i - 8) res ++ l ++ [Z.land temp 0x3FFFFFFF] ++ skipn (i + 2) res.
(** bignum.c:474-477: the loop, i from 16 down to 8, and its assertions. *)
Definition reduce_indices : list nat := [16; 15; 14; 13; 12; 11; 10; 9; 8]%nat.
Definition reduce_all (res : list Z) (prime : bn) : list Z :=
  fold_left (fun r i => bn_multiply_reduce_step r prime i) reduce_indices res.
Fixpoint reduce_assert (res : list Z) (prime : bn) (is : list nat) : bool :=
  match is with
  | [] => true
  | i :: t =>
      let res' := bn_multiply_reduce_step res prime i in
      reduce_coef_assert res i && (nth (i + 1) res' 0 =? 0) && reduce_assert res' prime t
  end.
(** bignum.c:469-482 [bn_multiply_reduce]. *)
Definition bn_multiply_reduce (res : list Z) (prime : bn) : bn := firstn 9 (reduce_all res prime).
(** bignum.c:488-494 [bn_multiply]: the new value of [x]. *)
Definition bn_multiply (k x prime : bn) : bn := bn_multiply_reduce (bn_multiply_long k x) prime.
(** The assertions met by [bn_multiply]. *)
Definition bn_multiply_assert (k x prime : bn) : bool := reduce_assert (bn_multiply_long k x) prime reduce_indices.

(** bignum.c:879-885: the loop of [bn_add]. *)
Fixpoint add_loop (a b : list Z) (tmp : Z) : list Z :=
  match a, b with
  | x :: a', y :: b' =>
      let tmp := u32 (tmp + (x + y)) in
      Z.land tmp 0x3FFFFFFF :: add_loop a' b' (Z.shiftr tmp 30)
  | _, _ => []
  end.
(** bignum.c:877-886 [bn_add]. *)
Definition bn_add (a b : bn) : bn := add_loop a b 0.
(** bignum.c:888-895 [bn_addmod]. *)
Definition bn_addmod (a b prime : bn) : bn :=
  bn_fast_mod (map (fun ab => u32 (fst ab + snd ab)) (combine a b)) prime.
(** bignum.c:898-904: the loop of [bn_addi]. *)
Fixpoint addi_loop (a : list Z) (tmp : Z) : list Z :=
  match a with
  | x :: a' =>
      let tmp := u32 (tmp + x) in
      Z.land tmp 0x3FFFFFFF :: addi_loop a' (Z.shiftr tmp 30)
  | [] => []
  end.
(** bignum.c:897-905 [bn_addi]. *)
Definition bn_addi (a : bn) (b : Z) : bn := addi_loop a b.
(** bignum.c:908: the assertion of [bn_subi]. *)
Definition bn_subi_assert (b : Z) (prime : bn) : bool := b <=? limb prime 0.
(** bignum.c:907-912 [bn_subi]. *)
Definition bn_subi (a : bn) (b : Z) (prime : bn) : bn :=
  match a with
  | a0 :: t => bn_add (u32 (a0 - b) :: t) prime
  | [] => []
  end.
(** bignum.c:919-926: the loop of [bn_subtractmod]. *)
Fixpoint submod_loop (a b p : list Z) (temp : Z) : list Z :=
  match a, b, p with
  | x :: a', y :: b', q :: p' =>
      let temp := u32 (temp + (0x3FFFFFFF + x + 2 * q - y)) in
      Z.land temp 0x3FFFFFFF :: submod_loop a' b' p' (Z.shiftr temp 30)
  | _, _, _ => []
  end.
(** bignum.c:917-926 [bn_subtractmod]. *)
Definition bn_subtractmod (a b prime : bn) : bn := submod_loop a b prime 1.

(** bignum.c:538-553: the inner loop of [bn_sqrt]; [last] is i == 8. *)
Fixpoint sqrt_bits (n : nat) (last : bool) (lb : Z) (x res prime : bn) : bn * bn :=
  match n with
  | O => (x, res)
  | S n' =>
      if last && (lb =? 0) then (x, res)
      else
        let res := if negb (Z.land lb 1 =? 0) then bn_multiply x res prime else res in
        sqrt_bits n' last (Z.shiftr lb 1) (bn_multiply x x prime) res prime
  end.
(** bignum.c:532-554: the outer loop. *)
Fixpoint sqrt_limbs (limbs : list Z) (x res prime : bn) : bn :=
  match limbs with
  | [] => res
  | lb :: t =>
      let '(x, res) := sqrt_bits 30 (match t with [] => true | _ => false end) lb x res prime in
      sqrt_limbs t x res prime
  end.
(** bignum.c:523-557 [bn_sqrt]. *)
Definition bn_sqrt (x prime : bn) : bn :=
  let p := bn_rshift (bn_rshift (bn_addi prime 1)) in
  bn_mod (sqrt_limbs p x bn_one prime) prime.
