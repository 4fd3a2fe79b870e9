(** Points of the curve in limbs: src/utility/trezor/ecdsa.c:40-662. The curve is secp256k1
    throughout; its coefficient a is 0. *)
From Verif Require Import Base.Bytes Model.Bignum Model.Scalar Model.Inverse Model.Stream Model.Point Model.CurveTable.
Open Scope Z_scope.

(** ecdsa.c:136-141 [point_set_infinity]. *)
Definition cp_infinity : cpoint := (bn_zero, bn_zero).
(** ecdsa.c:150-154 [point_is_equal]. *)
Definition point_is_equal (p q : cpoint) : bool := bn_is_equal (fst p) (fst q) && bn_is_equal (snd p) (snd q).
(** ecdsa.c:156-171 [point_is_negative_of]. *)
Definition point_is_negative_of (p q : cpoint) : bool :=
  if negb (bn_is_equal (fst p) (fst q)) then false
  else if bn_is_zero (snd p) then false
  else negb (bn_is_equal (snd p) (snd q)).

(** ecdsa.c:92-134 [point_double]. *)
Definition point_double (cp : cpoint) : outcome cpoint :=
  let '(x, y) := cp in
  if point_is_infinity cp then Ok cp
  else if bn_is_zero y then Ok cp_infinity
  else
    let lambda := bn_mult_k y 2 prime_limbs in
    let! lambda := bn_inverse lambda prime_limbs in
    let! xr := bn_mul x x prime_limbs in
    let xr := bn_mult_k xr 3 prime_limbs in
    let! xr := bn_subi_o xr 0 prime_limbs in
    let! lambda := bn_mul xr lambda prime_limbs in
    let! xr := bn_mul lambda lambda prime_limbs in
    let yr := bn_lshift x in
    let xr := bn_subtractmod xr yr prime_limbs in
    let xr := bn_mod (bn_fast_mod xr prime_limbs) prime_limbs in
    let yr := bn_subtractmod x xr prime_limbs in
    let! yr := bn_mul lambda yr prime_limbs in
    let yr := bn_subtractmod yr y prime_limbs in
    let yr := bn_mod (bn_fast_mod yr prime_limbs) prime_limbs in
    Ok (xr, yr).

(** ecdsa.c:46-90 [point_add]: what cp2 is afterwards. *)
Definition point_add (cp1 cp2 : cpoint) : outcome cpoint :=
  if point_is_infinity cp1 then Ok cp2
  else if point_is_infinity cp2 then Ok cp1
  else if point_is_equal cp1 cp2 then point_double cp2
  else if point_is_negative_of cp1 cp2 then Ok cp_infinity
  else
    let '(x1, y1) := cp1 in
    let '(x2, y2) := cp2 in
    let inv := bn_subtractmod x2 x1 prime_limbs in
    let! inv := bn_inverse inv prime_limbs in
    let lambda := bn_subtractmod y2 y1 prime_limbs in
    let! lambda := bn_mul inv lambda prime_limbs in
    let! xr := bn_mul lambda lambda prime_limbs in
    let yr := bn_addmod x1 x2 prime_limbs in
    let xr := bn_subtractmod xr yr prime_limbs in
    let xr := bn_mod (bn_fast_mod xr prime_limbs) prime_limbs in
    let yr := bn_subtractmod x1 xr prime_limbs in
    let! yr := bn_mul lambda yr prime_limbs in
    let yr := bn_subtractmod yr y1 prime_limbs in
    let yr := bn_mod (bn_fast_mod yr prime_limbs) prime_limbs in
    Ok (xr, yr).

(** ecdsa.c:173-188 [conditional_negate]; [cond] stands for 0xffffffff. *)
Fixpoint negate_loop (a p : list Z) (cond : bool) (tmp : Z) : list Z :=
  match a, p with
  | a0 :: a', p0 :: p' =>
      let tmp := u32 (tmp + u32 (u32 (0x3fffffff + u32 (2 * p0)) - a0)) in
      (if cond then Z.land tmp 0x3fffffff else a0) :: negate_loop a' p' cond (Z.shiftr tmp 30)
  | _, _ => []
  end.
Definition conditional_negate (cond : bool) (a prime : bn) : outcome bn :=
  if limb a 8 <? 0x20000 then
    let r := negate_loop a prime cond 1 in
    if limb r 8 <? 0x20000 then Ok r else UB
  else UB.

(** ecdsa.c:190-192 [jacobian_curve_point]. *)
Definition jpoint : Type := (bn * bn * bn)%type.

(** ecdsa.c:194-204 [generate_k_random]. Each member of the list is the nine numbers that [random32]
    gives in one round; [None] when the rounds shown do not end the loop. *)
Fixpoint generate_k_random (rounds : list (list Z)) (prime : bn) : option bn :=
  match rounds with
  | [] => None
  | w :: t =>
      let k := map (fun x => Z.land x 0x3fffffff) (firstn 8 w) ++ [Z.land (nth 8 w 0) 0xffff] in
      if bn_is_zero k || negb (bn_is_less k prime) then generate_k_random t prime else Some k
  end.

(** ecdsa.c:206-219 [curve_to_jacobian]; [z] is what [generate_k_random] gives. *)
Definition curve_to_jacobian (z : bn) (p : cpoint) : outcome jpoint :=
  let! x := bn_mul z z prime_limbs in
  let! y := bn_mul z x prime_limbs in
  let! x' := bn_mul (fst p) x prime_limbs in
  let! y' := bn_mul (snd p) y prime_limbs in
  Ok (x', y', z).

(** ecdsa.c:221-236 [jacobian_to_curve]. *)
Definition jacobian_to_curve (jp : jpoint) : outcome cpoint :=
  let '(jx, jy, jz) := jp in
  let! y := bn_inverse jz prime_limbs in
  let! x := bn_mul y y prime_limbs in
  let! y := bn_mul x y prime_limbs in
  let! x := bn_mul jx x prime_limbs in
  let! y := bn_mul jy y prime_limbs in
  Ok (bn_mod x prime_limbs, bn_mod y prime_limbs).

(** ecdsa.c:238-355 [point_jacobian_add]: what p2 is afterwards. The branches for a != 0 are left out. *)
Definition point_jacobian_add (p1 : cpoint) (p2 : jpoint) : outcome jpoint :=
  let '(x1, y1) := p1 in
  let '(x2, y2, z2) := p2 in
  let! xz := bn_mul z2 z2 prime_limbs in
  let! yz := bn_mul xz z2 prime_limbs in
  let! xz := bn_mul x1 xz prime_limbs in
  let h := bn_subtractmod xz x2 prime_limbs in
  let h := bn_fast_mod h prime_limbs in
  let xz := bn_add xz x2 in
  let is_doubling := bn_is_equal h prime_limbs in
  let! yz := bn_mul y1 yz prime_limbs in
  let r := bn_subtractmod yz y2 prime_limbs in
  let yz := bn_add yz y2 in
  let! r2 := bn_mul x2 x2 prime_limbs in
  let r2 := bn_mult_k r2 3 prime_limbs in
  let r := bn_cmov is_doubling r2 r in
  let h := bn_cmov is_doubling yz h in
  let! hsqx := bn_mul h h prime_limbs in
  let! hcby := bn_mul hsqx h prime_limbs in
  let! hsqx := bn_mul xz hsqx prime_limbs in
  let! hcby := bn_mul yz hcby prime_limbs in
  let! z3 := bn_mul h z2 prime_limbs in
  let! x3 := bn_mul r r prime_limbs in
  let x3 := bn_subtractmod x3 hsqx prime_limbs in
  let x3 := bn_fast_mod x3 prime_limbs in
  let y3 := bn_subtractmod hsqx x3 prime_limbs in
  let y3 := bn_subtractmod y3 x3 prime_limbs in
  let! y3 := bn_mul r y3 prime_limbs in
  let y3 := bn_subtractmod y3 hcby prime_limbs in
  let y3 := bn_mult_half y3 prime_limbs in
  let y3 := bn_fast_mod y3 prime_limbs in
  Ok (x3, y3, z3).

(** ecdsa.c:357-423 [point_jacobian_double]. *)
Definition point_jacobian_double (p : jpoint) : outcome jpoint :=
  let '(x, y, z) := p in
  let! m := bn_mul x x prime_limbs in
  let m := bn_mult_k m 3 prime_limbs in
  let! az4 := bn_mul z z prime_limbs in
  let! az4 := bn_mul az4 az4 prime_limbs in
  let az4 := bn_mult_k az4 0 prime_limbs in
  let m := bn_subtractmod m az4 prime_limbs in
  let m := bn_mult_half m prime_limbs in
  let! msq := bn_mul m m prime_limbs in
  let! ysq := bn_mul y y prime_limbs in
  let! xysq := bn_mul ysq x prime_limbs in
  let! z3 := bn_mul y z prime_limbs in
  let x3 := bn_lshift xysq in
  let x3 := bn_fast_mod x3 prime_limbs in
  let x3 := bn_subtractmod msq x3 prime_limbs in
  let x3 := bn_fast_mod x3 prime_limbs in
  let y3 := bn_subtractmod xysq x3 prime_limbs in
  let! y3 := bn_mul m y3 prime_limbs in
  let! y4 := bn_mul ysq ysq prime_limbs in
  let y3 := bn_subtractmod y3 y4 prime_limbs in
  let y3 := bn_fast_mod y3 prime_limbs in
  Ok (x3, y3, z3).

(** ecdsa.c:439-458 and 557-575: k + 2^256, less the order when k is even. *)
Fixpoint odd_loop (k order : list Z) (is_even : bool) (tmp : Z) : list Z :=
  match k, order with
  | [k0], [o0] => [u32 (u32 (u32 (tmp + 0xffff) + k0) - (if is_even then o0 else 0))]
  | k0 :: k', o0 :: o' =>
      let tmp := u32 (tmp + u32 (u32 (0x3fffffff + k0) - (if is_even then o0 else 0))) in
      Z.land tmp 0x3fffffff :: odd_loop k' o' is_even (Z.shiftr tmp 30)
  | _, _ => []
  end.
Definition make_odd (k : bn) : bn := odd_loop k order_limbs (Z.land (limb k 0) 1 =? 0) 1.

(** Reading from an array of points. *)
Definition aget_pt (l : list cpoint) (i : nat) : outcome cpoint :=
  match nth_error l i with Some p => Ok p | None => UB end.

(** The bits of a window and whether its digit is negative: ecdsa.c:501-504, 528-531 and 604-606.
    The windows have five bits, so (bits >> 4) - 1 is 0 or 0xffffffff. *)
Definition window_neg (bits : Z) : bool := Z.shiftr bits 4 =? 0.
Definition window_idx (bits : Z) : nat :=
  Z.to_nat (Z.shiftr (Z.land (if window_neg bits then Z.lxor bits 0xffffffff else bits) 15) 1).

(** ecdsa.c:481-489: the odd multiples p, 3p, ..., 15p. *)
Fixpoint odd_multiples (n : nat) (last twice : cpoint) : outcome (list cpoint) :=
  match n with
  | O => Ok []
  | S n => let! next := point_add last twice in
           let! l := odd_multiples n next twice in Ok (next :: l)
  end.
Definition point_table (p : cpoint) : outcome (list cpoint) :=
  let! twice := point_double p in
  let! l := odd_multiples 7 p twice in Ok (p :: l).

(** ecdsa.c:506-540: the loop; the limb [idx] is *aptr. *)
Fixpoint multiply_loop (n : nat) (a : bn) (table : list cpoint) (idx ashift : Z) (neg : bool) (jres : jpoint) : outcome (jpoint * bool) :=
  match n with
  | O => Ok (jres, neg)
  | S n =>
      let! jres := point_jacobian_double jres in
      let! jres := point_jacobian_double jres in
      let! jres := point_jacobian_double jres in
      let! jres := point_jacobian_double jres in
      let! abits := aget a idx in
      let ashift := ashift - 4 in
      let! t := (if ashift <? 0 then
                   let bits := u32 (Z.shiftl abits (- ashift)) in
                   let! abits := aget a (idx - 1) in
                   Ok (Z.lor bits (Z.shiftr abits (ashift + 30)), idx - 1, ashift + 30)
                 else Ok (Z.shiftr abits ashift, idx, ashift)) in
      let '(bits, idx, ashift) := t in
      let bits := Z.land bits 31 in
      let nneg := window_neg bits in
      let '(x, y, z) := jres in
      let! z := conditional_negate (xorb neg nneg) z prime_limbs in
      let! q := aget_pt table (window_idx bits) in
      let! jres := point_jacobian_add q (x, y, z) in
      multiply_loop n a table idx ashift nneg jres
  end.

(** ecdsa.c:425-545 [point_multiply]; [rz] is what [generate_k_random] gives. *)
Definition point_multiply (rz : bn) (k : bn) (p : cpoint) : outcome cpoint :=
  if negb (bn_is_less k order_limbs) then UB
  else
    let a := make_odd k in
    if Z.land (limb a 0) 1 =? 0 then UB
    else if bn_is_zero k then Ok cp_infinity
    else
      let! table := point_table p in
      let! abits := aget a 8 in
      let bits := Z.shiftr abits 12 in
      let neg := window_neg bits in
      let! q := aget_pt table (window_idx bits) in
      let! jres := curve_to_jacobian rz q in
      let! r := multiply_loop 63 a table 8 12 neg jres in
      let '((x, y, z), neg) := r in
      let! z := conditional_negate neg z prime_limbs in
      jacobian_to_curve (x, y, z).

(** ecdsa.c:612-615: a is shifted by 4 places. *)
Fixpoint shift4 (a : list Z) : list Z :=
  match a with
  | a0 :: (a1 :: _) as t => Z.lor (Z.shiftr a0 4) (u32 (Z.shiftl (Z.land a1 15) 26)) :: shift4 t
  | [a0] => [Z.shiftr a0 4]
  | [] => []
  end.
(** ecdsa.c:608-628: the loop over the rows of the table. *)
Fixpoint scalar_loop (rows : list (list cpoint)) (a : bn) (jres : jpoint) : outcome (jpoint * bn) :=
  match rows with
  | [] => Ok (jres, a)
  | row :: rows =>
      let a := shift4 a in
      let bits := Z.land (limb a 0) 31 in
      let lowbits := Z.land (if window_neg bits then Z.lxor bits 0xffffffff else bits) 15 in
      let '(x, y, z) := jres in
      let! y := conditional_negate (Z.land lowbits 1 =? 0) y prime_limbs in
      let! q := aget_pt row (window_idx bits) in
      let! jres := point_jacobian_add q (x, y, z) in
      scalar_loop rows a jres
  end.
(** ecdsa.c:549-633 [scalar_multiply]. *)
Definition scalar_multiply (rz : bn) (k : bn) : outcome cpoint :=
  if negb (bn_is_less k order_limbs) then UB
  else
    let a := make_odd k in
    if Z.land (limb a 0) 1 =? 0 then UB
    else if bn_is_zero k then Ok cp_infinity
    else
      let bits := Z.land (limb a 0) 31 in
      let! q := aget_pt (nth 0 cp_table []) (window_idx bits) in
      let! jres := curve_to_jacobian rz q in
      let! r := scalar_loop (tl cp_table) a jres in
      let '((x, y, z), a) := r in
      let! y := conditional_negate (Z.land (Z.shiftr (limb a 0) 4) 1 =? 0) y prime_limbs in
      jacobian_to_curve (x, y, z).
