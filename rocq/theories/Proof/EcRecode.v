(** The signed digits of a scalar. *)
From Coq Require Import Lia Znumtheory.
From Verif Require Import Base.Bytes Base.BytesFacts Spec.Bignum Spec.Keys Spec.Point Model.Bignum Model.Scalar Model.Stream Model.Point Model.EC
  Proof.BnCore Proof.BnRed Proof.BnIo Proof.ScalarProps Proof.PointFacts.
From Verif Require Proof.HashWords.
Open Scope Z_scope.
Local Notation B := (2^30).

Lemma odd_loop_spec : forall k o e t, length k = length o -> k <> [] -> words_ok B k -> words_ok B o -> last k 0 <= 65535 -> last o 0 <= 65535 -> 0 <= t <= 1 ->
  bn_val (odd_loop k o e t) = t - 1 + 2^16 * B ^ (len k - 1) + bn_val k - (if e then bn_val o else 0) /\ words_ok B (odd_loop k o e t) /\ length (odd_loop k o e t) = length k.
Proof.
  induction k as [|x k IH]; intros [|y o] e t L N Hk Ho Lk Lo T; try discriminate; [contradiction|]. inversion Hk as [|? ? X Hk']. inversion Ho as [|? ? Y Ho']. subst.
  destruct k as [|x1 k].
  - destruct o; [|discriminate]. cbn [odd_loop last] in *. change (len [x] - 1) with 0. rewrite Z.pow_0_r, !bn_val_cons, !bn_val_nil.
    assert (E : u32 (u32 (u32 (t + 65535) + x) - (if e then y else 0)) = t + 65535 + x - (if e then y else 0)) by (rewrite (u32_id (t + 65535)), (u32_id (t + 65535 + x)) by lia; apply u32_id; destruct e; lia).
    rewrite E. split; [destruct e; lia|]. split; [|reflexivity]. constructor; [destruct e; lia|constructor].
  - destruct o as [|y1 o]; [discriminate|].
    change (odd_loop (x :: x1 :: k) (y :: y1 :: o) e t) with (let t := u32 (t + u32 (u32 (1073741823 + x) - (if e then y else 0))) in Z.land t 1073741823 :: odd_loop (x1 :: k) (y1 :: o) e (Z.shiftr t 30)).
    cbv zeta. rewrite (u32_id (1073741823 + x)) by lia. rewrite (u32_id (1073741823 + x - _)) by (destruct e; lia). rewrite u32_id by (destruct e; lia).
    rewrite land_mask, shr30. set (s := t + (1073741823 + x - (if e then y else 0))) in *.
    assert (S : 0 <= s < 2 * B) by (subst s; destruct e; lia).
    destruct (IH (y1 :: o) e (s / B)) as (V & W & M); auto; try discriminate.
    { clear - S. dlia. }
    split; [|split; [constructor; [apply Z.mod_pos_bound; lia|exact W]|cbn [length] in *; lia]].
    rewrite (bn_val_cons (s mod B)), V, (bn_val_cons x), (bn_val_cons y). replace (len (x :: x1 :: k) - 1) with (1 + (len (x1 :: k) - 1)) by (unfold len; cbn [length]; lia).
    rewrite Z.pow_add_r by (unfold len; cbn [length]; lia). pose proof (Z.div_mod s B ltac:(lia)). subst s. destruct e; lia.
Qed.
Lemma last_limb : forall x : list Z, length x = 9%nat -> last x 0 = limb x 8.
Proof. intros x L. destruct x as [|x0 [|x1 [|x2 [|x3 [|x4 [|x5 [|x6 [|x7 [|x8 [|]]]]]]]]]]; try discriminate. reflexivity. Qed.
Lemma order_top : last order_limbs 0 <= 65535. Proof. vm_compute. discriminate. Qed.
Lemma last_small : forall x, normalized x -> bn_val x < 2^256 -> last x 0 <= 65535.
Proof.
  intros x [L W] V. destruct x as [|x0 [|x1 [|x2 [|x3 [|x4 [|x5 [|x6 [|x7 [|x8 [|]]]]]]]]]]; try discriminate. cbn [last].
  rewrite !bn_val_cons, bn_val_nil in V. repeat match goal with H : words_ok _ (_ :: _) |- _ => inversion H; clear H; subst end. 
  repeat match goal with H : Forall _ (_ :: _) |- _ => inversion H; clear H; subst end. lia.
Qed.
Lemma order_limits : 2^255 < group_order < 2^256 /\ group_order mod 2 = 1. Proof. vm_compute. auto. Qed.
Lemma limb0_mod : forall x m, normalized x -> 0 < m -> (m | B) -> limb x 0 mod m = bn_val x mod m.
Proof.
  intros x m [L W] M [c D]. destruct x as [|x0 x]; [discriminate|]. unfold limb. cbn [nth]. rewrite bn_val_cons, D.
  replace (x0 + c * m * bn_val x) with (x0 + c * bn_val x * m) by ring. rewrite Z.mod_add by lia. reflexivity.
Qed.
Lemma div_two : (2 | B). Proof. exists (2^29). reflexivity. Qed.
Lemma div_32 : (32 | B). Proof. exists (2^25). reflexivity. Qed.
(** The odd number whose digits are taken. *)
Definition odd_scalar (k : Z) : Z := 2^256 + k - (if k mod 2 =? 0 then group_order else 0).
Lemma odd_scalar_range : forall k, 0 <= k < group_order -> 0 < odd_scalar k < 2^257 /\ odd_scalar k mod 2 = 1.
Proof.
  intros k K. unfold odd_scalar. pose proof order_limits as [R O]. split; [destruct (k mod 2 =? 0); lia|].
  destruct (k mod 2 =? 0) eqn:E; [apply Z.eqb_eq in E|apply Z.eqb_neq in E].
  - replace (2^256 + k - group_order) with (k - group_order + 2^255 * 2) by lia. rewrite Z.mod_add, Zminus_mod, E, O by lia. reflexivity.
  - replace (2^256 + k - 0) with (k + 2^255 * 2) by lia. rewrite Z.mod_add by lia. pose proof (Z.mod_pos_bound k 2 ltac:(lia)). lia.
Qed.
Lemma make_odd_ok : forall k, normalized k -> bn_val k < group_order -> normalized (make_odd k) /\ bn_val (make_odd k) = odd_scalar (bn_val k).
Proof.
  intros k N V. pose proof order_limits as [R _]. unfold make_odd. pose proof (proj1 order_modulus) as [LO WO]. pose proof N as [LK WK].
  assert (NE : k <> []) by (intros ->; discriminate).
  destruct (odd_loop_spec k order_limbs (Z.land (limb k 0) 1 =? 0) 1 (eq_trans LK (eq_sym LO)) NE WK WO (last_small k N ltac:(lia)) order_top ltac:(lia)) as (E & W & L).
  split; [split; [congruence|exact W]|]. rewrite E, order_val. unfold odd_scalar. rewrite land1. rewrite (limb0_mod k 2 N ltac:(lia) div_two).
  unfold len. rewrite LK. change (2^16 * B ^ (Z.of_nat 9 - 1)) with (2^256). lia.
Qed.

(** ** Digits *)
Definition digit (w : Z) : Z := 2 * (w / 2) + 1 - 16.
Definition odd_part (q : Z) : Z := 2 * (q / 2) + 1.
Lemma digit_ok : forall w, 0 <= w < 32 -> (window_idx w < 8)%nat /\ 2 * Z.of_nat (window_idx w) + 1 = Z.abs (digit w) /\ window_neg w = (digit w <? 0) /\ -16 < digit w < 16.
Proof.
  intros w W.
  assert (C : forallb (fun n => let w := Z.of_nat n in Nat.ltb (window_idx w) 8 && (2 * Z.of_nat (window_idx w) + 1 =? Z.abs (digit w)) && Bool.eqb (window_neg w) (digit w <? 0)) (seq 0 32) = true) by (vm_compute; reflexivity).
  rewrite forallb_forall in C. specialize (C (Z.to_nat w) ltac:(apply in_seq; lia)). cbv zeta in C. rewrite Z2Nat.id in C by lia.
  apply andb_true_iff in C as [C D]. apply andb_true_iff in C as [A C]. apply Nat.ltb_lt in A. apply Z.eqb_eq in C. apply Bool.eqb_prop in D.
  split; [auto|]. split; [auto|]. split; [auto|]. unfold digit. clear - W. dlia.
Qed.
Lemma digit_step : forall q, 0 <= q -> odd_part q = 16 * odd_part (q / 16) + digit (q mod 32).
Proof. intros q Q. unfold odd_part, digit. dlia. Qed.
Lemma odd_part_odd : forall a, a mod 2 = 1 -> odd_part a = a.
Proof. intros a A. unfold odd_part. dlia. Qed.

(** The sums S_i = A_i - 16^(64-i) from the top and T_i = a - 16^i A_i from the bottom. *)
Definition apart (a i : Z) : Z := odd_part (a / 16 ^ i).
Lemma pow16_pos : forall i, 0 <= i -> 0 < 16 ^ i. Proof. intros. apply Z.pow_pos_nonneg; lia. Qed.
Lemma div16_succ : forall a i, 0 <= i -> a / 16 ^ (i + 1) = a / 16 ^ i / 16.
Proof. intros a i I. rewrite Z.pow_add_r, Z.pow_1_r by lia. rewrite Z.div_div by (pose proof (pow16_pos i I); lia). reflexivity. Qed.
Lemma apart_step : forall a i, 0 <= a -> 0 <= i -> apart a i = 16 * apart a (i + 1) + digit ((a / 16 ^ i) mod 32).
Proof. intros a i A I. unfold apart. rewrite div16_succ by auto. apply digit_step. apply Z.div_pos; [auto|apply pow16_pos; auto]. Qed.
Lemma apart_0 : forall a, a mod 2 = 1 -> apart a 0 = a.
Proof. intros a A. unfold apart. rewrite Z.pow_0_r, Z.div_1_r. apply odd_part_odd; auto. Qed.
Lemma apart_64 : forall a, 0 <= a < 2^257 -> apart a 64 = 1.
Proof.
  intros a A. unfold apart, odd_part. change (16^64) with (2^256). assert (0 <= a / 2^256 < 2) by (split; [apply Z.div_pos; lia|apply Z.div_lt_upper_bound; lia]).
  rewrite (Z.div_small (a / 2^256) 2) by lia. reflexivity.
Qed.
Lemma apart_range : forall a i, 0 <= a < 2^257 -> 0 <= i <= 64 -> 0 < apart a i < 2 * 16 ^ (64 - i).
Proof.
  intros a i A I. unfold apart, odd_part. pose proof (pow16_pos i ltac:(lia)). pose proof (pow16_pos (64 - i) ltac:(lia)).
  assert (E : 16 ^ i * 16 ^ (64 - i) = 2^256) by (rewrite <- Z.pow_add_r by lia; replace (i + (64 - i)) with 64 by lia; reflexivity).
  assert (Q : 0 <= a / 16 ^ i < 2 * 16 ^ (64 - i)) by (split; [apply Z.div_pos; lia|apply Z.div_lt_upper_bound; lia]). clear - Q H0. dlia.
Qed.
Lemma apart_mod : forall a i, apart a i mod 2 = 1.
Proof. intros. unfold apart, odd_part. dlia. Qed.
Lemma pow16_even : forall i, 0 < i -> 16 ^ i mod 2 = 0.
Proof. intros i I. replace i with (i - 1 + 1) by lia. rewrite Z.pow_add_r, Z.pow_1_r by lia. replace (16 ^ (i - 1) * 16) with (16 ^ (i - 1) * 8 * 2) by ring. apply Z.mod_mul. lia. Qed.
Definition top_sum (a i : Z) : Z := apart a i - 16 ^ (64 - i).
Definition low_sum (a i : Z) : Z := a - 16 ^ i * apart a i.
Lemma top_step : forall a i, 0 <= a -> 0 <= i < 64 -> top_sum a i = 16 * top_sum a (i + 1) + digit ((a / 16 ^ i) mod 32).
Proof.
  intros a i A I. unfold top_sum. rewrite (apart_step a i) by lia. replace (64 - i) with (1 + (64 - (i + 1))) by lia. rewrite (Z.pow_add_r 16 1) by lia. lia.
Qed.
Lemma low_step : forall a i, 0 <= a -> 0 <= i -> low_sum a (i + 1) = low_sum a i + 16 ^ i * digit ((a / 16 ^ i) mod 32).
Proof. intros a i A I. unfold low_sum. rewrite (apart_step a i) by lia. rewrite Z.pow_add_r, Z.pow_1_r by lia. lia. Qed.
Lemma odd_nz : forall x, x mod 2 = 1 -> x <> 0. Proof. intros x H ->. discriminate. Qed.
Lemma odd_minus : forall x y, x mod 2 = 1 -> y mod 2 = 0 -> (x - y) mod 2 = 1.
Proof. intros x y X Y. rewrite Zminus_mod, X, Y. reflexivity. Qed.
Lemma small_ndiv : forall n x, 0 < n -> - n < x < n -> x <> 0 -> ~ (n | x).
Proof. intros n x N X NZ [q E]. assert (q <> 0) by (intros ->; lia). assert (q <= -1 \/ 1 <= q) as [Q|Q] by lia; nia. Qed.
Lemma top_ndiv : forall k i, 0 < k < group_order -> 0 <= i < 64 -> ~ (group_order | top_sum (odd_scalar k) i).
Proof.
  intros k i K I. pose proof order_limits as [R _]. destruct (odd_scalar_range k) as [A O]; [lia|]. destruct (Z.eq_dec i 0) as [->|NI].
  - unfold top_sum. rewrite apart_0 by auto. change (16 ^ (64 - 0)) with (2^256). unfold odd_scalar. apply small_ndiv; [lia| |]; destruct (k mod 2 =? 0); lia.
  - pose proof (apart_range (odd_scalar k) i ltac:(lia) ltac:(lia)). assert (16 ^ (64 - i) <= 16 ^ 63) by (apply Z.pow_le_mono_r; lia). assert (16 ^ 63 < group_order) by (vm_compute; auto).
    apply small_ndiv; [lia|unfold top_sum; lia|]. apply odd_nz. apply odd_minus; [apply apart_mod|apply pow16_even; lia].
Qed.
Lemma low_bound : forall a i, a mod 2 = 1 -> 0 <= a -> 0 <= i -> - 16 ^ i < low_sum a i < 16 ^ i.
Proof.
  intros a i O A I. unfold low_sum, apart, odd_part. pose proof (pow16_pos i I) as PP. pose proof (Z.div_mod a (16 ^ i) ltac:(lia)) as D. pose proof (Z.mod_pos_bound a (16 ^ i) PP) as M.
  set (q := a / 16 ^ i) in *. set (r := a mod 16 ^ i) in *. clearbody q r. destruct (Z.eq_dec i 0) as [->|NI].
  - rewrite Z.pow_0_r in *. assert (r = 0) by lia. assert (a = q) by lia. subst q. clear - O. dlia.
  - assert (RO : r <> 0).
    { intros ->. pose proof (pow16_even i ltac:(lia)) as PE. assert (a mod 2 = 0); [|lia]. rewrite D, Z.add_0_r, Z.mul_mod, PE by lia. reflexivity. }
    assert (QQ : 2 * (q / 2) + 1 = q \/ 2 * (q / 2) + 1 = q + 1) by (clear; dlia). destruct QQ as [-> | ->]; nia.
Qed.
Lemma low_ndiv : forall k i, 0 < k < group_order -> 0 < i <= 64 -> ~ (group_order | low_sum (odd_scalar k) i).
Proof.
  intros k i K I. pose proof order_limits as [R _]. destruct (odd_scalar_range k) as [A O]; [lia|]. destruct (Z.eq_dec i 64) as [->|NI].
  - unfold low_sum. rewrite apart_64 by lia. change (16 ^ 64) with (2^256). unfold odd_scalar. apply small_ndiv; [lia| |]; destruct (k mod 2 =? 0); lia.
  - pose proof (low_bound (odd_scalar k) i O ltac:(lia) ltac:(lia)). assert (16 ^ i <= 16 ^ 63) by (apply Z.pow_le_mono_r; lia). assert (16 ^ 63 < group_order) by (vm_compute; auto).
    apply small_ndiv; [lia|lia|]. apply odd_nz. unfold low_sum. apply odd_minus; [auto|]. rewrite Z.mul_mod, pow16_even by lia. reflexivity.
Qed.

(** ** Windows of a number in limbs *)
Lemma limb_range : forall x i, normalized x -> 0 <= limb x i < B.
Proof.
  intros x i [L W]. unfold limb. destruct (Nat.lt_ge_cases i (length x)); [|rewrite nth_overflow by auto; lia]. apply (proj1 (Forall_forall _ _) W). apply nth_In. auto.
Qed.
Lemma limb_div : forall (i : nat) x, normalized x -> exists r, bn_val x / B ^ Z.of_nat i = limb x i + B * (limb x (S i) + B * r).
Proof.
  assert (G : forall (i : nat) x, words_ok B x -> exists r, bn_val x / B ^ Z.of_nat i = limb x i + B * (limb x (S i) + B * r)).
  { induction i as [|i IH]; intros x W.
    - rewrite Z.pow_0_r, Z.div_1_r. destruct x as [|x0 [|x1 x]]; unfold limb; cbn [nth]; rewrite ?bn_val_cons, ?bn_val_nil; [exists 0; reflexivity|exists 0; ring|exists (bn_val x); ring].
    - destruct x as [|x0 x]. { exists 0. unfold limb. destruct i; cbn [nth]; rewrite bn_val_nil, Z.div_0_l by (apply Z.pow_nonzero; lia); reflexivity. }
      inversion W; subst. destruct (IH x) as [r E]; auto. exists r. unfold limb in *. cbn [nth] in *. rewrite <- E. rewrite Nat2Z.inj_succ, Z.pow_succ_r by lia. rewrite <- Z.div_div by lia.
      f_equal. rewrite bn_val_cons. clear - H1. rewrite (Z.mul_comm B), Z.div_add by lia. rewrite Z.div_small by lia. lia. }
  intros i x [_ W]. apply G; auto.
Qed.
Lemma land31m : forall x, Z.land x 31 = x mod 32.
Proof. intros x. change 31 with (Z.ones 5). rewrite Z.land_ones by lia. reflexivity. Qed.
Lemma lor_sum : forall a b n, 0 <= n -> 0 <= a < 2 ^ n -> 0 <= b -> Z.lor (b * 2 ^ n) a = b * 2 ^ n + a.
Proof.
  intros a b n N A C. rewrite Z.lor_comm, (HashWords.lor_add a b n) by auto. apply Z.add_comm.
Qed.
Lemma window_split : forall a (i : nat) s, normalized a -> 0 <= s < 30 -> (bn_val a / 2 ^ (30 * Z.of_nat i + s)) mod 32 = (limb a i / 2 ^ s + limb a (S i) * 2 ^ (30 - s)) mod 32.
Proof.
  intros a i s N S. destruct (limb_div i a N) as [r E]. rewrite Z.pow_add_r by lia. rewrite <- Z.div_div by (try apply Z.pow_nonzero; try apply Z.pow_pos_nonneg; lia).
  rewrite Z.pow_mul_r by lia. rewrite E. set (x := limb a i). set (y := limb a (Datatypes.S i)).
  replace (x + B * (y + B * r)) with (x + (y * 2 ^ (30 - s) + r * 2 ^ (25 - (s - 30)) * 32) * 2 ^ s).
  2:{ rewrite Z.mul_add_distr_r. replace (y * 2 ^ (30 - s) * 2 ^ s) with (y * (2 ^ (30 - s) * 2 ^ s)) by ring. rewrite <- Z.pow_add_r by lia. replace (30 - s + s) with 30 by lia.
      replace (r * 2 ^ (25 - (s - 30)) * 32 * 2 ^ s) with (r * 2^5 * (2 ^ (25 - (s - 30)) * 2 ^ s)) by ring. rewrite <- Z.pow_add_r by lia. replace (25 - (s - 30) + s) with 55 by lia. ring. }
  rewrite Z.div_add by (apply Z.pow_nonzero; lia). rewrite Z.add_assoc, Z.mod_add by lia. reflexivity.
Qed.
Lemma window_low : forall a (i : nat) s, normalized a -> 0 <= s <= 25 -> Z.land (Z.shiftr (limb a i) s) 31 = (bn_val a / 2 ^ (30 * Z.of_nat i + s)) mod 32.
Proof.
  intros a i s N S. rewrite window_split by (auto; lia). rewrite land31m, Z.shiftr_div_pow2 by lia. replace (30 - s) with (25 - s + 5) by lia. rewrite Z.pow_add_r by lia.
  change (2^5) with 32. rewrite Z.mul_assoc, Z.mod_add by lia. reflexivity.
Qed.
Lemma window_high : forall a (i : nat) s, normalized a -> 26 <= s < 30 ->
  Z.land (Z.lor (u32 (Z.shiftl (limb a (S i)) (30 - s))) (Z.shiftr (limb a i) s)) 31 = (bn_val a / 2 ^ (30 * Z.of_nat i + s)) mod 32.
Proof.
  intros a i s N S. rewrite window_split by (auto; lia). rewrite land31m, Z.shiftr_div_pow2, Z.shiftl_mul_pow2 by lia. unfold u32.
  pose proof (limb_range a i N) as R0. pose proof (limb_range a (Datatypes.S i) N) as R1. set (x := limb a i) in *. set (y := limb a (Datatypes.S i)) in *. clearbody x y.
  assert (E : (y * 2 ^ (30 - s)) mod 2^32 = (y mod 2 ^ (2 + s)) * 2 ^ (30 - s)).
  { replace (2^32) with (2 ^ (2 + s) * 2 ^ (30 - s)) by (rewrite <- Z.pow_add_r by lia; f_equal; lia). apply Z.mul_mod_distr_r; apply Z.pow_nonzero; lia. }
  rewrite E, lor_sum.
  - rewrite Z.add_comm, <- E. rewrite (Z.add_mod (x / 2 ^ s)), <- (Znumtheory.Zmod_div_mod 32 (2^32)), <- Z.add_mod; try lia. exists (2^27). reflexivity.
  - lia.
  - split; [apply Z.div_pos; [lia|apply Z.pow_pos_nonneg; lia]|]. apply Z.div_lt_upper_bound; [apply Z.pow_pos_nonneg; lia|]. rewrite <- Z.pow_add_r by lia. replace (s + (30 - s)) with 30 by lia. lia.
  - apply Z.mod_pos_bound. apply Z.pow_pos_nonneg; lia.
Qed.
(** ** The shift by four places *)
Lemma shift4_limb : forall a b, 0 <= a < B -> 0 <= b < B -> Z.lor (Z.shiftr a 4) (u32 (Z.shiftl (Z.land b 15) 26)) = a / 16 + 2^26 * (b mod 16).
Proof.
  intros a b A C. rewrite Z.shiftr_div_pow2, Z.shiftl_mul_pow2 by lia. change 15 with (Z.ones 4). rewrite Z.land_ones by lia. change (2^4) with 16.
  assert (0 <= b mod 16 < 16) by (apply Z.mod_pos_bound; lia). rewrite u32_id by lia. rewrite Z.lor_comm, lor_sum; [ring|lia| |lia]. clear - A. dlia.
Qed.
Lemma shift4_ok : forall a, normalized a -> normalized (shift4 a) /\ bn_val (shift4 a) = bn_val a / 16.
Proof.
  assert (G : forall a, words_ok B a -> words_ok B (shift4 a) /\ length (shift4 a) = length a /\ bn_val (shift4 a) = bn_val a / 16).
  { induction a as [|x a IH]; intros W; [split; [constructor|split; reflexivity]|]. inversion W as [|? ? X W']; subst. destruct (IH W') as (W2 & L2 & V2). destruct a as [|y a].
    - cbn [shift4]. rewrite !bn_val_cons, bn_val_nil, Z.shiftr_div_pow2 by lia. change (2^4) with 16. split; [constructor; [clear - X; dlia|constructor]|]. split; [reflexivity|]. rewrite !Z.mul_0_r, !Z.add_0_r. reflexivity.
    - inversion W' as [|? ? Y W'']; subst. change (shift4 (x :: y :: a)) with (Z.lor (Z.shiftr x 4) (u32 (Z.shiftl (Z.land y 15) 26)) :: shift4 (y :: a)). rewrite shift4_limb by auto.
      split; [constructor; [clear - X Y; dlia|exact W2]|]. split; [cbn [length] in *; lia|]. rewrite bn_val_cons, V2, (bn_val_cons x), bn_val_cons.
      set (r := bn_val a). clearbody r. clear - X Y. dlia. }
  intros a [L W]. destruct (G a W) as (W2 & L2 & V2). split; [split; [congruence|auto]|auto].
Qed.
