(** The second phase of bn_inverse and its result. *)
From Coq Require Import Lia Znumtheory Zpow_facts.
From Verif Require Import Base.Bytes Base.BytesFacts Spec.Bignum Model.Bignum Model.Inverse Proof.BnCore Proof.BnRed Proof.BnMul Proof.InvRegs Proof.InvLoop.
Open Scope Z_scope.

(** Conversions. *)
Lemma to32_loop_spec : forall l i t, words_ok B l -> 0 <= i -> i + len l <= 15 -> 0 <= t < 2^(30 - 2*i) ->
  words_ok W (to32_loop l i t) /\ length (to32_loop l i t) = length l /\ le_val W (to32_loop l i t) = (t + 2^(30 - 2*i) * bn_val l) mod W ^ len l.
Proof.
  induction l as [|x l IH]; intros i t H Hi Hl Ht.
  - cbn [to32_loop]. split; [apply Forall_nil|]. split; [reflexivity|]. rewrite len_nil, Z.pow_0_r, Z.mod_1_r. reflexivity.
  - inversion H as [|? ? Hx Hl']; subst. rewrite len_cons in *. pose proof (len_nonneg _ l) as LN. cbn [to32_loop].
    assert (P : W = 2^(2 + 2*i) * 2^(30 - 2*i)) by (rewrite <- Z.pow_add_r by lia; f_equal; lia).
    assert (P0 : 0 < 2^(2 + 2*i)) by (apply Z.pow_pos_nonneg; lia). assert (P1 : 0 < 2^(30 - 2*i)) by (apply Z.pow_pos_nonneg; lia).
    rewrite Z.shiftl_mul_pow2, Z.shiftr_div_pow2 by lia.
    assert (U : u32 (x * 2^(30 - 2*i)) = (x mod 2^(2 + 2*i)) * 2^(30 - 2*i)) by (unfold u32; rewrite P, Z.mul_mod_distr_r by lia; reflexivity).
    rewrite U, Z.lor_comm, lor_add by lia. pose proof (Z.mod_pos_bound x (2^(2 + 2*i)) ltac:(lia)) as MB.
    assert (RB : 0 <= x mod 2^(2 + 2*i) * 2^(30 - 2*i) + t < W).
    { split; [lia|]. rewrite P. pose proof (Z.mul_le_mono_nonneg_r (x mod 2^(2 + 2*i)) (2^(2 + 2*i) - 1) (2^(30 - 2*i)) ltac:(lia) ltac:(lia)). lia. }
    assert (XB : 0 <= x / 2^(2 + 2*i) < 2^(30 - 2*(i + 1))).
    { split; [apply Z.div_pos; lia|]. apply Z.div_lt_upper_bound; [lia|]. rewrite <- Z.pow_add_r by lia. replace (2 + 2*i + (30 - 2*(i+1))) with 30 by lia. lia. }
    destruct (IH (i + 1) (x / 2^(2 + 2*i)) Hl' ltac:(lia) ltac:(lia) XB) as (A & C & D).
    split; [constructor; auto|]. split; [cbn [length]; lia|]. rewrite le_cons, D, bn_val_cons.
    set (T := t + 2^(30 - 2*i) * x).
    assert (TM : T mod W = x mod 2^(2 + 2*i) * 2^(30 - 2*i) + t /\ T / W = x / 2^(2 + 2*i)).
    { assert (E : T = W * (x / 2^(2 + 2*i)) + (x mod 2^(2 + 2*i) * 2^(30 - 2*i) + t)).
      { unfold T. pose proof (Z.div_mod x (2^(2 + 2*i)) ltac:(lia)) as DX. rewrite P. set (q := x / 2^(2+2*i)) in *. set (r := x mod 2^(2+2*i)) in *. rewrite DX. ring. }
      split; symmetry; [apply (Z.mod_unique_pos _ _ (x / 2^(2 + 2*i)))|apply (Z.div_unique_pos _ _ _ (x mod 2^(2 + 2*i) * 2^(30 - 2*i) + t))]; auto. }
    destruct TM as [T1 T2]. rewrite <- T1, <- T2. apply mod_low; [auto|]. f_equal. unfold T.
    replace (2^30) with (2^(30 - 2*(i+1)) * 2^(2 + 2*i)) by (rewrite <- Z.pow_add_r by lia; f_equal; lia).
    rewrite P. ring.
Qed.
Lemma to32_spec : forall x, normalized x -> bn_val x < 2^256 -> words_ok W (to32 x) /\ length (to32 x) = 8%nat /\ le_val W (to32 x) = bn_val x.
Proof.
  intros x [L H] V. destruct x as [|d l]; [discriminate|]. cbn [length] in L. inversion H as [|? ? Hd Hl]; subst.
  unfold to32. cbn [tl]. change (limb (d :: l) 0) with d. assert (LL : len l = 8) by (unfold len; lia).
  destruct (to32_loop_spec l 0 d Hl) as (A & C & D); [lia|lia|exact Hd|]. split; auto. split; [lia|].
  rewrite D, LL, bn_val_cons. apply Z.mod_small. rewrite bn_val_cons in V. pose proof (bn_val_upper l Hl). change (W^8) with (2^256). change (2^(30-2*0)) with (2^30). lia.
Qed.
Lemma from32_spec : forall s i t, words_ok W s -> 0 <= i -> i + len s <= 14 -> 0 <= t < 2^(2*i) ->
  words_ok B (from32_loop s i t) /\ length (from32_loop s i t) = S (length s) /\ bn_val (from32_loop s i t) = t + 2^(2*i) * le_val W s.
Proof.
  induction s as [|x s IH]; intros i t H Hi Hl Ht.
  - cbn [from32_loop]. split; [constructor; [|constructor]|].
    + rewrite len_nil in Hl. pose proof (Z.pow_le_mono_r 2 (2*i) 28 ltac:(lia) ltac:(lia)). lia.
    + split; [reflexivity|]. rewrite bn_val_cons, bn_val_nil. change (le_val W []) with 0. lia.
  - inversion H as [|? ? Hx Hl']; subst. rewrite len_cons in *. pose proof (len_nonneg _ s) as LN. cbn [from32_loop].
    assert (P : B = 2^(30 - 2*i) * 2^(2*i)) by (rewrite <- Z.pow_add_r by lia; f_equal; lia).
    assert (P0 : 0 < 2^(2*i)) by (apply Z.pow_pos_nonneg; lia). assert (P1 : 0 < 2^(30 - 2*i)) by (apply Z.pow_pos_nonneg; lia).
    rewrite Z.shiftl_mul_pow2, Z.shiftr_div_pow2, land_mask by lia.
    assert (U : u32 (x * 2^(2*i)) mod 2^30 = (x mod 2^(30 - 2*i)) * 2^(2*i)).
    { unfold u32. change W with (2^30 * 4). rewrite Z.rem_mul_r by lia. rewrite Z.mul_comm with (n := 2^30), Z.mod_add, Z.mod_mod by lia.
      rewrite P, Z.mul_mod_distr_r by lia. reflexivity. }
    rewrite U, lor_add by lia. pose proof (Z.mod_pos_bound x (2^(30 - 2*i)) ltac:(lia)) as MB.
    assert (RB : 0 <= x mod 2^(30 - 2*i) * 2^(2*i) + t < B).
    { split; [lia|]. rewrite P. pose proof (Z.mul_le_mono_nonneg_r (x mod 2^(30 - 2*i)) (2^(30 - 2*i) - 1) (2^(2*i)) ltac:(lia) ltac:(lia)). lia. }
    assert (XB : 0 <= x / 2^(30 - 2*i) < 2^(2*(i + 1))).
    { split; [apply Z.div_pos; lia|]. apply Z.div_lt_upper_bound; [lia|]. rewrite <- Z.pow_add_r by lia. replace (30 - 2*i + 2*(i+1)) with 32 by lia. lia. }
    destruct (IH (i + 1) (x / 2^(30 - 2*i)) Hl' ltac:(lia) ltac:(lia) XB) as (A & C & D).
    split; [constructor; auto|]. split; [cbn [length]; lia|]. rewrite le_cons, bn_val_cons, D.
    replace (2^(2*(i+1))) with (2^(2*i) * 4) by (replace (2*(i+1)) with (2*i + 2) by lia; rewrite Z.pow_add_r by lia; reflexivity).
    pose proof (Z.div_mod x (2^(30 - 2*i)) ltac:(lia)) as DX. change W with (2^30 * 4). rewrite P. set (q := x / 2^(30-2*i)) in *. set (r := x mod 2^(30-2*i)) in *. rewrite DX at 1. ring.
Qed.

(** Minus the inverse of the lowest word. *)
Lemma u32_div : forall x, (W | u32 x - x).
Proof. intros. unfold u32. exists (- (x / W)). pose proof (Z.div_mod x W ltac:(lia)). lia. Qed.
Lemma neg_loop_spec : forall fuel a am inv i, 0 <= i <= 5 -> i + Z.of_nat fuel = 7 -> (2 ^ (2 ^ i) | am) -> 0 <= am < W -> 0 <= inv < W ->
  (W | a * inv + 1 - am * am) -> exists r, neg_inverse_loop fuel am inv = Ok r /\ 0 <= r < W /\ (W | a * r + 1).
Proof.
  induction fuel as [|f IH]; intros a am inv i Hi Hf D Ha Hv E; cbn [neg_inverse_loop]; [lia|].
  destruct (Z.eqb_spec am 0) as [->|N].
  - exists inv. split; [reflexivity|]. split; auto. rewrite Z.mul_0_l, Z.sub_0_r in E. auto.
  - assert (i <> 5). { intros ->. change (2 ^ (2^5)) with W in D. destruct D as [z D]. assert (z = 0) by lia. subst z. lia. }
    set (am' := u32 (am * am)). assert (A' : 0 <= am' < W) by (unfold am', u32; apply Z.mod_pos_bound; lia).
    assert (U : forall x, 0 <= u32 x < W) by (intros; unfold u32; apply Z.mod_pos_bound; lia).
    apply (IH a am' _ (i + 1)); auto; [lia|lia| |].
    + assert (P : 2 ^ (2 ^ (i + 1)) = 2 ^ (2^i) * 2 ^ (2^i)).
      { rewrite <- Z.pow_add_r by (apply Z.pow_nonneg; lia). f_equal. rewrite Z.pow_add_r by lia. change (2^1) with 2. lia. }
      assert (DA : (2 ^ (2 ^ (i + 1)) | am * am)) by (rewrite P; destruct D as [z D]; exists (z * z); rewrite D; ring).
      replace am' with ((u32 (am * am) - am * am) + am * am) by (unfold am'; ring). apply Z.divide_add_r; [|auto].
      apply Z.divide_trans with W; [|apply u32_div]. exists (2 ^ (32 - 2 ^ (i + 1))).
      pose proof (Z.pow_le_mono_r 2 (i + 1) 5 ltac:(lia) ltac:(lia)) as M. change (2^5) with 32 in M. rewrite <- Z.pow_add_r; [f_equal; lia|lia|apply Z.pow_nonneg; lia].
    + destruct (u32_div (am * am)) as [z1 Z1]. fold am' in Z1. destruct (u32_div (am' + 1)) as [z2 Z2]. destruct (u32_div (inv * u32 (am' + 1))) as [z3 Z3].
      destruct E as [z4 Z4]. set (uu := u32 (inv * u32 (am' + 1))) in *. set (vv := u32 (am' + 1)) in *.
      assert (X1 : am * am = am' - z1 * W) by lia. assert (X2 : vv = am' + 1 + z2 * W) by lia. assert (X3 : uu = inv * vv + z3 * W) by lia.
      assert (X4 : a * inv = z4 * W - 1 + (am' - z1 * W)) by lia.
      exists (a * z3 + z4 * vv - z1 * vv - z2 + am' * z2).
      transitivity ((a * inv) * vv + a * z3 * W + 1 - am' * am'); [rewrite X3; ring|]. rewrite X4.
      replace ((z4 * W - 1 + (am' - z1 * W)) * vv) with ((z4 - z1) * W * vv + (am' - 1) * vv) by ring. replace ((am' - 1) * vv) with ((am' - 1) * (am' + 1 + z2 * W)) by (rewrite X2; ring). ring.
Qed.
Lemma neg_inverse_spec : forall a, 0 <= a < W -> Z.odd a = true -> exists r, neg_inverse a = Ok r /\ 0 <= r < W /\ (W | a * r + 1).
Proof.
  intros a Ha O. unfold neg_inverse. rewrite is_odd_spec, O.
  assert (U : forall x, 0 <= u32 x < W) by (intros; unfold u32; apply Z.mod_pos_bound; lia).
  assert (A1 : a <> 0) by (intros ->; discriminate). rewrite (u32_id (a - 1)) by lia.
  apply (neg_loop_spec 7 a (a - 1) _ 0); [lia|reflexivity| |lia|auto|].
  - change (2 ^ (2 ^ 0)) with 2. exists (a / 2). pose proof (Z.div_mod a 2 ltac:(lia)) as DM. rewrite Zmod_odd, O in DM. lia.
  - destruct (u32_div (a - 2)) as [z E]. exists (a * z). replace (u32 (a - 2)) with (a - 2 + z * W) by lia. ring.
Qed.

(** Division by 2^32. *)
Lemma div32_loop_spec : forall s q f t, length s = length q -> words_ok W s -> words_ok W q -> 0 <= f < W -> 0 <= t < W ->
  words_ok W (div32_loop s q f t) /\ length (div32_loop s q f t) = S (length s) /\ le_val W (div32_loop s q f t) = t + le_val W s + f * le_val W q.
Proof.
  induction s as [|x s IH]; intros [|y q] f t L Hs Hq Hf Ht; try discriminate.
  - cbn [div32_loop]. rewrite low_word, Z.mod_small by lia. split; [constructor; [lia|constructor]|]. split; [reflexivity|].
    rewrite le_cons. change (le_val W []) with 0. lia.
  - inversion Hs as [|? ? Hx Hs']; subst. inversion Hq as [|? ? Hy Hq']; subst. cbn [length] in L. cbn [div32_loop].
    assert (YF : 0 <= y * f <= (W - 1) * (W - 1)) by (split; [apply Z.mul_nonneg_nonneg; lia|apply Z.mul_le_mono_nonneg; lia]).
    rewrite (u64_id (t + (x + y * f))) by lia. rewrite low_word, high_word. set (T := t + (x + y * f)).
    assert (TB : 0 <= T / W < W) by (split; [apply Z.div_pos; unfold T; lia|apply Z.div_lt_upper_bound; unfold T; lia]).
    destruct (IH q f (T / W)) as (A & C & D); auto.
    split; [constructor; [apply Z.mod_pos_bound; lia|auto]|]. split; [cbn [length]; lia|]. rewrite !le_cons, D.
    pose proof (Z.div_mod T W ltac:(lia)) as DM. unfold T in *. lia.
Qed.
Lemma div32_spec : forall s q inv, length s = 8%nat -> length q = 8%nat -> words_ok W s -> words_ok W q -> 0 <= inv < W -> (W | nth 0 q 0 * inv + 1) ->
  le_val W s < le_val W q ->
  exists s', div32 s q inv = Ok s' /\ length s' = 8%nat /\ words_ok W s' /\ le_val W s' < le_val W q /\ (le_val W q | W * le_val W s' - le_val W s).
Proof.
  intros [|x s] [|y q] inv L1 L2 Hs Hq Hi D LT; try discriminate. cbn [length] in *. inversion Hs as [|? ? Hx Hs']; subst. inversion Hq as [|? ? Hy Hq']; subst.
  cbn [nth] in D. unfold div32. cbn [nth tl]. set (f := u32 (inv * x)).
  assert (Hf : 0 <= f < W) by (unfold f, u32; apply Z.mod_pos_bound; lia).
  assert (YF : 0 <= y * f <= (W - 1) * (W - 1)) by (split; [apply Z.mul_nonneg_nonneg; lia|apply Z.mul_le_mono_nonneg; lia]).
  rewrite (u64_id (x + y * f)) by lia. rewrite low_word, high_word.
  assert (M : (x + y * f) mod W = 0).
  { apply Z.mod_divide; [lia|]. destruct (u32_div (inv * x)) as [z E]. fold f in E. destruct D as [z2 D].
    exists (y * z + z2 * x). replace f with (inv * x + z * W) by lia. replace (x + y * (inv * x + z * W)) with (x * (y * inv + 1) + y * z * W) by ring. rewrite D. ring. }
  rewrite M. cbn [Z.eqb].
  assert (TB : 0 <= (x + y * f) / W < W) by (split; [apply Z.div_pos; lia|apply Z.div_lt_upper_bound; lia]).
  destruct (div32_loop_spec s q f ((x + y * f) / W)) as (A & C & V); [lia|auto|auto|auto|auto|].
  eexists. split; [reflexivity|]. split; [lia|]. split; [auto|]. pose proof (Z.div_mod (x + y * f) W ltac:(lia)) as DM. rewrite M, Z.add_0_r in DM.
  assert (E : W * le_val W (div32_loop s q f ((x + y * f) / W)) = le_val W (x :: s) + f * le_val W (y :: q)).
  { rewrite V, !le_cons. rewrite !Z.mul_add_distr_l, <- DM. ring. }
  set (r := le_val W (div32_loop s q f ((x + y * f) / W))) in *. split; [|exists f; rewrite E; ring].
  apply (Z.mul_lt_mono_pos_l W); [lia|]. rewrite E. pose proof (le_bound (y :: q) Hq) as [Q0 _].
  pose proof (Z.mul_le_mono_nonneg_r f (W - 1) (le_val W (y :: q)) ltac:(lia) ltac:(lia)). lia.
Qed.
Lemma odd_rel_prime : forall m k, Z.odd m = true -> 0 <= k -> rel_prime m (2^k).
Proof.
  intros m k O Hk. destruct (Z.eq_dec k 0) as [->|Nk]; [apply rel_prime_sym, rel_prime_1|]. apply rel_prime_Zpower_r; [lia|].
  apply Zgcd_1_rel_prime. replace m with (1 + (m / 2) * 2). { rewrite Z.gcd_comm, Z.gcd_add_mult_diag_r. apply Z.gcd_1_r. }
  pose proof (Z.div_mod m 2 ltac:(lia)) as DM. rewrite Zmod_odd, O in DM. lia.
Qed.
Lemma div32_times_spec : forall n s q inv, length s = 8%nat -> length q = 8%nat -> words_ok W s -> words_ok W q -> 0 <= inv < W -> (W | nth 0 q 0 * inv + 1) ->
  le_val W s < le_val W q ->
  exists s', div32_times n s q inv = Ok s' /\ length s' = 8%nat /\ words_ok W s' /\ le_val W s' < le_val W q /\ (le_val W q | W ^ Z.of_nat n * le_val W s' - le_val W s).
Proof.
  induction n as [|n IH]; intros s q inv L1 L2 Hs Hq Hi D LT; cbn [div32_times].
  - exists s. split; [reflexivity|]. split; auto. split; auto. split; auto. change (W ^ Z.of_nat 0) with 1. exists 0. lia.
  - destruct (div32_spec s q inv L1 L2 Hs Hq Hi D LT) as (s1 & A1 & A2 & A3 & A4 & A5). rewrite A1. cbn [bind].
    destruct (IH s1 q inv A2 L2 A3 Hq Hi D A4) as (s2 & B1 & B2 & B3 & B4 & B5). exists s2. split; auto. split; auto. split; auto. split; auto.
    rewrite Nat2Z.inj_succ, Z.pow_succ_r by lia.
    replace (W * W ^ Z.of_nat n * le_val W s2 - le_val W s) with (W * (W ^ Z.of_nat n * le_val W s2 - le_val W s1) + (W * le_val W s1 - le_val W s)) by ring.
    apply Z.divide_add_r; [apply Z.divide_mul_r|]; auto.
Qed.
(** The remaining bits. *)
Lemma divk_loop_spec : forall k s q f t, 0 < k < 32 -> length s = length q -> words_ok W s -> words_ok W q -> 0 <= f < 2^k -> 0 <= t < W ->
  words_ok W (divk_loop s q f k t) /\ length (divk_loop s q f k t) = S (length s) /\ le_val W (divk_loop s q f k t) = t + 2^(32 - k) * (le_val W s + f * le_val W q).
Proof.
  intros k s q f t Hk. revert q t. assert (P : W = 2^k * 2^(32 - k)) by (rewrite <- Z.pow_add_r by lia; f_equal; lia).
  assert (P0 : 0 < 2^k) by (apply Z.pow_pos_nonneg; lia). assert (P1 : 0 < 2^(32 - k)) by (apply Z.pow_pos_nonneg; lia).
  assert (PL : 2^k < W) by (apply Z.pow_lt_mono_r; lia).
  induction s as [|x s IH]; intros [|y q] t L Hs Hq Hf Ht; try discriminate.
  - cbn [divk_loop]. rewrite low_word, Z.mod_small by lia. split; [constructor; [lia|constructor]|]. split; [reflexivity|].
    rewrite le_cons. change (le_val W []) with 0. lia.
  - inversion Hs as [|? ? Hx Hs']; subst. inversion Hq as [|? ? Hy Hq']; subst. cbn [length] in L. cbn [divk_loop].
    assert (YF : 0 <= y * f <= (W - 1) * (2^k - 1)) by (split; [apply Z.mul_nonneg_nonneg; lia|apply Z.mul_le_mono_nonneg; lia]).
    assert (XY : 0 <= x + y * f <= (W - 1) * 2^k) by lia.
    assert (WK : (W - 1) * 2^k <= (W - 1) * W) by (apply Z.mul_le_mono_nonneg_l; lia).
    rewrite (u64_id (x + y * f)) by lia. rewrite Z.shiftl_mul_pow2 by lia.
    assert (XS : 0 <= (x + y * f) * 2^(32 - k) <= (W - 1) * W).
    { split; [apply Z.mul_nonneg_nonneg; lia|]. rewrite P at 2. rewrite Z.mul_assoc. apply Z.mul_le_mono_nonneg_r; lia. }
    rewrite (u64_id ((x + y * f) * 2^(32 - k))) by lia. rewrite u64_id by lia. rewrite low_word, high_word. set (T := t + (x + y * f) * 2^(32 - k)).
    assert (TB : 0 <= T / W < W) by (split; [apply Z.div_pos; unfold T; lia|apply Z.div_lt_upper_bound; unfold T; lia]).
    destruct (IH q (T / W)) as (A & C & D); auto.
    split; [constructor; [apply Z.mod_pos_bound; lia|auto]|]. split; [cbn [length]; lia|]. rewrite !le_cons, D.
    pose proof (Z.div_mod T W ltac:(lia)) as DM.
    replace (T mod W + W * (T / W + 2^(32 - k) * (le_val W s + f * le_val W q))) with (W * (T / W) + T mod W + W * 2^(32 - k) * (le_val W s + f * le_val W q)) by ring.
    rewrite <- DM. unfold T. ring.
Qed.
Lemma divk_spec : forall k s q inv, 0 <= k < 32 -> length s = 8%nat -> length q = 8%nat -> words_ok W s -> words_ok W q -> 0 <= inv < W -> (W | nth 0 q 0 * inv + 1) ->
  le_val W s < le_val W q ->
  exists s', divk s q inv k = Ok s' /\ length s' = 8%nat /\ words_ok W s' /\ le_val W s' < le_val W q /\ (le_val W q | 2^k * le_val W s' - le_val W s).
Proof.
  intros k s0 q0 inv Hk L1 L2 Hs Hq Hi D LT. unfold divk. destruct (Z.ltb_spec 0 k) as [K|K].
  2: { exists s0. replace k with 0 by lia. split; [reflexivity|]. split; auto. split; auto. split; auto. change (2^0) with 1. exists 0. lia. }
  assert (P : W = 2^k * 2^(32 - k)) by (rewrite <- Z.pow_add_r by lia; f_equal; lia).
  assert (P0 : 0 < 2^k) by (apply Z.pow_pos_nonneg; lia). assert (P1 : 0 < 2^(32 - k)) by (apply Z.pow_pos_nonneg; lia).
  assert (PL : 2^k < W) by (apply Z.pow_lt_mono_r; lia).
  destruct s0 as [|x s]; [discriminate|]. destruct q0 as [|y q]; [discriminate|]. cbn [length] in *. inversion Hs as [|? ? Hx Hs']; subst. inversion Hq as [|? ? Hy Hq']; subst.
  cbn [nth tl] in *. rewrite Z.shiftl_1_l. rewrite (u32_id (2^k)) by lia. rewrite (u32_id (2^k - 1)) by lia.
  assert (LM : forall z, Z.land z (2^k - 1) = z mod 2^k) by (intros z; rewrite <- Z.land_ones, Z.ones_equiv by lia; reflexivity).
  rewrite !LM. set (f := u32 (inv * x) mod 2^k).
  assert (Hf : 0 <= f < 2^k) by (apply Z.mod_pos_bound; lia).
  assert (YF : 0 <= y * f <= (W - 1) * (2^k - 1)) by (split; [apply Z.mul_nonneg_nonneg; lia|apply Z.mul_le_mono_nonneg; lia]).
  assert (WK : (W - 1) * 2^k <= (W - 1) * W) by (apply Z.mul_le_mono_nonneg_l; lia).
  assert (DIV : (2^k | x + y * f)).
  { destruct (u32_div (inv * x)) as [z E]. destruct D as [z2 D].
    pose proof (Z.div_mod (u32 (inv * x)) (2^k) ltac:(lia)) as DM. fold f in DM. set (g := u32 (inv * x) / 2^k) in *.
    replace f with (inv * x + z * W - 2^k * g) by lia. replace (x + y * (inv * x + z * W - 2^k * g)) with (x * (y * inv + 1) + y * z * W - y * g * 2^k) by ring.
    rewrite D. rewrite P. exists (x * z2 * 2^(32 - k) + y * z * 2^(32 - k) - y * g). ring. }
  assert (CHK : u32 (x + u32 (y * f)) mod 2^k = 0).
  { apply Z.mod_divide; [lia|]. destruct (u32_div (x + u32 (y * f))) as [z1 E1]. destruct (u32_div (y * f)) as [z2 E2].
    replace (u32 (x + u32 (y * f))) with (x + y * f + (z1 + z2) * W) by lia. apply Z.divide_add_r; auto. rewrite P. exists ((z1 + z2) * 2^(32-k)). ring. }
  rewrite CHK. cbn [Z.eqb]. rewrite (u64_id (x + y * f)) by lia. rewrite Z.shiftr_div_pow2 by lia.
  assert (TB : 0 <= (x + y * f) / 2^k < W) by (split; [apply Z.div_pos; lia|apply Z.div_lt_upper_bound; [lia|]; lia]).
  destruct (divk_loop_spec k s q f ((x + y * f) / 2^k)) as (A & C & V); [lia|lia|auto|auto|auto|auto|].
  eexists. split; [reflexivity|]. split; [lia|]. split; [auto|].
  pose proof (Z.div_mod (x + y * f) (2^k) ltac:(lia)) as DM. rewrite (proj2 (Z.mod_divide (x + y * f) (2^k) ltac:(lia)) DIV), Z.add_0_r in DM.
  assert (E : 2^k * le_val W (divk_loop s q f k ((x + y * f) / 2^k)) = le_val W (x :: s) + f * le_val W (y :: q)).
  { rewrite V, !le_cons. rewrite Z.mul_add_distr_l, <- DM, Z.mul_assoc, <- P. ring. }
  set (r := le_val W (divk_loop s q f k ((x + y * f) / 2^k))) in *. split; [|exists f; rewrite E; ring].
  apply (Z.mul_lt_mono_pos_l (2^k)); [lia|]. rewrite E. pose proof (le_bound (y :: q) Hq) as [Q0 _].
  pose proof (Z.mul_le_mono_nonneg_r f (2^k - 1) (le_val W (y :: q)) ltac:(lia) ltac:(lia)). lia.
Qed.

(** The whole function. *)
Lemma bn_inverse_spec : forall x m, unnormalized x -> modulus m -> Z.odd (bn_val m) = true -> Z.gcd (bn_val x) (bn_val m) = 1 ->
  exists y, bn_inverse x m = Ok y /\ reduced y m /\ (bn_val x * bn_val y) mod bn_val m = 1.
Proof.
  intros x m Hx Hm Om Hg. destruct (bn_fast_mod_spec x m Hx Hm) as [[N1 V1] E1]. pose proof Hm as [Nm Rm].
  destruct (bn_mod_spec _ m N1 Nm V1) as [N2 V2]. rewrite E1 in V2. unfold bn_inverse. set (x' := bn_mod (bn_fast_mod x m) m) in *. clearbody x'.
  set (p := bn_val m) in *. pose proof (Z.mod_pos_bound (bn_val x) p ltac:(lia)) as MB.
  assert (G2 : Z.gcd p (bn_val x') = 1) by (rewrite V2, Z.gcd_comm, Z.gcd_mod, Z.gcd_comm by lia; rewrite Z.gcd_comm in Hg; rewrite Z.gcd_comm; auto).
  assert (X0 : bn_val x' <> 0). { intros Q. rewrite Q, Z.gcd_0_r, Z.abs_eq in G2 by lia. lia. }
  destruct (to32_spec m Nm ltac:(fold p; lia)) as (A1 & A2 & A3). fold p in A3.
  destruct (to32_spec x' N2 ltac:(lia)) as (B1 & B2 & B3).
  set (pp := to32 m) in *. set (xx := to32 x') in *. clearbody pp xx.
  destruct (rep_make pp [1] 8) as (R1 & R1' & _); [auto|cbn [length]; lia|lia|auto|constructor; [lia|constructor]|].
  destruct (rep_make xx [0] 8) as (R2 & _ & _); [auto|cbn [length]; lia|lia|auto|constructor; [lia|constructor]|].
  rewrite A3 in R1. rewrite B3 in R2. change (be_val W [1]) with 1 in R1. change (be_val W [0]) with 0 in R2.
  destruct (loop_spec p (bn_val x') ltac:(lia) Om ltac:(change (W^8) with (2^256); lia) 514 (mkCombo (pp ++ [1]) 8) (mkCombo (xx ++ [0]) 8) p 1 (bn_val x') 0 0 true) as (us & k & s & L1 & L2 & L3 & L4 & L5 & L6).
  - split; [exact R1|]. split; [exact R2|]. split; [lia|]. split; [lia|]. split; [lia|]. split; [auto|]. split; [lia|]. split; [exists 0; lia|exists 1; lia].
  - split; [unfold tight; rewrite R1', A3; cbn [clen]; change (W ^ (Z.of_nat 8 - 1)) with (2^224); lia|]. split; [auto|]. split; [reflexivity|apply andb_false_r].
  - lia.
  - intros _. apply Z.lt_trans with (2^256 * 2^256); [|reflexivity]. apply Z.mul_lt_mono_nonneg; lia.
  - intros _. apply Z.lt_trans with (2^256 * 2^256); [|reflexivity]. apply Z.mul_lt_mono_nonneg; lia.
  - rewrite L1. cbn [bind].
    assert (Y0 : 0 <= nth 0 pp 0 < W) by (apply (limb_range W pp 0); [lia|auto]).
    destruct (neg_inverse_spec (nth 0 pp 0) Y0) as (inv & I1 & I2 & I3); [rewrite <- odd_le, A3; auto|]. rewrite I1. cbn [bind].
    destruct (rep_parts _ _ _ L2) as (_ & H1 & _ & H2). pose proof L2 as (C1 & C2 & C3 & C4 & C5). rewrite L3 in H1.
    assert (HI : high us = tl (ca us)) by (unfold high; rewrite L3; destruct (ca us); reflexivity).
    rewrite <- HI. set (ss := rev (high us)).
    assert (S1 : length ss = 8%nat) by (unfold ss; rewrite rev_length, H1; reflexivity).
    assert (S2 : words_ok W ss) by (apply words_rev; auto).
    assert (S3 : le_val W ss = s) by (unfold ss; rewrite le_val_be_val, rev_involutive; auto).
    destruct (div32_times_spec (Z.to_nat (k / 32)) ss pp inv S1 A2 S2 A1 I2 I3 ltac:(lia)) as (s1 & D1 & D2 & D3 & D4 & D5). rewrite D1. cbn [bind].
    destruct (divk_spec (k mod 32) s1 pp inv ltac:(apply Z.mod_pos_bound; lia) D2 A2 D3 A1 I2 I3 D4) as (s2 & F1 & F2 & F3 & F4 & F5). rewrite F1. cbn [bind].
    eexists. split; [reflexivity|].
    destruct (from32_spec s2 0 0 F3) as (G1 & G3 & G4); [lia|unfold len; lia|lia|].
    rewrite G4. change (2^(2*0)) with 1. rewrite Z.add_0_l, Z.mul_1_l. split.
    + split; [split; [lia|auto]|]. rewrite G4. change (2^(2*0)) with 1. fold p. lia.
    + rewrite A3, S3 in *. rewrite Z2Nat.id in D5 by (apply Z.div_pos; lia).
      assert (TOT : (p | 2^k * (bn_val x' * le_val W s2 - 1))).
      { pose proof (Z.div_mod k 32 ltac:(lia)) as KD. pose proof (Z.mod_pos_bound k 32 ltac:(lia)). assert (K0 : 0 <= k / 32) by (apply Z.div_pos; lia).
        assert (KE : 2^k = W ^ (k / 32) * 2^(k mod 32)) by (rewrite <- Z.pow_mul_r, <- Z.pow_add_r by lia; f_equal; lia).
        replace (2^k * (bn_val x' * le_val W s2 - 1)) with (bn_val x' * (2^k * le_val W s2 - s) + (bn_val x' * s - 2^k)) by ring.
        apply Z.divide_add_r; auto. apply Z.divide_mul_r. rewrite KE.
        replace (W ^ (k / 32) * 2 ^ (k mod 32) * le_val W s2 - s) with (W ^ (k / 32) * (2 ^ (k mod 32) * le_val W s2 - le_val W s1) + (W ^ (k / 32) * le_val W s1 - s)) by ring.
        apply Z.divide_add_r; auto. apply Z.divide_mul_r. auto. }
      apply Gauss in TOT; [|apply odd_rel_prime; auto].
      destruct TOT as [z TOT]. assert (XP : (bn_val x * le_val W s2) mod p = (bn_val x' * le_val W s2) mod p) by (rewrite V2, Z.mul_mod_idemp_l by lia; reflexivity).
      rewrite XP. replace (bn_val x' * le_val W s2) with (1 + z * p) by lia. rewrite Z.mod_add by lia. apply Z.mod_small. lia.
Qed.
Lemma inv_loop_ub : forall f us vr k, strip us vr k = UB -> inv_loop (S f) us vr true k = UB.
Proof. intros f us vr k H. cbn [inv_loop]. rewrite H. reflexivity. Qed.
(** Zero has no inverse: the code reads in front of its array. *)
Lemma bn_inverse_zero : forall x m, unnormalized x -> modulus m -> Z.odd (bn_val m) = true -> bn_val x mod bn_val m = 0 -> bn_inverse x m = UB.
Proof.
  intros x m Hx Hm Om H0. destruct (bn_fast_mod_spec x m Hx Hm) as [[N1 V1] E1]. pose proof Hm as [Nm Rm].
  destruct (bn_mod_spec _ m N1 Nm V1) as [N2 V2]. rewrite E1, H0 in V2. unfold bn_inverse. set (x' := bn_mod (bn_fast_mod x m) m) in *. clearbody x'.
  destruct (to32_spec m Nm ltac:(lia)) as (A1 & A2 & A3). destruct (to32_spec x' N2 ltac:(lia)) as (B1 & B2 & B3).
  set (pp := to32 m) in *. set (xx := to32 x') in *. clearbody pp xx. rewrite V2 in B3.
  assert (AZ : forall l, words_ok W l -> le_val W l = 0 -> forall i, nth i l 0 = 0).
  { induction l as [|d l IH]; intros Hl E i; [destruct i; reflexivity|]. inversion Hl as [|? ? Hd Hl']; subst. rewrite le_cons in E. pose proof (le_bound l Hl') as [L0 _].
    assert (d = 0 /\ le_val W l = 0) as [-> E'] by lia. destruct i; [reflexivity|]. cbn [nth]. apply IH; auto. }
  rewrite (inv_loop_ub 513); [reflexivity|]. unfold strip. cbn [ca clen]. rewrite adjust_zero.
  - destruct (negb _); reflexivity.
  - intros i Hi. rewrite app_nth1 by lia. apply AZ; auto.
Qed.
