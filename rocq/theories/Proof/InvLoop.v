(** The main loop of bn_inverse: a binary extended gcd. *)
From Coq Require Import Lia Znumtheory Zpow_facts.
From Verif Require Import Base.Bytes Base.BytesFacts Spec.Bignum Model.Bignum Model.Inverse Proof.BnCore Proof.BnRed Proof.BnMul Proof.InvRegs.
Open Scope Z_scope.

Lemma strip_spec : forall odd even o1 o2 e1 e2 k, rep odd o1 o2 -> Z.odd o1 = true -> Z.odd o2 = true ->
  rep even e1 e2 -> e1 <> 0 -> e1 * e2 < W^8 -> Z.odd e1 && Z.odd e2 = false ->
  exists c q, strip odd even k = Ok (c, k + q) /\ 0 <= q /\ rep c (e1 / 2^q) (e2 * 2^q) /\ e1 = e1 / 2^q * 2^q /\
    Z.odd (e1 / 2^q) = true /\ tight c.
Proof.
  intros odd even o1 o2 e1 e2 k RO O1 O2 R E0 EB EE. unfold strip.
  destruct (rep_odd _ _ _ RO) as [P1 P2]. rewrite P1, P2, O1, O2. cbn [negb andb].
  pose proof R as (L & H & Rn & U & S0).
  destruct (adjust_spec (ca even) (clen even) L H) as (n & A1 & A2 & A3 & A4 & A5); [lia|unfold low in U; congruence|].
  rewrite A1. cbn [bind].
  assert (R1 : rep (mkCombo (ca even) n) e1 e2).
  { split; [auto|]. split; [auto|]. split; [cbn [clen]; lia|]. unfold low, high. cbn [ca clen]. unfold low, high in U, S0. split; congruence. }
  assert (T1 : tight (mkCombo (ca even) n)) by (unfold tight, low; cbn [ca clen]; exact A5).
  destruct (shift_words_spec 9 _ e1 e2 k R1 T1) as (c1 & q1 & B1 & B2 & B3 & B4 & B5 & B6); [cbn [clen]; lia|].
  rewrite B1. cbn [bind].
  assert (Q1 : 0 < 2^q1) by (apply Z.pow_pos_nonneg; lia).
  set (u1 := e1 / 2^q1) in *. pose proof (rep_bounds _ _ _ B3) as [[UB1 UB2] [SB1 SB2]].
  assert (u0 : 0 < u1) by (destruct (Z.eq_dec u1 0) as [Q|Q]; [rewrite Q in B4; lia|lia]).
  assert (WR : 0 < w c1 0 < W).
  { destruct B3 as (L3 & H3 & R3 & _). pose proof (limb_range W (ca c1) 0 ltac:(lia) H3) as LR. unfold limb in LR. unfold w in *. lia. }
  assert (WL : exists t, low c1 = w c1 0 :: t).
  { destruct (rep_parts _ _ _ B3) as (X1 & X2 & _). destruct (low c1) as [|d t] eqn:EL.
    - cbn in X1. destruct B3 as (_ & _ & ? & _). lia.
    - exists t. f_equal. unfold w. rewrite (split_ca c1), EL. reflexivity. }
  destruct WL as [t WL].
  assert (UW : u1 = w c1 0 + W * le_val W t) by (destruct B3 as (_ & _ & _ & <- & _); rewrite WL; apply le_cons).
  destruct (count_bits_spec 32 (w c1 0) 0) as (j & C1 & C2 & C3 & C4); [lia|reflexivity|auto|apply Z.mod_1_r|].
  rewrite C1. cbn [bind].
  assert (PJ : 0 < 2^j) by (apply Z.pow_pos_nonneg; lia).
  assert (PW : W = 2^(32 - j) * 2^j) by (rewrite <- Z.pow_add_r by lia; f_equal; lia).
  assert (UM : u1 mod 2^j = 0).
  { rewrite UW, PW. replace (w c1 0 + 2^(32 - j) * 2^j * le_val (2^(32 - j) * 2^j) t) with (w c1 0 + (2^(32 - j) * le_val (2^(32 - j) * 2^j) t) * 2^j) by ring.
    rewrite Z.mod_add by lia. auto. }
  assert (UO : Z.odd (u1 / 2^j) = true).
  { rewrite UW. rewrite PW. replace (w c1 0 + 2^(32 - j) * 2^j * le_val (2^(32 - j) * 2^j) t) with (w c1 0 + (2^(32 - j) * le_val (2^(32 - j) * 2^j) t) * 2^j) by ring.
    rewrite Z.div_add by lia. rewrite Z.odd_add, C4, Z.odd_mul. rewrite Z.odd_pow by lia. reflexivity. }
  assert (UE : u1 = 2^j * (u1 / 2^j)) by (apply Z.div_exact; lia).
  assert (FIN : exists c2, (let '(c, k) := if 0 <? j then (shift_j c1 j, k + q1 + j) else (c1, k + q1) in
      if is_odd (w c 0) && negb (is_odd (w c 8)) then Ok (c, k) else UB) =
      (if is_odd (w c2 0) && negb (is_odd (w c2 8)) then Ok (c2, k + (q1 + j)) else UB) /\ rep c2 (u1 / 2^j) (e2 * 2^q1 * 2^j) /\ tight c2).
  { destruct (Z.ltb_spec 0 j) as [J|J].
    - exists (shift_j c1 j). destruct (shift_j_spec c1 u1 (e2 * 2^q1) j B3 B5) as [X1 X2]; [lia|auto| |].
      + replace (u1 * (e2 * 2^q1)) with ((u1 * 2^q1) * e2) by ring. rewrite <- B4. auto.
      + split; [|auto]. cbn [andb]. replace (k + (q1 + j)) with (k + q1 + j) by lia. reflexivity.
    - exists c1. replace j with 0 in * by lia. split; [cbn [andb]; rewrite Z.add_0_r; reflexivity|]. rewrite Z.pow_0_r, Z.div_1_r, Z.mul_1_r. auto. }
  destruct FIN as (c2 & F1 & F2 & F3). exists c2, (q1 + j). rewrite F1. clear F1.
  destruct (rep_odd _ _ _ F2) as [G1 G2]. rewrite G1, G2, UO.
  rewrite Z.pow_add_r by lia. rewrite <- Z.div_div by lia. fold u1.
  assert (EV : Z.odd (e2 * 2^q1 * 2^j) = false).
  { destruct (Z.eq_dec (q1 + j) 0) as [Q|Q].
    - assert (Eq1 : q1 = 0) by lia. assert (Ej : j = 0) by lia. rewrite Eq1, Ej, Z.pow_0_r, !Z.mul_1_r. unfold u1 in UO. rewrite Eq1, Ej, Z.pow_0_r, !Z.div_1_r in UO.
      rewrite UO in EE. exact EE.
    - rewrite <- Z.mul_assoc, <- Z.pow_add_r by lia. rewrite Z.odd_mul, Z.odd_pow by lia. apply andb_false_r. }
  rewrite EV. cbn [negb andb]. split; [reflexivity|]. split; [lia|]. replace (e2 * (2^q1 * 2^j)) with (e2 * 2^q1 * 2^j) by ring. split; [auto|].
  split; [|auto]. rewrite (Z.mul_comm (2^q1)), Z.mul_assoc, (Z.mul_comm (u1 / 2^j)), <- UE. auto.
Qed.

Lemma cmp_top_spec : forall a b, length a = length b -> words_ok W a -> words_ok W b ->
  match be_val W a ?= be_val W b with Lt => cmp_top a b = -1 | Eq => cmp_top a b = 0 | Gt => cmp_top a b = 1 end.
Proof.
  induction a as [|x a IH]; intros [|y b] L Ha Hb; try discriminate; [reflexivity|].
  cbn [cmp_top]. inversion Ha as [|? ? Hx Ha']; subst. inversion Hb as [|? ? Hy Hb']; subst. cbn [length] in L.
  rewrite !be_val_cons. assert (LE : len a = len b) by (unfold len; lia). rewrite LE.
  pose proof (be_val_bound W a ltac:(lia) Ha') as BA. pose proof (be_val_bound W b ltac:(lia) Hb') as BB. rewrite LE in BA.
  set (n := W ^ len b) in *. destruct (Z.eqb_spec x y) as [->|N].
  - rewrite Zcompare_plus_compat. apply IH; auto.
  - destruct (Z.ltb_spec y x) as [Q|Q].
    + assert (F : y * n + be_val W b < x * n + be_val W a) by (pose proof (Z.mul_le_mono_nonneg_r (y + 1) x n ltac:(lia) ltac:(lia)); lia).
      rewrite (proj2 (Z.compare_gt_iff _ _)) by auto. reflexivity.
    + assert (F : x * n + be_val W a < y * n + be_val W b) by (pose proof (Z.mul_le_mono_nonneg_r (x + 1) y n ltac:(lia) ltac:(lia)); lia).
      rewrite (proj2 (Z.compare_lt_iff _ _)) by auto. reflexivity.
Qed.
Lemma cmp32_spec : forall c d u s v r, rep c u s -> rep d v r -> tight c -> tight d ->
  match u ?= v with Lt => cmp32 c d < 0 | Eq => cmp32 c d = 0 | Gt => 0 < cmp32 c d end.
Proof.
  intros c d u s v r R1 R2 T1 T2. unfold cmp32, tight in *.
  destruct (rep_parts _ _ _ R1) as (A1 & _ & A2 & _). destruct (rep_parts _ _ _ R2) as (B1 & _ & B2 & _).
  destruct (rep_bounds _ _ _ R1) as [C1 _]. destruct (rep_bounds _ _ _ R2) as [D1 _].
  destruct R1 as (_ & _ & R1 & U & _). destruct R2 as (_ & _ & R2 & V & _). rewrite U in T1. rewrite V in T2.
  destruct (Z.eqb_spec (Z.of_nat (clen c) - Z.of_nat (clen d)) 0) as [E|E].
  - pose proof (cmp_top_spec (rev (low c)) (rev (low d))) as H. rewrite <- !le_val_be_val, U, V in H.
    specialize (H ltac:(rewrite !rev_length; lia) ltac:(apply words_rev; auto) ltac:(apply words_rev; auto)).
    destruct (u ?= v); rewrite H; lia.
  - destruct (Z.lt_ge_cases (Z.of_nat (clen c)) (Z.of_nat (clen d))) as [Q|Q].
    + pose proof (Z.pow_le_mono_r W (Z.of_nat (clen c)) (Z.of_nat (clen d) - 1) ltac:(lia) ltac:(lia)).
      rewrite (proj2 (Z.compare_lt_iff u v)) by lia. lia.
    + pose proof (Z.pow_le_mono_r W (Z.of_nat (clen d)) (Z.of_nat (clen c) - 1) ltac:(lia) ltac:(lia)).
      rewrite (proj2 (Z.compare_gt_iff u v)) by lia. lia.
Qed.
Lemma tight_len : forall c d u s v r, rep c u s -> rep d v r -> tight c -> tight d -> u <= v -> (clen c <= clen d)%nat.
Proof.
  intros c d u s v r R1 R2 T1 T2 H. unfold tight in *. destruct (rep_bounds _ _ _ R2) as [D1 _].
  destruct R1 as (_ & _ & R1 & U & _). destruct R2 as (_ & _ & R2 & V & _). rewrite U in T1.
  destruct (Nat.le_gt_cases (clen c) (clen d)) as [Q|Q]; auto. exfalso.
  pose proof (Z.pow_le_mono_r W (Z.of_nat (clen d)) (Z.of_nat (clen c) - 1) ltac:(lia) ltac:(lia)). lia.
Qed.

Lemma low_word : forall t, Z.land t 0xFFFFFFFF = t mod W.
Proof. intros. change 0xFFFFFFFF with (Z.ones 32). apply Z.land_ones. lia. Qed.
Lemma high_word : forall t, Z.shiftr t 32 = t / W.
Proof. intros. apply Z.shiftr_div_pow2. lia. Qed.
Lemma mod_low : forall t b v n, 0 <= n -> (t mod W + W * ((t / W + b) mod W ^ n) = v mod W ^ (1 + n)) <-> (t + W * b) mod W ^ (1 + n) = v mod W ^ (1 + n).
Proof.
  intros t b v n Hn. assert (E : (t + W * b) mod W ^ (1 + n) = t mod W + W * ((t / W + b) mod W ^ n)).
  { rewrite Z.pow_add_r by lia. change (W^1) with W. rewrite Z.rem_mul_r by (try apply Z.pow_nonzero; lia). rewrite (Z.mul_comm W b), Z.mod_add, Z.div_add by lia. reflexivity. }
  rewrite E. tauto.
Qed.
Lemma sub32_spec : forall e o t, (length o <= length e)%nat -> words_ok W e -> words_ok W o -> 0 <= t <= 1 ->
  words_ok W (sub32 e o t) /\ length (sub32 e o t) = length e /\
  le_val W (sub32 e o t) = (W ^ len e - 1 + t + le_val W e - le_val W o) mod W ^ len e.
Proof.
  induction e as [|x e IH]; intros o t L He Ho Ht.
  - cbn [sub32]. split; [apply Forall_nil|]. split; [reflexivity|]. rewrite len_nil, Z.pow_0_r, Z.mod_1_r. reflexivity.
  - inversion He as [|? ? Hx He']; subst. rewrite len_cons.
    destruct o as [|y o].
    + cbn [sub32]. rewrite (u64_id (t + (0xFFFFFFFF + x))) by lia. rewrite low_word, high_word. set (T := t + (0xFFFFFFFF + x)).
      destruct (IH [] (T / W)) as (A & C & D); [cbn [length]; lia|auto|apply Forall_nil|unfold T; dlia|].
      split; [constructor; [apply Z.mod_pos_bound; lia|auto]|]. split; [cbn [length]; lia|].
      rewrite le_cons, D. change (le_val W []) with 0.
      replace (W ^ len e - 1 + T / W + le_val W e - 0) with (T / W + (W ^ len e - 1 + le_val W e)) by ring.
      apply mod_low; [apply len_nonneg|]. rewrite le_cons. f_equal. unfold T. rewrite Z.pow_add_r by (try apply len_nonneg; lia). change (W^1) with W. ring.
    + inversion Ho as [|? ? Hy Ho']; subst. cbn [sub32]. rewrite (u64_id (t + (0xFFFFFFFF + x - y))) by lia. rewrite low_word, high_word. set (T := t + (0xFFFFFFFF + x - y)).
      destruct (IH o (T / W)) as (A & C & D); [cbn [length] in L; lia|auto|auto|unfold T; dlia|].
      split; [constructor; [apply Z.mod_pos_bound; lia|auto]|]. split; [cbn [length]; lia|].
      rewrite le_cons, D.
      replace (W ^ len e - 1 + T / W + le_val W e - le_val W o) with (T / W + (W ^ len e - 1 + le_val W e - le_val W o)) by ring.
      apply mod_low; [apply len_nonneg|]. rewrite !le_cons. f_equal. unfold T. rewrite Z.pow_add_r by (try apply len_nonneg; lia). change (W^1) with W. ring.
Qed.
Lemma add32_spec : forall o e t, (length e <= length o)%nat -> words_ok W o -> words_ok W e -> 0 <= t <= 1 ->
  words_ok W (add32 o e t) /\ length (add32 o e t) = length o /\
  le_val W (add32 o e t) = (t + le_val W o + le_val W e) mod W ^ len o.
Proof.
  induction o as [|x o IH]; intros e t L Ho He Ht.
  - cbn [add32]. split; [apply Forall_nil|]. split; [reflexivity|]. rewrite len_nil, Z.pow_0_r, Z.mod_1_r. reflexivity.
  - inversion Ho as [|? ? Hx Ho']; subst. rewrite len_cons.
    destruct e as [|y e].
    + cbn [add32]. rewrite (u64_id (t + x)) by lia. rewrite low_word, high_word. set (T := t + x).
      destruct (IH [] (T / W)) as (A & C & D); [cbn [length]; lia|auto|apply Forall_nil|unfold T; dlia|].
      split; [constructor; [apply Z.mod_pos_bound; lia|auto]|]. split; [cbn [length]; lia|].
      rewrite le_cons, D. change (le_val W []) with 0. rewrite <- Z.add_assoc.
      apply mod_low; [apply len_nonneg|]. rewrite le_cons. f_equal. unfold T. ring.
    + inversion He as [|? ? Hy He']; subst. cbn [add32]. rewrite (u64_id (t + (x + y))) by lia. rewrite low_word, high_word. set (T := t + (x + y)).
      destruct (IH e (T / W)) as (A & C & D); [cbn [length] in L; lia|auto|auto|unfold T; dlia|].
      split; [constructor; [apply Z.mod_pos_bound; lia|auto]|]. split; [cbn [length]; lia|].
      rewrite le_cons, D. rewrite <- Z.add_assoc.
      apply mod_low; [apply len_nonneg|]. rewrite !le_cons. f_equal. unfold T. ring.
Qed.
Lemma new_even_spec : forall e o e1 e2 o1 o2, rep e e1 e2 -> rep o o1 o2 -> tight e -> tight o -> o1 <= e1 -> rep (new_even e o) (e1 - o1) e2.
Proof.
  intros e o e1 e2 o1 o2 R1 R2 T1 T2 H. pose proof (tight_len _ _ _ _ _ _ R2 R1 T2 T1 H) as L.
  destruct (rep_parts _ _ _ R1) as (A1 & A2 & A3 & A4). destruct (rep_parts _ _ _ R2) as (B1 & B2 & B3 & B4).
  destruct (rep_bounds _ _ _ R1) as [C1 _]. destruct (rep_bounds _ _ _ R2) as [D1 _].
  destruct R1 as (_ & _ & N1 & U & S1). destruct R2 as (_ & _ & N2 & V & S2).
  destruct (sub32_spec (low e) (low o) 1) as (F1 & F2 & F3); [lia|auto|auto|lia|].
  unfold new_even. unfold len in F3. rewrite A1, U, V in F3.
  replace (W ^ Z.of_nat (clen e) - 1 + 1 + e1 - o1) with (e1 - o1 + 1 * W ^ Z.of_nat (clen e)) in F3 by ring.
  rewrite Z.mod_add, Z.mod_small in F3 by (try apply Z.pow_nonzero; lia).
  destruct (rep_make (sub32 (low e) (low o) 1) (high e) (clen e)) as (R & _ & _); [lia|lia|lia|auto|auto|]. rewrite F3, S1 in R. exact R.
Qed.
Lemma new_odd_spec : forall e o e1 e2 o1 o2, rep e e1 e2 -> rep o o1 o2 -> tight e -> tight o -> o1 <= e1 -> o1 * (o2 + e2) < W^8 ->
  rep (new_odd e o) o1 (o2 + e2) /\ tight (new_odd e o).
Proof.
  intros e o e1 e2 o1 o2 R1 R2 T1 T2 H HB. pose proof (tight_len _ _ _ _ _ _ R2 R1 T2 T1 H) as L.
  destruct (rep_parts _ _ _ R1) as (A1 & A2 & A3 & A4). destruct (rep_parts _ _ _ R2) as (B1 & B2 & B3 & B4).
  destruct (rep_bounds _ _ _ R1) as [_ C1]. destruct (rep_bounds _ _ _ R2) as [D0 D1].
  destruct R1 as (_ & _ & N1 & U & S1). destruct R2 as (_ & _ & N2 & V & S2).
  destruct (add32_spec (rev (high o)) (rev (high e)) 0) as (F1 & F2 & F3); [rewrite !rev_length; lia|apply words_rev; auto|apply words_rev; auto|lia|].
  rewrite !le_val_be_val, !rev_involutive, S1, S2, Z.add_0_l in F3. unfold len in F3. rewrite rev_length in F2, F3. rewrite B2 in F2, F3.
  unfold tight in T2. rewrite V in T2.
  assert (FIT : o2 + e2 < W ^ Z.of_nat (9 - clen o)).
  { destruct (Z.lt_ge_cases (o2 + e2) (W ^ Z.of_nat (9 - clen o))) as [Q|Q]; auto. exfalso.
    pose proof (Z.mul_le_mono_nonneg (W ^ (Z.of_nat (clen o) - 1)) o1 (W ^ Z.of_nat (9 - clen o)) (o2 + e2) ltac:(apply Z.pow_nonneg; lia) T2 ltac:(apply Z.pow_nonneg; lia) Q) as M.
    rewrite <- Z.pow_add_r in M by lia. replace (Z.of_nat (clen o) - 1 + Z.of_nat (9 - clen o)) with 8 in M by lia. lia. }
  rewrite Z.mod_small in F3 by lia. unfold new_odd.
  destruct (rep_make (low o) (rev (add32 (rev (high o)) (rev (high e)) 0)) (clen o)) as (R & R' & _); [lia|rewrite rev_length; lia|lia|auto|apply words_rev; auto|].
  rewrite F3, V in R. split; [exact R|]. unfold tight. rewrite R'. cbn [clen]. rewrite V. exact T2.
Qed.

(** The invariant, for the numbers in [us] = (u, s) and [vr] = (v, r). *)
Definition inv_state (p x : Z) (us vr : combo) (u s v r k : Z) : Prop :=
  rep us u s /\ rep vr v r /\ 0 < u /\ 0 < v /\ u * s + v * r = p /\ Z.gcd u v = 1 /\ 0 <= k /\
  (p | x * s - v * 2^k) /\ (p | x * r + u * 2^k).
Lemma gcd_strip : forall e q o, 0 <= q -> Z.odd o = true -> Z.gcd (e * 2^q) o = 1 -> Z.gcd e o = 1.
Proof.
  intros e q o Hq Ho H. apply Zgcd_1_rel_prime. apply Zgcd_1_rel_prime in H. apply rel_prime_sym. apply rel_prime_sym in H.
  apply rel_prime_sym. apply rel_prime_div with (p := e * 2^q); [apply rel_prime_sym; auto|]. exists (2^q). ring.
Qed.
Lemma loop_spec : forall p x, 1 < p -> Z.odd p = true -> p < W^8 ->
  forall fuel us vr u s v r k (ev : bool), inv_state p x us vr u s v r k ->
  (if ev then tight us /\ Z.odd u = true /\ Z.odd s = true /\ Z.odd v && Z.odd r = false
   else tight vr /\ Z.odd v = true /\ Z.odd r = true /\ Z.odd u && Z.odd s = false) ->
  (1 <= fuel)%nat -> (Z.odd (u * v) = false -> u * v < 2 ^ Z.of_nat fuel) -> (Z.odd (u * v) = true -> u * v < 2 ^ (Z.of_nat fuel - 1)) ->
  exists us' k' s', inv_loop fuel us vr ev k = Ok (us', k') /\ rep us' 1 s' /\ clen us' = 1%nat /\ 0 <= k' /\ 0 < s' < p /\ (p | x * s' - 2^k').
Proof.
  intros p x Hp Op PB. induction fuel as [|f IH]; intros us vr u s v r k ev Inv Par Hf Te To; [lia|]. cbn [inv_loop].
  destruct Inv as (R1 & R2 & Pu & Pv & Ep & G & Hk & D1 & D2).
  destruct (rep_bounds _ _ _ R1) as [_ [Sp _]]. destruct (rep_bounds _ _ _ R2) as [_ [Rp _]].
  assert (USB : 0 <= u * s) by (apply Z.mul_nonneg_nonneg; lia). assert (VRB : 0 <= v * r) by (apply Z.mul_nonneg_nonneg; lia).
  (* after the strip: both odd *)
  assert (ST : exists c q u' s' v' r', strip (if ev then us else vr) (if ev then vr else us) k = Ok (c, k + q) /\
     inv_state p x (if ev then us else c) (if ev then c else vr) u' s' v' r' (k + q) /\
     tight (if ev then us else c) /\ tight (if ev then c else vr) /\ Z.odd u' = true /\ Z.odd v' = true /\
     (if ev then Z.odd s' = true else Z.odd r' = true) /\ (if ev then Z.odd r' = false else Z.odd s' = false) /\ u' * v' < 2 ^ Z.of_nat f).
  { assert (MEAS : forall e q o, 0 <= q -> 0 < o -> 0 < e -> Z.odd o = true -> Z.odd e = true -> u * v = e * 2^q * o -> e * o < 2 ^ Z.of_nat f).
    { intros e q o Hq Ho He Oo Oe E. destruct (Z.eq_dec q 0) as [->|Nq].
      - rewrite Z.pow_0_r, Z.mul_1_r in E. rewrite E in To. rewrite Z.odd_mul, Oo, Oe in To. specialize (To eq_refl). replace (Z.of_nat (S f) - 1) with (Z.of_nat f) in To by lia. auto.
      - assert (Ev : Z.odd (u * v) = false) by (rewrite E, !Z.odd_mul, Z.odd_pow by lia; rewrite andb_false_r; reflexivity). specialize (Te Ev).
        replace (Z.of_nat (S f)) with (Z.of_nat f + 1) in Te by lia. rewrite Z.pow_add_r in Te by lia. change (2^1) with 2 in Te.
        replace q with (q - 1 + 1) in E by lia. rewrite Z.pow_add_r in E by lia. change (2^1) with 2 in E.
        assert (EO : 0 < e * o) by (apply Z.mul_pos_pos; lia). assert (P1 : 0 < 2^(q-1)) by (apply Z.pow_pos_nonneg; lia).
        pose proof (Z.mul_le_mono_nonneg_l 1 (2^(q-1)) (e * o) ltac:(lia) ltac:(lia)) as M. replace (e * (2^(q-1) * 2) * o) with (e * o * 2^(q-1) * 2) in E by ring. lia. }
    destruct ev; destruct Par as (T & P1 & P2 & P3).
    - destruct (strip_spec us vr u s v r k R1 P1 P2 R2) as (c & q & A1 & A2 & A3 & A4 & A5 & A6); [lia| |auto|].
      { lia. }
      exists c, q, u, s, (v / 2^q), (r * 2^q). split; [exact A1|]. set (v' := v / 2^q) in *.
      assert (Q0 : 0 < 2^q) by (apply Z.pow_pos_nonneg; lia).
      assert (V0 : 0 < v') by (apply (Z.mul_pos_cancel_r v' (2^q)); [auto|lia]).
      split.
      + split; [auto|]. split; [auto|]. split; [auto|]. split; [auto|]. split; [rewrite <- Ep; rewrite A4; ring|].
        split; [apply Z.gcd_comm in G || idtac; rewrite Z.gcd_comm; apply (gcd_strip v' q u); auto; rewrite <- A4, Z.gcd_comm; auto|].
        split; [lia|]. rewrite Z.pow_add_r by lia. split.
        * replace (x * s - v' * (2^k * 2^q)) with (x * s - (v' * 2^q) * 2^k) by ring. rewrite <- A4. auto.
        * replace (x * (r * 2^q) + u * (2^k * 2^q)) with ((x * r + u * 2^k) * 2^q) by ring. apply Z.divide_mul_l. auto.
      + split; [auto|]. split; [auto|]. split; [auto|]. split; [auto|]. split; [auto|]. split.
        * destruct (Z.eq_dec q 0) as [->|Nq].
          -- rewrite Z.pow_0_r, Z.mul_1_r. unfold v' in A5. rewrite Z.pow_0_r, Z.div_1_r in A5. rewrite A5 in P3. exact P3.
          -- rewrite Z.odd_mul, Z.odd_pow by lia. apply andb_false_r.
        * rewrite Z.mul_comm. apply (MEAS v' q u); auto. rewrite <- A4. ring.
    - destruct (strip_spec vr us v r u s k R2 P1 P2 R1) as (c & q & A1 & A2 & A3 & A4 & A5 & A6); [lia| |auto|].
      { lia. }
      exists c, q, (u / 2^q), (s * 2^q), v, r. split; [exact A1|]. set (u' := u / 2^q) in *.
      assert (Q0 : 0 < 2^q) by (apply Z.pow_pos_nonneg; lia).
      assert (V0 : 0 < u') by (apply (Z.mul_pos_cancel_r u' (2^q)); [auto|lia]).
      split.
      + split; [auto|]. split; [auto|]. split; [auto|]. split; [auto|]. split; [rewrite <- Ep; rewrite A4; ring|].
        split; [apply (gcd_strip u' q v); auto; rewrite <- A4; auto|].
        split; [lia|]. rewrite Z.pow_add_r by lia. split.
        * replace (x * (s * 2^q) - v * (2^k * 2^q)) with ((x * s - v * 2^k) * 2^q) by ring. apply Z.divide_mul_l. auto.
        * replace (x * r + u' * (2^k * 2^q)) with (x * r + (u' * 2^q) * 2^k) by ring. rewrite <- A4. auto.
      + split; [auto|]. split; [auto|]. split; [auto|]. split; [auto|]. split; [auto|]. split.
        * destruct (Z.eq_dec q 0) as [->|Nq].
          -- rewrite Z.pow_0_r, Z.mul_1_r. unfold u' in A5. rewrite Z.pow_0_r, Z.div_1_r in A5. rewrite A5 in P3. exact P3.
          -- rewrite Z.odd_mul, Z.odd_pow by lia. apply andb_false_r.
        * apply (MEAS u' q v); auto. rewrite <- A4. ring. }
  destruct ST as (c & q & u' & s' & v' & r' & S1 & S2 & S3 & S4 & S5 & S6 & S7 & S8 & S9). rewrite S1. cbn [bind].
  clear - IH S2 S3 S4 S5 S6 S7 S8 S9 Hp Op PB.
  set (us1 := if ev then us else c) in *. set (vr1 := if ev then c else vr) in *. clearbody us1 vr1. set (k1 := k + q) in *. clearbody k1.
  destruct S2 as (R1 & R2 & Pu & Pv & Ep & G & Hk & D1 & D2).
  destruct (rep_bounds _ _ _ R1) as [_ [Sp _]]. destruct (rep_bounds _ _ _ R2) as [_ [Rp _]].
  assert (USB : 0 <= u' * s') by (apply Z.mul_nonneg_nonneg; lia). assert (VRB : 0 <= v' * r') by (apply Z.mul_nonneg_nonneg; lia).
  assert (SRodd : Z.odd (s' + r') = true) by (rewrite Z.odd_add; destruct ev; rewrite S7, S8; reflexivity).
  assert (F1 : (1 <= f)%nat). { destruct f; [|lia]. exfalso. change (2 ^ Z.of_nat 0) with 1 in S9. pose proof (Z.mul_pos_pos u' v'). lia. }
  pose proof (cmp32_spec us1 vr1 u' s' v' r' R1 R2 S3 S4) as C.
  assert (ODDREC : forall o ov, rep o ov (s' + r') -> Z.odd ov = true -> is_odd (w o 0) = true /\ is_odd (w o 8) = true).
  { intros o ov Ro Oo. destruct (rep_odd _ _ _ Ro) as [X1 X2]. rewrite X1, X2. auto. }
  destruct (Z.compare_spec u' v') as [E|E|E].
  - (* done *)
    rewrite C. cbn [Z.eqb]. exists us1, k1, s'. subst v'. rewrite Z.gcd_diag in G. rewrite Z.abs_eq in G by lia. subst u'.
    split; [reflexivity|]. split; [auto|].
    split. { unfold tight in S3. destruct R1 as (_ & _ & Rn & U & _). rewrite U in S3.
      destruct (Nat.eq_dec (clen us1) 1) as [Q|Q]; auto. exfalso. pose proof (Z.pow_le_mono_r W 1 (Z.of_nat (clen us1) - 1) ltac:(lia) ltac:(lia)). lia. }
    split; [auto|].
    assert (ND : ~ (p | 2^k1)).
    { intros Q. assert (RP : rel_prime p (2^k1)).
      { destruct (Z.eq_dec k1 0) as [->|Nk]; [apply rel_prime_sym, rel_prime_1|]. apply rel_prime_Zpower_r; [lia|].
        apply Zgcd_1_rel_prime. assert (Z.gcd p 2 = 1); auto.
        replace p with (1 + (p / 2) * 2). { rewrite Z.gcd_comm, Z.gcd_add_mult_diag_r. apply Z.gcd_1_r. }
        pose proof (Z.div_mod p 2 ltac:(lia)) as DM. rewrite Zmod_odd, Op in DM. lia. }
      pose proof (rel_prime_div p (2^k1) p RP (Z.divide_refl p)) as RR.
      assert (PP : (p | 1)). { destruct RP as [_ _ RP]. apply RP; auto. apply Z.divide_refl. }
      apply Z.divide_1_r_nonneg in PP; lia. }
    rewrite Z.mul_1_l in D1, D2. split; [|auto].
    assert (s' <> 0). { intros Q. apply ND. subst s'. rewrite Z.mul_0_r in D1. replace (2^k1) with (- (0 - 2^k1)) by ring. apply Z.divide_opp_r. auto. }
    assert (r' <> 0). { intros Q. apply ND. subst r'. rewrite Z.mul_0_r in D2. auto. }
    lia.
  - (* v' > u': even = vr *)
    destruct (Z.eqb_spec (cmp32 us1 vr1) 0) as [Q|Q]; [lia|]. destruct (Z.ltb_spec 0 (cmp32 us1 vr1)) as [Q'|Q']; [lia|]. cbn [negb].
    pose proof (new_even_spec vr1 us1 v' r' u' s' R2 R1 S4 S3 ltac:(lia)) as NE.
    assert (EQ2 : u' * (s' + r') + (v' - u') * r' = p) by (rewrite <- Ep; ring).
    assert (NB : 0 <= (v' - u') * r') by (apply Z.mul_nonneg_nonneg; lia).
    destruct (new_odd_spec vr1 us1 v' r' u' s' R2 R1 S4 S3) as [NO NT]; [lia|lia|].
    destruct (ODDREC _ _ NO S5) as [O1 O2]. rewrite O1, O2. destruct (rep_odd _ _ _ NE) as [N1 _].
    assert (EVD : Z.odd (v' - u') = false) by (rewrite Z.odd_sub, S5, S6; reflexivity).
    rewrite N1, EVD. cbn [negb andb].
    assert (PM : u' * (v' - u') < 2 ^ Z.of_nat f). { pose proof (Z.mul_pos_pos u' u' Pu Pu). replace (u' * (v' - u')) with (u' * v' - u' * u') by ring. lia. }
    apply (IH (new_odd vr1 us1) (new_even vr1 us1) u' (s' + r') (v' - u') r' k1 true).
    + split; [auto|]. split; [auto|]. split; [auto|]. split; [lia|]. split; [exact EQ2|]. split; [rewrite Z.gcd_sub_diag_r; auto|]. split; [auto|]. split; [|auto].
      replace (x * (s' + r') - (v' - u') * 2^k1) with ((x * s' - v' * 2^k1) + (x * r' + u' * 2^k1)) by ring. apply Z.divide_add_r; auto.
    + split; [auto|]. split; [auto|]. split; [auto|]. rewrite EVD. reflexivity.
    + auto.
    + intros _. exact PM.
    + rewrite Z.odd_mul, EVD, andb_false_r. discriminate.
  - (* u' > v' *)
    destruct (Z.eqb_spec (cmp32 us1 vr1) 0) as [Q|Q]; [lia|]. destruct (Z.ltb_spec 0 (cmp32 us1 vr1)) as [Q'|Q']; [|lia]. cbn [negb].
    pose proof (new_even_spec us1 vr1 u' s' v' r' R1 R2 S3 S4 ltac:(lia)) as NE.
    assert (EQ2 : (u' - v') * s' + v' * (r' + s') = p) by (rewrite <- Ep; ring).
    assert (NB : 0 <= (u' - v') * s') by (apply Z.mul_nonneg_nonneg; lia).
    destruct (new_odd_spec us1 vr1 u' s' v' r' R1 R2 S3 S4) as [NO NT]; [lia|lia|].
    rewrite (Z.add_comm r' s') in *. destruct (ODDREC _ _ NO S6) as [O1 O2]. rewrite O1, O2. destruct (rep_odd _ _ _ NE) as [N1 _].
    assert (EVD : Z.odd (u' - v') = false) by (rewrite Z.odd_sub, S5, S6; reflexivity).
    rewrite N1, EVD. cbn [negb andb].
    assert (PM : (u' - v') * v' < 2 ^ Z.of_nat f). { pose proof (Z.mul_pos_pos v' v' Pv Pv). replace ((u' - v') * v') with (u' * v' - v' * v') by ring. lia. }
    apply (IH (new_even us1 vr1) (new_odd us1 vr1) (u' - v') s' v' (s' + r') k1 false).
    + split; [auto|]. split; [auto|]. split; [lia|]. split; [auto|]. split; [exact EQ2|]. split; [rewrite Z.gcd_comm, Z.gcd_sub_diag_r, Z.gcd_comm; auto|]. split; [auto|]. split; [auto|].
      replace (x * (s' + r') + (u' - v') * 2^k1) with ((x * s' - v' * 2^k1) + (x * r' + u' * 2^k1)) by ring. apply Z.divide_add_r; auto.
    + split; [auto|]. split; [auto|]. split; [auto|]. rewrite EVD. reflexivity.
    + auto.
    + intros _. exact PM.
    + rewrite Z.odd_mul, EVD. discriminate.
Qed.
