(** The registers of bn_inverse. *)
From Coq Require Import Lia.
From Verif Require Import Base.Bytes Base.BytesFacts Spec.Bignum Model.Bignum Model.Inverse Proof.BnCore Proof.BnRed Proof.BnMul.
Open Scope Z_scope.

Notation W := (2^32).
Lemma le_cons : forall d l, le_val W (d :: l) = d + W * le_val W l. Proof. reflexivity. Qed.
Lemma le_app : forall a b, le_val W (a ++ b) = le_val W a + W ^ len a * le_val W b.
Proof.
  induction a as [|d a IH]; intros b; cbn [app]; [rewrite len_nil; change (le_val W []) with 0; rewrite Z.pow_0_r; lia|].
  rewrite !le_cons, IH, len_cons, Z.pow_add_r by (try apply len_nonneg; lia). change (W^1) with W. ring.
Qed.
Lemma le_bound : forall l, words_ok W l -> 0 <= le_val W l < W ^ len l.
Proof.
  intros l H. rewrite le_val_be_val. assert (E : len l = len (rev l)) by (unfold len; rewrite rev_length; reflexivity). rewrite E.
  apply be_val_bound; [lia|]. apply words_rev. auto.
Qed.
Lemma len_app' : forall (a b : list Z), len (a ++ b) = len a + len b.
Proof. intros. unfold len. rewrite app_length. lia. Qed.
Lemma pow_pos : forall n, 0 <= n -> 0 < W ^ n. Proof. intros. apply Z.pow_pos_nonneg; lia. Qed.

Definition rep (c : combo) (u s : Z) : Prop :=
  length (ca c) = 9%nat /\ words_ok W (ca c) /\ (1 <= clen c <= 8)%nat /\ le_val W (low c) = u /\ be_val W (high c) = s.
Definition tight (c : combo) : Prop := W ^ (Z.of_nat (clen c) - 1) <= le_val W (low c).
Lemma split_ca : forall c, ca c = low c ++ high c.
Proof. intros. unfold low, high. symmetry. apply firstn_skipn. Qed.
Lemma rep_parts : forall c u s, rep c u s -> length (low c) = clen c /\ length (high c) = (9 - clen c)%nat /\ words_ok W (low c) /\ words_ok W (high c).
Proof.
  intros c u s (L & H & R & _). unfold low, high. rewrite firstn_length, skipn_length. split; [lia|]. split; [lia|].
  split; apply Forall_forall; intros d Hd; apply (proj1 (Forall_forall _ _) H); rewrite <- (firstn_skipn (clen c) (ca c)); apply in_or_app; auto.
Qed.
Lemma rep_bounds : forall c u s, rep c u s -> 0 <= u < W ^ Z.of_nat (clen c) /\ 0 <= s < W ^ (9 - Z.of_nat (clen c)).
Proof.
  intros c u s R. destruct (rep_parts c u s R) as (A & C & D & E). destruct R as (_ & _ & R & <- & <-).
  pose proof (le_bound _ D) as F. unfold len in F. rewrite A in F.
  pose proof (be_val_bound W (high c) ltac:(lia) E) as G. unfold len in G. rewrite C in G. replace (Z.of_nat (9 - clen c)) with (9 - Z.of_nat (clen c)) in G by lia. auto.
Qed.
(** Building a register from its parts. *)
Lemma rep_make : forall lo hi n, length lo = n -> (length lo + length hi = 9)%nat -> (1 <= n <= 8)%nat -> words_ok W lo -> words_ok W hi ->
  rep (mkCombo (lo ++ hi) n) (le_val W lo) (be_val W hi) /\ low (mkCombo (lo ++ hi) n) = lo /\ high (mkCombo (lo ++ hi) n) = hi.
Proof.
  intros lo hi n L1 L2 R H1 H2. unfold rep, low, high. cbn [ca clen].
  rewrite firstn_app_len, skipn_app_len by auto. rewrite app_length. split; [|split; reflexivity].
  split; [auto|]. split; [apply Forall_app; auto|]. auto.
Qed.
Lemma odd_le : forall l, Z.odd (le_val W l) = Z.odd (nth 0 l 0).
Proof. destruct l as [|d l]; [reflexivity|]. rewrite le_cons. cbn [nth]. rewrite Z.odd_add, Z.odd_mul. change (Z.odd W) with false. cbn [andb]. apply xorb_false_r. Qed.
Lemma is_odd_spec : forall x, is_odd x = Z.odd x.
Proof.
  intros x. unfold is_odd. change 1 with (Z.ones 1). rewrite Z.land_ones by lia. change (2^1) with 2. rewrite Zmod_odd. destruct (Z.odd x); reflexivity.
Qed.
Lemma rep_odd : forall c u s, rep c u s -> is_odd (w c 0) = Z.odd u /\ is_odd (w c 8) = Z.odd s.
Proof.
  intros c u s R. destruct (rep_parts c u s R) as (A & C & _). destruct R as (L & _ & R & <- & <-). rewrite !is_odd_spec, odd_le. unfold w. split.
  - f_equal. rewrite (split_ca c). rewrite app_nth1 by lia. reflexivity.
  - rewrite <- (rev_involutive (high c)), <- le_val_be_val, odd_le. f_equal. rewrite (split_ca c), app_nth2 by lia. rewrite rev_nth by lia. f_equal. lia.
Qed.

(** Length adjustment. *)
Lemma firstn_snoc : forall (a : list Z) n, (n < length a)%nat -> firstn (S n) a = firstn n a ++ [nth n a 0] /\ skipn n a = nth n a 0 :: skipn (S n) a.
Proof.
  induction a as [|d a IH]; intros n L; [cbn in L; lia|]. destruct n as [|n]; [split; reflexivity|]. cbn [length] in L.
  destruct (IH n) as [E F]; [lia|]. split; [change (firstn (S (S n)) (d :: a)) with (d :: firstn (S n) a); rewrite E; reflexivity|exact F].
Qed.
Lemma adjust_spec : forall a n, length a = 9%nat -> words_ok W a -> (n <= 8)%nat ->
  le_val W (firstn n a) <> 0 ->
  exists n', adjust_len a n = Ok n' /\ (1 <= n' <= n)%nat /\ le_val W (firstn n' a) = le_val W (firstn n a) /\
    be_val W (skipn n' a) = be_val W (skipn n a) /\ W ^ (Z.of_nat n' - 1) <= le_val W (firstn n' a).
Proof.
  intros a n La Ha. induction n as [|n IH]; intros Hn V; [cbn in V; congruence|]. cbn [adjust_len].
  destruct (firstn_snoc a n) as [E F]; [lia|]. pose proof (limb_range W a n ltac:(lia) Ha) as R. unfold limb in R.
  assert (LF : len (firstn n a) = Z.of_nat n) by (unfold len; rewrite firstn_length; lia).
  assert (WF : words_ok W (firstn n a)) by (apply Forall_forall; intros d Hd; apply (proj1 (Forall_forall _ _) Ha); rewrite <- (firstn_skipn n a); apply in_or_app; auto).
  pose proof (le_bound _ WF) as LB. rewrite LF in LB. pose proof (pow_pos (Z.of_nat n) ltac:(lia)).
  assert (VE : le_val W (firstn (S n) a) = le_val W (firstn n a) + W ^ Z.of_nat n * nth n a 0).
  { rewrite E, le_app, LF. change (le_val W [nth n a 0]) with (nth n a 0 + W * 0). f_equal. f_equal. lia. }
  destruct (Z.eqb_spec (nth n a 0) 0) as [Z0|Z0].
  - rewrite Z0, Z.mul_0_r, Z.add_0_r in VE. destruct IH as (n' & A & C & D & G & I); [lia|congruence|]. exists n'. split; auto. split; [lia|].
    split; [congruence|]. split; auto. rewrite G, F, Z0, be_val_cons. lia.
  - exists (S n). split; auto. split; [lia|]. split; auto. split; auto. rewrite VE. replace (Z.of_nat (S n) - 1) with (Z.of_nat n) by lia.
    pose proof (Z.mul_le_mono_nonneg_l 1 (nth n a 0) (W ^ Z.of_nat n) ltac:(lia) ltac:(lia)). lia.
Qed.
Lemma adjust_zero : forall a n, (forall i, (i < n)%nat -> nth i a 0 = 0) -> adjust_len a n = UB.
Proof. induction n as [|n IH]; intros H; cbn [adjust_len]; auto. rewrite H by lia. cbn [Z.eqb]. apply IH. intros. apply H. lia. Qed.

(** Whole words. *)
Lemma shift_words_spec : forall fuel c u s k, rep c u s -> tight c -> (clen c <= fuel)%nat -> 
  exists c' q, shift_words fuel c k = Ok (c', k + q) /\ 0 <= q /\ rep c' (u / 2^q) (s * 2^q) /\ u = u / 2^q * 2^q /\ tight c' /\ w c' 0 <> 0.
Proof.
  induction fuel as [|f IH]; intros c u s k R T F; [destruct R as (_ & _ & R & _); lia|]. cbn [shift_words].
  destruct (rep_parts c u s R) as (A & C & D & E). destruct (Z.eqb_spec (w c 0) 0) as [Z0|Z0].
  - pose proof R as (L & H & Rn & U & S0). unfold tight in T.
    assert (E0 : exists t, low c = 0 :: t).
    { destruct (low c) as [|d t] eqn:EL; [cbn in A; lia|]. exists t. f_equal. unfold w in Z0. rewrite (split_ca c), EL in Z0. exact Z0. }
    destruct E0 as [t E0]. rewrite E0 in *. cbn [length] in A. rewrite le_cons in *.
    assert (n2 : (2 <= clen c)%nat).
    { destruct (Nat.eq_dec (clen c) 1) as [Q|Q]; [|lia]. exfalso. rewrite Q in *. destruct t; [|discriminate]. change (W ^ (Z.of_nat 1 - 1)) with 1 in T. change (le_val W []) with 0 in T. lia. }
    assert (TA : tl (ca c) ++ [0] = t ++ (high c ++ [0])).
    { rewrite (split_ca c), E0. cbn [tl app]. rewrite <- app_assoc. reflexivity. }
    rewrite TA. inversion D as [|? ? D1 D2]; subst.
    destruct (rep_make t (high c ++ [0]) (clen c - 1)) as (R1 & R2 & R3); [lia|rewrite app_length; cbn [length]; lia|lia|auto|apply Forall_app; split; [auto|constructor; [lia|constructor]]|].
    set (c1 := mkCombo (t ++ high c ++ [0]) (clen c - 1)) in *.
    assert (HS : be_val W (high c ++ [0]) = be_val W (high c) * W) by (rewrite be_val_snoc; lia).
    rewrite HS in R1.
    destruct (IH c1 (le_val W t) (be_val W (high c) * W) (k + 32)) as (c' & q & X1 & X2 & X3 & X4 & X5 & X6); auto.
    + unfold tight. rewrite R2. unfold c1. cbn [clen]. replace (Z.of_nat (clen c) - 1) with (Z.of_nat (clen c - 1) - 1 + 1) in T by lia.
      rewrite Z.pow_add_r in T by lia. change (W^1) with W in T. lia.
    + unfold c1. cbn [clen]. lia.
    + exists c', (q + 32). rewrite X1. replace (k + 32 + q) with (k + (q + 32)) by lia. split; [reflexivity|]. split; [lia|].
      rewrite Z.pow_add_r by lia.
      assert (P0 : 0 < 2^q) by (apply Z.pow_pos_nonneg; lia).
      assert (ED : (0 + W * le_val W t) / (2^q * W) = le_val W t / 2^q).
      { rewrite Z.add_0_l, (Z.mul_comm W), Z.div_mul_cancel_r by lia. reflexivity. }
      rewrite ED. replace (be_val W (high c) * (2^q * W)) with (be_val W (high c) * W * 2^q) by ring. split; [exact X3|]. split; [|auto].
      replace (le_val W t / 2^q * (2^q * W)) with ((le_val W t / 2^q * 2^q) * W) by ring. rewrite <- X4. lia.
  - exists c, 0. rewrite Z.add_0_r. rewrite Z.pow_0_r, Z.div_1_r, !Z.mul_1_r. split; [reflexivity|]. split; [lia|]. auto.
Qed.
(** Low zero bits. *)
Lemma land_pow2 : forall x j, 0 <= j -> (Z.land x (2^j) =? 0) = negb (Z.testbit x j).
Proof.
  intros x j Hj. destruct (Z.eqb_spec (Z.land x (2^j)) 0) as [E|E].
  - assert (F : Z.testbit (Z.land x (2^j)) j = false) by (rewrite E; apply Z.testbit_0_l).
    rewrite Z.land_spec, Z.pow2_bits_true, andb_true_r in F by auto. rewrite F. reflexivity.
  - destruct (Z.testbit x j) eqn:T; auto. exfalso. apply E. apply Z.bits_inj'. intros i Hi. rewrite Z.land_spec, Z.testbit_0_l.
    destruct (Z.eq_dec i j) as [->|N]; [rewrite T; reflexivity|]. rewrite Z.pow2_bits_false by auto. apply andb_false_r.
Qed.
Lemma count_bits_spec : forall fuel x j, 0 <= j -> j + Z.of_nat fuel = 32 -> 0 < x < W -> x mod 2^j = 0 ->
  exists j', count_bits fuel x j = Ok j' /\ j <= j' < 32 /\ x mod 2^j' = 0 /\ Z.odd (x / 2^j') = true.
Proof.
  induction fuel as [|f IH]; intros x j Hj Hf Hx Hm; cbn [count_bits].
  - exfalso. replace j with 32 in Hm by lia. rewrite Z.mod_small in Hm by lia. lia.
  - rewrite Z.shiftl_1_l. rewrite u32_id by (split; [apply Z.pow_nonneg; lia|apply Z.pow_lt_mono_r; lia]). rewrite land_pow2 by auto.
    destruct (Z.testbit x j) eqn:T; cbn [negb].
    + exists j. split; auto. split; [lia|]. split; auto. rewrite <- Z.shiftr_div_pow2 by auto. rewrite <- Z.bit0_odd, Z.shiftr_spec by lia. rewrite Z.add_0_l. auto.
    + destruct (IH x (j + 1)) as (j' & A & C & D); auto; [lia|lia| |].
      * rewrite Z.pow_add_r by lia. change (2^1) with 2. rewrite Z.rem_mul_r by (try apply Z.pow_nonzero; lia). rewrite Hm.
        assert (O : Z.odd (x / 2^j) = false) by (rewrite <- Z.shiftr_div_pow2, <- Z.bit0_odd, Z.shiftr_spec, Z.add_0_l by lia; auto).
        rewrite Zmod_odd, O. lia.
      * exists j'. split; auto. split; [lia|]. auto.
Qed.
(** Shifts by j bits. *)
Lemma shr_word : forall x y j, 0 < j < 32 -> 0 <= x < W -> 0 <= y < W ->
  Z.lor (Z.shiftr x j) (u32 (Z.shiftl y (32 - j))) = x / 2^j + (y mod 2^j) * 2^(32 - j).
Proof.
  intros x y j Hj Hx Hy. rewrite Z.shiftr_div_pow2, Z.shiftl_mul_pow2 by lia.
  assert (P : W = 2^j * 2^(32 - j)) by (rewrite <- Z.pow_add_r by lia; f_equal; lia).
  assert (0 < 2^j) by (apply Z.pow_pos_nonneg; lia). assert (0 < 2^(32 - j)) by (apply Z.pow_pos_nonneg; lia).
  unfold u32. rewrite P, Z.mul_mod_distr_r by lia. rewrite Z.lor_comm, lor_add; [lia|lia|].
  split; [apply Z.div_pos; lia|apply Z.div_lt_upper_bound; lia].
Qed.
Lemma shr_spec : forall j l, 0 < j < 32 -> words_ok W l ->
  words_ok W (shr_bits j l) /\ length (shr_bits j l) = length l /\ le_val W (shr_bits j l) = le_val W l / 2^j.
Proof.
  intros j l Hj. assert (P : W = 2^j * 2^(32 - j)) by (rewrite <- Z.pow_add_r by lia; f_equal; lia).
  assert (P0 : 0 < 2^j) by (apply Z.pow_pos_nonneg; lia). assert (P1 : 0 < 2^(32 - j)) by (apply Z.pow_pos_nonneg; lia).
  induction l as [|x l IH]; intros H; [split; [apply Forall_nil|split; [reflexivity|change (0 = 0 / 2^j); symmetry; apply Z.div_0_l; lia]]|].
  inversion H as [|? ? Hx Hl]; subst. destruct l as [|y l].
  - cbn [shr_bits]. rewrite Z.shiftr_div_pow2 by lia.
    assert (0 <= x / 2^j < W) by (split; [apply Z.div_pos; lia|apply Z.div_lt_upper_bound; [lia|]; rewrite Z.mul_comm; pose proof (Z.mul_le_mono_nonneg_l 1 (2^j) W); lia]).
    split; [constructor; [lia|constructor]|]. split; [reflexivity|]. rewrite !le_cons. change (le_val W []) with 0. rewrite !Z.mul_0_r, !Z.add_0_r. reflexivity.
  - destruct (IH Hl) as (A & C & D). inversion Hl as [|? ? Hy Hl']; subst.
    change (shr_bits j (x :: y :: l)) with (Z.lor (Z.shiftr x j) (u32 (Z.shiftl y (32 - j))) :: shr_bits j (y :: l)).
    rewrite shr_word by auto. pose proof (Z.mod_pos_bound y (2^j) ltac:(lia)) as MB.
    assert (XB : 0 <= x / 2^j < 2^(32 - j)) by (split; [apply Z.div_pos; lia|apply Z.div_lt_upper_bound; lia]).
    split; [constructor; [|auto]|].
    { split; [lia|]. rewrite P. pose proof (Z.mul_le_mono_nonneg_r (y mod 2^j) (2^j - 1) (2^(32 - j)) ltac:(lia) ltac:(lia)). lia. }
    split; [cbn [length] in *; lia|]. rewrite (le_cons x), (le_cons (x / 2^j + _)), D. set (V := le_val W (y :: l)).
    assert (VM : V mod 2^j = y mod 2^j).
    { unfold V. rewrite le_cons, P. replace (y + 2^j * 2^(32 - j) * le_val (2^j * 2^(32 - j)) l) with (y + (2^(32 - j) * le_val (2^j * 2^(32 - j)) l) * 2^j) by ring. apply Z.mod_add. lia. }
    rewrite P. replace (x + 2^j * 2^(32 - j) * V) with (x + (2^(32 - j) * V) * 2^j) by ring. rewrite Z.div_add by lia.
    rewrite <- VM. pose proof (Z.div_mod V (2^j) ltac:(lia)) as DM. set (dv := V / 2^j) in *. set (mv := V mod 2^j) in *. rewrite DM. ring.
Qed.
Lemma shl_spec : forall j l, 0 < j < 32 -> words_ok W l ->
  words_ok W (shl_bits j l) /\ length (shl_bits j l) = length l /\ be_val W (shl_bits j l) = (be_val W l * 2^j) mod W ^ len l.
Proof.
  intros j l Hj. assert (P : W = 2^(32 - j) * 2^j) by (rewrite <- Z.pow_add_r by lia; f_equal; lia).
  assert (P0 : 0 < 2^j) by (apply Z.pow_pos_nonneg; lia). assert (P1 : 0 < 2^(32 - j)) by (apply Z.pow_pos_nonneg; lia).
  assert (U : forall x, 0 <= x -> u32 (Z.shiftl x j) = (x mod 2^(32 - j)) * 2^j).
  { intros x Hx. rewrite Z.shiftl_mul_pow2 by lia. unfold u32. rewrite P, Z.mul_mod_distr_r by lia. reflexivity. }
  assert (UB : forall x, 0 <= x -> 0 <= u32 (Z.shiftl x j) <= W - 2^j).
  { intros x Hx. rewrite U by auto. pose proof (Z.mod_pos_bound x (2^(32 - j)) ltac:(lia)).
    pose proof (Z.mul_le_mono_nonneg_r (x mod 2^(32 - j)) (2^(32 - j) - 1) (2^j) ltac:(lia) ltac:(lia)). lia. }
  induction l as [|x l IH]; intros H; [split; [apply Forall_nil|split; [reflexivity|rewrite len_nil, Z.pow_0_r, Z.mod_1_r; reflexivity]]|].
  inversion H as [|? ? Hx Hl]; subst. destruct l as [|y l].
  - cbn [shl_bits]. split; [constructor; [pose proof (UB x ltac:(lia)); lia|constructor]|]. split; [reflexivity|].
    rewrite !be_val_cons. change (be_val W []) with 0. rewrite len_cons, len_nil. rewrite Z.pow_0_r, !Z.mul_1_r, !Z.add_0_r. change (W^1) with W. rewrite Z.shiftl_mul_pow2 by lia. reflexivity.
  - destruct (IH Hl) as (A & C & D). inversion Hl as [|? ? Hy Hl']; subst.
    change (shl_bits j (x :: y :: l)) with (Z.lor (u32 (Z.shiftl x j)) (Z.shiftr y (32 - j)) :: shl_bits j (y :: l)).
    rewrite Z.shiftr_div_pow2 by lia.
    assert (YB : 0 <= y / 2^(32 - j) < 2^j) by (split; [apply Z.div_pos; lia|apply Z.div_lt_upper_bound; lia]).
    assert (LE : Z.lor (u32 (Z.shiftl x j)) (y / 2^(32 - j)) = u32 (Z.shiftl x j) + y / 2^(32 - j)) by (rewrite U by lia; apply lor_add; lia).
    rewrite LE. split; [constructor; [pose proof (UB x ltac:(lia)); lia|auto]|]. split; [cbn [length] in *; lia|].
    rewrite !(be_val_cons _ (_ + _)), (be_val_cons _ x), D. assert (LL : len (shl_bits j (y :: l)) = len (y :: l)) by (unfold len; rewrite C; reflexivity).
    rewrite LL. set (n := len (y :: l)). assert (Hn : 0 <= n) by apply len_nonneg. set (V := be_val W (y :: l)).
    rewrite (len_cons _ x). fold n. rewrite Z.pow_add_r by lia. change (W^1) with W.
    assert (VB : 0 <= V < W ^ n) by (apply be_val_bound; [lia|auto]).
    (* the bits leaving V enter the next word *)
    assert (VD : V * 2^j / W ^ n = y / 2^(32 - j)).
    { assert (EN : W ^ n = W ^ len l * W) by (unfold n; rewrite len_cons, Z.pow_add_r by (try apply len_nonneg; lia); change (W^1) with W; ring).
      unfold V. rewrite be_val_cons. rewrite EN. rewrite P at 4. pose proof (pow_pos (len l) (len_nonneg _ l)) as PL.
      pose proof (be_val_bound W l ltac:(lia) Hl') as BL.
      rewrite Z.mul_assoc, Z.div_mul_cancel_r by lia.
      rewrite <- Z.div_div by lia. rewrite Z.add_comm, Z.div_add by lia. rewrite (Z.div_small (be_val W l)) by lia. rewrite Z.add_0_l. reflexivity. }
    pose proof (pow_pos n Hn) as PN.
    replace ((x * W ^ n + V) * 2^j) with (V * 2^j + x * 2^j * W ^ n) by ring.
    rewrite (Z.mul_comm W (W ^ n)). rewrite Z.rem_mul_r by lia. rewrite Z.mod_add by lia. rewrite Z.div_add by lia. rewrite VD.
    rewrite U by lia. set (yy := y / 2^(32 - j)) in *.
    assert (M : (yy + x * 2^j) mod W = x mod 2^(32 - j) * 2^j + yy).
    { pose proof (Z.mod_pos_bound x (2^(32 - j)) ltac:(lia)). pose proof (Z.div_mod x (2^(32 - j)) ltac:(lia)) as DX.
      symmetry. apply (Z.mod_unique_pos _ _ (x / 2^(32 - j))).
      - pose proof (UB x ltac:(lia)) as UX. rewrite U in UX by lia. lia.
      - rewrite P at 1. set (q := x / 2^(32 - j)) in *. set (r := x mod 2^(32 - j)) in *. rewrite DX. ring. }
    rewrite M. ring.
Qed.
Lemma shift_j_spec : forall c u s j, rep c u s -> tight c -> 0 < j < 32 -> u mod 2^j = 0 -> u * s < W^8 ->
  rep (shift_j c j) (u / 2^j) (s * 2^j) /\ tight (shift_j c j).
Proof.
  intros c u s j R T Hj Hm Hb. destruct (rep_parts c u s R) as (A & C & D & E). pose proof (rep_bounds c u s R) as [UBd SBd].
  destruct R as (L & H & Rn & U & S0). unfold tight in T. rewrite U in T.
  destruct (shr_spec j (low c) Hj D) as (F1 & F2 & F3). rewrite U in F3.
  set (lo := shr_bits j (low c)) in *. unfold shift_j. fold lo.
  assert (P0 : 0 < 2^j) by (apply Z.pow_pos_nonneg; lia). assert (PW : 2^j < W) by (apply Z.pow_lt_mono_r; lia).
  assert (UE : u = 2^j * (u / 2^j)) by (apply Z.div_exact; lia).
  set (n := clen c) in *. pose proof (pow_pos (Z.of_nat n - 1) ltac:(lia)) as PN.
  assert (U1 : 0 < u / 2^j) by (apply Z.mul_pos_cancel_l with (n := 2^j); lia).
  destruct (exists_last (l := lo)) as (lo' & t & EL); [intros Q; rewrite Q in F2; cbn in F2; lia|].
  assert (LL : length lo' = (n - 1)%nat) by (rewrite EL, app_length in F2; cbn [length] in F2; lia).
  assert (WL : words_ok W lo' /\ 0 <= t < W) by (rewrite EL in F1; apply Forall_app in F1 as [G1 G2]; apply Forall_inv in G2; auto).
  assert (VL : u / 2^j = le_val W lo' + W ^ (Z.of_nat n - 1) * t).
  { rewrite <- F3, EL, le_app. unfold len. rewrite LL. replace (Z.of_nat (n - 1)) with (Z.of_nat n - 1) by lia. rewrite le_cons. change (le_val W []) with 0. lia. }
  rewrite EL, last_last, removelast_last. destruct WL as [WL Ht].
  assert (SB : s * 2^j * (u / 2^j) < W^8) by (replace (s * 2^j * (u / 2^j)) with ((2^j * (u / 2^j)) * s) by ring; rewrite <- UE; exact Hb).
  destruct (Z.eqb_spec t 0) as [T0|T0].
  - rewrite T0, Z.mul_0_r, Z.add_0_r in VL.
    assert (n2 : (2 <= n)%nat).
    { destruct (Nat.eq_dec n 1) as [Q|Q]; [|lia]. rewrite Q in LL. destruct lo'; [|discriminate]. cbn in VL. lia. }
    assert (TU : W ^ (Z.of_nat n - 1 - 1) <= u / 2^j).
    { replace (Z.of_nat n - 1) with (Z.of_nat n - 1 - 1 + 1) in T by lia. rewrite Z.pow_add_r in T by lia. change (W^1) with W in T.
      pose proof (pow_pos (Z.of_nat n - 1 - 1) ltac:(lia)) as P2. set (y := W ^ (Z.of_nat n - 1 - 1)) in *.
      apply Z.lt_succ_r. apply (Z.mul_lt_mono_pos_l (2^j)); [lia|]. rewrite Z.mul_succ_r, <- UE.
      pose proof (Z.mul_le_mono_nonneg_l (2^j) W y ltac:(lia) ltac:(lia)). lia. }
    assert (WH : words_ok W (0 :: high c)) by (constructor; [lia|auto]).
    destruct (shl_spec j (0 :: high c) Hj WH) as (G1 & G2 & G3).
    cbn [length] in G2. rewrite be_val_cons, Z.mul_0_l, Z.add_0_l, S0 in G3. unfold len in G3. cbn [length] in G3. rewrite C in G3.
    assert (SS : s * 2^j < W ^ Z.of_nat (S (9 - n))).
    { destruct (Z.lt_ge_cases (s * 2^j) (W ^ Z.of_nat (S (9 - n)))) as [Q|Q]; auto. exfalso.
      pose proof (Z.mul_le_mono_nonneg (W ^ Z.of_nat (S (9 - n))) (s * 2^j) (W ^ (Z.of_nat n - 1 - 1)) (u / 2^j) ltac:(apply Z.pow_nonneg; lia) Q ltac:(apply Z.pow_nonneg; lia) TU) as M.
      rewrite <- Z.pow_add_r in M by lia. replace (Z.of_nat (S (9 - n)) + (Z.of_nat n - 1 - 1)) with 8 in M by lia. lia. }
    rewrite Z.mod_small in G3 by (split; [apply Z.mul_nonneg_nonneg; lia|auto]).
    destruct (rep_make lo' (shl_bits j (0 :: high c)) (n - 1)) as (R1 & R2 & R3); [lia|lia|lia|auto|auto|].
    rewrite G3, <- VL in R1. split; [exact R1|]. unfold tight. rewrite R2. cbn [clen]. rewrite <- VL. replace (Z.of_nat (n - 1) - 1) with (Z.of_nat n - 1 - 1) by lia. exact TU.
  - assert (TU : W ^ (Z.of_nat n - 1) <= u / 2^j).
    { rewrite VL. pose proof (le_bound lo' WL). pose proof (Z.mul_le_mono_nonneg_l 1 t (W ^ (Z.of_nat n - 1)) ltac:(lia) ltac:(lia)). lia. }
    destruct (shl_spec j (high c) Hj E) as (G1 & G2 & G3). rewrite S0 in G3. unfold len in G3. rewrite C in G3.
    assert (SS : s * 2^j < W ^ Z.of_nat (9 - n)).
    { destruct (Z.lt_ge_cases (s * 2^j) (W ^ Z.of_nat (9 - n))) as [Q|Q]; auto. exfalso.
      pose proof (Z.mul_le_mono_nonneg (W ^ Z.of_nat (9 - n)) (s * 2^j) (W ^ (Z.of_nat n - 1)) (u / 2^j) ltac:(apply Z.pow_nonneg; lia) Q ltac:(apply Z.pow_nonneg; lia) TU) as M.
      rewrite <- Z.pow_add_r in M by lia. replace (Z.of_nat (9 - n) + (Z.of_nat n - 1)) with 8 in M by lia. lia. }
    rewrite Z.mod_small in G3 by (split; [apply Z.mul_nonneg_nonneg; lia|auto]).
    rewrite <- EL. destruct (rep_make lo (shl_bits j (high c)) n) as (R1 & R2 & R3); [lia|lia|lia|auto|auto|].
    rewrite G3, F3 in R1. split; [exact R1|]. unfold tight. rewrite R2. cbn [clen]. rewrite F3. exact TU.
Qed.
