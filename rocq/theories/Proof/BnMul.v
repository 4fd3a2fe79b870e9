(** Multiplication, halving, small multiples. *)
From Coq Require Import Lia.
From Verif Require Import Base.Bytes Base.BytesFacts Spec.Bignum Model.Bignum Proof.BnCore Proof.BnRed.
Open Scope Z_scope.

Definition colsum (k x : bn) (i : nat) : Z := fold_right Z.add 0 (map (fun j => limb k j * limb x (i - j)) (column i)).
Lemma fold_u64 : forall (f : nat -> Z) l t, 0 <= t -> (forall j, 0 <= f j < 2^60) -> t + 2^60 * len l < 2^64 ->
  fold_left (fun t j => u64 (t + f j)) l t = t + fold_right Z.add 0 (map f l) /\
  0 <= fold_right Z.add 0 (map f l) <= 2^60 * len l.
Proof.
  intros f. induction l as [|j l IH]; intros t Ht Hf Hl; cbn [fold_left map fold_right].
  - rewrite len_nil. lia.
  - rewrite len_cons in *. pose proof (Hf j). rewrite u64_id by (pose proof (len_nonneg _ l); lia).
    destruct (IH (t + f j)) as [-> ?]; auto; lia.
Qed.
Lemma limb_range : forall b x j, 0 < b -> words_ok b x -> 0 <= limb x j < b.
Proof.
  intros b x j Hb H. unfold limb. destruct (Nat.lt_ge_cases j (length x)).
  - apply (proj1 (Forall_forall _ _) H). apply nth_In. auto.
  - rewrite nth_overflow by auto. lia.
Qed.
Lemma column_len : forall i, (i < 17)%nat -> len (column i) <= 9.
Proof. intros i H. unfold column. destruct (Nat.ltb_spec i 9); unfold len; rewrite seq_length; lia. Qed.
Lemma long_loop_digs : forall k x, words_ok B k -> words_ok B x -> forall is temp, Forall (fun i => (i < 17)%nat) is -> 0 <= temp < 2^36 ->
  let cols := map (colsum k x) is in
  long_loop k x is temp = digs cols temp ++ [u32 (dcarry cols temp)].
Proof.
  intros k x Hk Hx. induction is as [|i is IH]; intros temp F T; cbv zeta; cbn [long_loop map digs dcarry app]; auto.
  inversion F as [|? ? Fi F']; subst. pose proof (column_len i Fi). 
  destruct (fold_u64 (fun j => limb k j * limb x (i - j)) (column i) temp) as [E R].
  - lia.
  - intros j. pose proof (limb_range B k j ltac:(lia) Hk). pose proof (limb_range B x (i - j) ltac:(lia) Hx).
    split; [apply Z.mul_nonneg_nonneg; lia|]. pose proof (Z.mul_le_mono_nonneg (limb k j) (B - 1) (limb x (i - j)) (B - 1)). lia.
  - lia.
  - cbv zeta. rewrite E. fold (colsum k x i) in *. rewrite land_mask, shr30. f_equal. apply IH; auto.
    pose proof (div_range 0 (2^34 + 2^33) (temp + colsum k x i) ltac:(lia)). lia.
Qed.
Lemma cols_product : forall k x, length k = 9%nat -> length x = 9%nat -> bn_val (map (colsum k x) (seq 0 17)) = bn_val k * bn_val x.
Proof.
  intros k x Lk Lx.
  destruct k as [|k0 [|k1 [|k2 [|k3 [|k4 [|k5 [|k6 [|k7 [|k8 [|]]]]]]]]]]; try discriminate.
  destruct x as [|x0 [|x1 [|x2 [|x3 [|x4 [|x5 [|x6 [|x7 [|x8 [|]]]]]]]]]]; try discriminate.
  cbn [seq map]. unfold colsum, column. cbn [Nat.ltb Nat.leb Nat.add Nat.sub seq map fold_right limb nth].
  unfold limb. cbn [nth]. rewrite !bn_val_cons, bn_val_nil. generalize B. intros b. ring.
Qed.
Lemma multiply_long_spec : forall k x, normalized k -> normalized x ->
  length (bn_multiply_long k x) = 18%nat /\ words_ok B (bn_multiply_long k x) /\ bn_val (bn_multiply_long k x) = bn_val k * bn_val x.
Proof.
  intros k x Nk Nx. pose proof (norm_val k Nk) as Vk. pose proof (norm_val x Nx) as Vx. destruct Nk as [Lk Hk], Nx as [Lx Hx].
  unfold bn_multiply_long. pose proof (long_loop_digs k x Hk Hx (seq 0 17) 0) as E. cbv zeta in E. rewrite E; [|apply Forall_forall; intros i Hi; apply in_seq in Hi; lia|lia].
  clear E. set (cols := map (colsum k x) (seq 0 17)). assert (LC : length cols = 17%nat) by reflexivity.
  pose proof (cols_product k x Lk Lx) as P. fold cols in P. pose proof (digs_val cols 0) as D. pose proof (digs_len cols 0) as DL. pose proof (digs_ok cols 0) as DO.
  pose proof (bn_val_upper _ DO) as DB. unfold len in D, DB. rewrite DL, LC in DB. rewrite LC in D. change (Z.of_nat 17) with 17 in *. rewrite <- (Z.pow_mul_r 2 30 17) in * by lia. change (30 * 17) with 510 in *.
  assert (PB : 0 <= bn_val k * bn_val x < 2^540).
  { split; [apply Z.mul_nonneg_nonneg; lia|]. pose proof (Z.mul_le_mono_nonneg (bn_val k) (2^270 - 1) (bn_val x) (2^270 - 1)). lia. }
  clearbody cols. assert (C : 0 <= dcarry cols 0 < 2^30) by lia.
  rewrite u32_id by lia. split; [rewrite app_length, DL, LC; reflexivity|]. split.
  - apply Forall_app. split; auto.
  - rewrite bn_val_app, bn_val_cons, bn_val_nil. unfold len. rewrite DL, LC. change (Z.of_nat 17) with 17. rewrite <- (Z.pow_mul_r 2 30 17) by lia. change (30 * 17) with 510. lia.
Qed.

(** One reduction step. *)
Definition X10 (mid : list Z) (top : Z) : Z := bn_val (mid ++ [top]).
Lemma nth_mid : forall (a b : list Z) i d, nth (length a + i) (a ++ b) d = nth i b d.
Proof. intros. rewrite app_nth2 by lia. f_equal. lia. Qed.
Lemma reduce_step_spec : forall m lo mid top hi, modulus m -> length mid = 9%nat -> words_ok B mid -> 0 <= top < B ->
  X10 mid top < B * (2 * bn_val m) ->
  let res := lo ++ mid ++ [top] ++ hi in let i := (length lo + 8)%nat in
  exists l, bn_multiply_reduce_step res m i = lo ++ l ++ [0] ++ hi /\ length l = 9%nat /\ words_ok B l /\
    bn_val l < 2 * bn_val m /\ bn_val l mod bn_val m = X10 mid top mod bn_val m /\ reduce_coef_assert res i = true.
Proof.
  intros m lo mid top hi [Nm Rm] Lm Hm Ht HX. cbv zeta. set (res := lo ++ mid ++ [top] ++ hi). set (i := (length lo + 8)%nat).
  assert (R1 : nth i res 0 = limb mid 8).
  { unfold i, res. rewrite nth_mid, app_nth1 by lia. reflexivity. }
  assert (R2 : nth (i + 1) res 0 = top).
  { unfold i, res. rewrite <- Nat.add_assoc, nth_mid. replace (8 + 1)%nat with (length mid + 0)%nat by lia. rewrite nth_mid. reflexivity. }
  assert (R3 : firstn 9 (skipn (i - 8) res) = mid).
  { unfold i, res. replace (length lo + 8 - 8)%nat with (length lo) by lia. rewrite skipn_app_len by auto. apply firstn_app_len. auto. }
  assert (R4 : firstn (i - 8) res = lo).
  { unfold i, res. replace (length lo + 8 - 8)%nat with (length lo) by lia. apply firstn_app_len. auto. }
  assert (R5 : skipn (i + 2) res = hi).
  { unfold i, res. rewrite !app_assoc. apply skipn_app_len. rewrite !app_length. cbn [length]. lia. }
  assert (Hm8 : 0 <= limb mid 8 < B) by (apply limb_range; auto; lia).
  assert (XE : X10 mid top = bn_val (firstn 8 mid) + 2^240 * (limb mid 8 + B * top)).
  { unfold X10, limb. destruct mid as [|x0 [|x1 [|x2 [|x3 [|x4 [|x5 [|x6 [|x7 [|x8 [|]]]]]]]]]]; try discriminate.
    cbn [app firstn nth]. rewrite !bn_val_cons, bn_val_nil. lia. }
  assert (LB : 0 <= bn_val (firstn 8 mid) < 2^240).
  { assert (W : words_ok B (firstn 8 mid)) by (apply Forall_forall; intros d Hd; apply (proj1 (Forall_forall _ _) Hm); rewrite <- (firstn_skipn 8 mid); apply in_or_app; auto).
    apply bn_val_upper in W. unfold len in W. rewrite firstn_length, Lm in W. exact W. }
  assert (TB : limb mid 8 + B * top < 2^47) by lia.
  set (coef := (limb mid 8 + B * top) / 2^16).
  assert (CE : reduce_coef res i = coef).
  { unfold reduce_coef. rewrite R1, R2, Z.shiftr_div_pow2, Z.shiftl_mul_pow2 by lia. rewrite (u32_id (top * 2^14)) by lia.
    assert (E : coef = limb mid 8 / 2^16 + top * 2^14).
    { unfold coef. replace (limb mid 8 + B * top) with (limb mid 8 + (top * 2^14) * 2^16) by lia. apply Z.div_add. lia. }
    rewrite E. apply u32_id. clear - E Hm8 Ht TB. assert (0 <= limb mid 8 / 2^16 < 2^14) by (split; [apply Z.div_pos; lia|apply Z.div_lt_upper_bound; lia]). lia. }
  assert (C : 0 <= coef < 2^31) by (unfold coef; split; [apply Z.div_pos; lia|apply Z.div_lt_upper_bound; lia]).
  assert (CD : limb mid 8 + B * top = 2^16 * coef + (limb mid 8 + B * top) mod 2^16) by (apply Z.div_mod; lia).
  pose proof (Z.mod_pos_bound (limb mid 8 + B * top) (2^16) ltac:(lia)) as CB.
  assert (XB : 0 <= X10 mid top - coef * bn_val m < 2 * bn_val m).
  { rewrite XE, CD. set (rr := (limb mid 8 + B * top) mod 2^16) in *. clearbody rr. clear - LB CB C Rm.
    set (M := bn_val m) in *. clearbody M.
    pose proof (Z.mul_le_mono_nonneg_l (2^256 - M) (2^224) coef ltac:(lia) ltac:(lia)).
    pose proof (Z.mul_le_mono_nonneg_l 0 (2^256 - M) coef ltac:(lia) ltac:(lia)). lia. }
  destruct Nm as [Lmm Hmm].
  unfold bn_multiply_reduce_step. rewrite CE, R2, R3, R4, R5.
  assert (Hm32 : words_ok (2^32) mid) by (apply (words_weaken B); auto; lia).
  destruct (msub_digs mid m coef) as (D1 & D2 & D3); auto; [lia|intros ->; discriminate|].
  destruct (msub mid m coef) as [l t]. cbn [fst snd] in *.
  set (cols := map _ _) in *. assert (LC : length cols = 9%nat) by (unfold cols; rewrite zip_len; lia).
  assert (CV : bn_val cols = bn_val mid - coef * bn_val m) by (unfold cols; apply msub_val; lia).
  pose proof (digs_val cols 0) as DV. unfold len in DV. rewrite LC in DV. change (Z.of_nat 9) with 9 in DV.
  rewrite <- (Z.pow_mul_r 2 30 9) in DV by lia. change (30 * 9) with 270 in DV.
  assert (XM : X10 mid top = bn_val mid + 2^270 * top).
  { unfold X10. rewrite bn_val_app, bn_val_cons, bn_val_nil. unfold len. rewrite Lm. change (Z.of_nat 9) with 9. rewrite <- (Z.pow_mul_r 2 30 9) by lia. change (30 * 9) with 270. lia. }
  pose proof (digs_ok cols 0) as DO. pose proof (bn_val_upper _ DO) as DB. unfold len in DB. rewrite digs_len, LC in DB. change (Z.of_nat 9) with 9 in DB.
  rewrite <- (Z.pow_mul_r 2 30 9) in DB by lia. change (30 * 9) with 270 in DB.
  assert (DC : dcarry cols 0 = - top) by lia.
  exists l. subst l. split; [|split; [rewrite digs_len; auto|split; [auto|split; [lia|split]]]].
  - rewrite D2, DC. replace (u64 (- top + 2^31 + (2305843007066210304 + top))) with (2^61) by (rewrite u64_id; lia).
    reflexivity.
  - replace (bn_val (digs cols 0)) with (X10 mid top + (- coef) * bn_val m) by lia. apply Z.mod_add. lia.
  - unfold reduce_coef_assert. rewrite CE. lia.
Qed.

Fixpoint down (n : nat) : list nat := match n with O => [] | S k => (k + 8)%nat :: down k end.
Lemma reduce_fold : forall m, modulus m -> forall n lo l hi, length lo = n -> words_ok B lo -> length l = 9%nat -> words_ok B l -> bn_val l < 2 * bn_val m ->
  exists l' hi', fold_left (fun r i => bn_multiply_reduce_step r m i) (down n) (lo ++ l ++ hi) = l' ++ hi' /\
    length l' = 9%nat /\ words_ok B l' /\ bn_val l' < 2 * bn_val m /\ bn_val l' mod bn_val m = bn_val (lo ++ l) mod bn_val m /\
    reduce_assert (lo ++ l ++ hi) m (down n) = true.
Proof.
  intros m Hm. induction n as [|n IH]; intros lo l hi Ll Hlo L9 Hl V; cbn [down fold_left reduce_assert].
  - destruct lo; [|discriminate]. exists l, hi. cbn [app]. auto 10.
  - destruct (exists_last (l := lo)) as (lo' & a & ->); [intros ->; discriminate|]. rewrite app_length in Ll. cbn [length] in Ll.
    apply Forall_app in Hlo as [Hlo Ha]. apply Forall_inv in Ha. cbv beta in Ha.
    destruct (exists_last (l := l)) as (l8 & t & ->); [intros ->; discriminate|]. rewrite app_length in L9. cbn [length] in L9.
    apply Forall_app in Hl as [Hl8 Ht]. apply Forall_inv in Ht. cbv beta in Ht.
    assert (LM : length (a :: l8) = 9%nat) by (cbn [length]; lia).
    assert (HM : words_ok B (a :: l8)) by (constructor; auto).
    assert (XV : X10 (a :: l8) t = a + B * bn_val (l8 ++ [t])) by (unfold X10; cbn [app]; apply bn_val_cons).
    destruct (reduce_step_spec m lo' (a :: l8) t hi Hm LM HM Ht) as (l' & E & L' & W' & V' & M' & A').
    { rewrite XV. lia. }
    replace (length lo' + 8)%nat with (n + 8)%nat in * by lia.
    assert (RE : (lo' ++ [a]) ++ (l8 ++ [t]) ++ hi = lo' ++ (a :: l8) ++ [t] ++ hi) by (rewrite <- !app_assoc; reflexivity).
    rewrite RE, E. destruct (IH lo' l' ([0] ++ hi)) as (l'' & hi'' & E2 & L2 & W2 & V2 & M2 & A2); auto; [lia|].
    exists l'', hi''. split; [exact E2|]. split; auto. split; auto. split; auto. split.
    + rewrite M2, <- app_assoc. cbn [app]. rewrite !bn_val_app, bn_val_cons. rewrite <- XV.
      rewrite (Z.add_mod (bn_val lo') (B ^ len lo' * bn_val l')), (Z.mul_mod (B ^ len lo') (bn_val l')), M', <- Z.mul_mod, <- Z.add_mod by (destruct Hm; lia). reflexivity.
    + cbv zeta. rewrite A'. cbn [andb]. rewrite A2, andb_true_r.
      replace (n + 8 + 1)%nat with (length lo' + 9)%nat by lia. rewrite nth_mid, app_nth2 by lia. rewrite L'. reflexivity.
Qed.
Lemma fold_left_cons : forall (A C : Type) (f : A -> C -> A) a l x, fold_left f (a :: l) x = fold_left f l (f x a).
Proof. reflexivity. Qed.
Lemma reduce_assert_cons : forall res m i t, reduce_assert res m (i :: t) =
  reduce_coef_assert res i && (nth (i + 1) (bn_multiply_reduce_step res m i) 0 =? 0) && reduce_assert (bn_multiply_reduce_step res m i) m t.
Proof. reflexivity. Qed.
Lemma indices_down : reduce_indices = 16%nat :: down 8.
Proof. reflexivity. Qed.
Lemma reduce_all_first : forall res m res', bn_multiply_reduce_step res m 16 = res' ->
  reduce_all res m = fold_left (fun r i => bn_multiply_reduce_step r m i) (down 8) res'.
Proof. intros res m res' <-. unfold reduce_all. rewrite indices_down, fold_left_cons. reflexivity. Qed.
Lemma reduce_assert_first : forall res m res', reduce_coef_assert res 16 = true -> bn_multiply_reduce_step res m 16 = res' ->
  nth 17 res' 0 = 0 -> reduce_assert res' m (down 8) = true -> reduce_assert res m reduce_indices = true.
Proof.
  intros res m res' A E H1 H2. rewrite indices_down, reduce_assert_cons, E, A, H2.
  change (16 + 1)%nat with 17%nat. rewrite H1. reflexivity.
Qed.
Lemma multiply_reduce_spec : forall res m, modulus m -> length res = 18%nat -> words_ok B res -> bn_val res < 2^270 * (2 * bn_val m) ->
  partly_reduced (bn_multiply_reduce res m) m /\ bn_val (bn_multiply_reduce res m) mod bn_val m = bn_val res mod bn_val m /\
  reduce_assert res m reduce_indices = true.
Proof.
  intros res m Hm L H V.
  set (lo := firstn 8 res). set (r1 := skipn 8 res). set (mid := firstn 9 r1). set (r2 := skipn 9 r1).
  assert (L1 : length lo = 8%nat) by (unfold lo; rewrite firstn_length; lia).
  assert (L2 : length r1 = 10%nat) by (unfold r1; rewrite skipn_length; lia).
  assert (L3 : length mid = 9%nat) by (unfold mid; rewrite firstn_length; lia).
  assert (L4 : length r2 = 1%nat) by (unfold r2; rewrite skipn_length; lia).
  destruct r2 as [|top [|]] eqn:E2; try discriminate.
  assert (RE : res = lo ++ mid ++ [top] ++ []).
  { rewrite app_nil_r. unfold lo. rewrite <- (firstn_skipn 8 res) at 1. f_equal. fold r1. rewrite <- (firstn_skipn 9 r1) at 1. f_equal. exact E2. }
  clearbody lo mid. clear r1 r2 E2 L2 L4. rewrite RE in H. unfold words_ok in H. rewrite !Forall_app in H. destruct H as (H1 & H2 & H3 & _). apply Forall_inv in H3. cbv beta in H3.
  destruct (reduce_step_spec m lo mid top [] Hm L3 H2 H3) as (l & E & Ll & Wl & Vl & Ml & A).
  { rewrite RE, app_nil_r, bn_val_app in V. unfold len in V. rewrite L1 in V. change (Z.of_nat 8) with 8 in V. rewrite <- (Z.pow_mul_r 2 30 8) in V by lia. change (30 * 8) with 240 in V.
    unfold X10. pose proof (bn_val_upper lo H1). lia. }
  rewrite <- RE, L1 in E, A. change (8 + 8)%nat with 16%nat in *.
  destruct (reduce_fold m Hm 8 lo l ([0] ++ [])) as (l' & hi' & E' & L' & W' & V' & M' & A'); auto.
  pose proof (reduce_all_first res m _ E) as EA. rewrite E' in EA.
  unfold bn_multiply_reduce. rewrite EA, (firstn_app_len _ l' hi' 9 (eq_sym L')). split; [split; [split; [exact L'|exact W']|exact V']|]. split.
  - rewrite M'. rewrite RE, app_nil_r, !bn_val_app. fold (X10 mid top).
    rewrite (Z.add_mod (bn_val lo) (B ^ len lo * bn_val l)), (Z.mul_mod (B ^ len lo) (bn_val l)), Ml, <- Z.mul_mod, <- Z.add_mod by (destruct Hm; lia).
    unfold X10. rewrite bn_val_app. reflexivity.
  - apply (reduce_assert_first res m _ A E); [|exact A'].
    replace 17%nat with (length lo + 9)%nat by lia. rewrite nth_mid, app_nth2 by lia. rewrite Ll. reflexivity.
Qed.
(** The product: operands whose product is below 2^271 m. *)
Lemma bn_multiply_spec : forall k x m, modulus m -> normalized k -> normalized x -> bn_val k * bn_val x < 2^270 * (2 * bn_val m) ->
  partly_reduced (bn_multiply k x m) m /\ bn_val (bn_multiply k x m) mod bn_val m = (bn_val k * bn_val x) mod bn_val m /\
  bn_multiply_assert k x m = true.
Proof.
  intros k x m Hm Hk Hx V. destruct (multiply_long_spec k x Hk Hx) as (L & W & E).
  destruct (multiply_reduce_spec (bn_multiply_long k x) m Hm L W) as (P & M & A); [rewrite E; auto|].
  unfold bn_multiply, bn_multiply_assert. rewrite M, E. auto.
Qed.
Lemma bn_multiply_180 : forall k x m, modulus m -> normalized k -> normalized x -> bn_val k < 180 * bn_val m -> bn_val x < 180 * bn_val m ->
  partly_reduced (bn_multiply k x m) m /\ bn_val (bn_multiply k x m) mod bn_val m = (bn_val k * bn_val x) mod bn_val m /\
  bn_multiply_assert k x m = true.
Proof.
  intros k x m Hm Hk Hx Vk Vx. apply bn_multiply_spec; auto.
  pose proof (norm_val k Hk). pose proof (norm_val x Hx). destruct Hm as [_ Hm].
  apply (Z.le_lt_trans _ ((180 * bn_val m) * (180 * bn_val m))).
  - apply Z.mul_le_mono_nonneg; lia.
  - replace (180 * bn_val m * (180 * bn_val m)) with (bn_val m * (32400 * bn_val m)) by ring.
    replace (2^270 * (2 * bn_val m)) with (bn_val m * 2^271) by lia.
    apply Z.mul_lt_mono_pos_l; lia.
Qed.
