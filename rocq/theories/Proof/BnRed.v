(** Comparison, selection and reduction. *)
From Coq Require Import Lia.
From Verif Require Import Base.Bytes Base.BytesFacts Spec.Bignum Model.Bignum Proof.BnCore.
Open Scope Z_scope.

Lemma bn_subi_spec : forall a b p, normalized a -> normalized p -> 0 <= b -> bn_subi_assert b p = true ->
  normalized (bn_subi a b p) /\ bn_val (bn_subi a b p) = (bn_val a + bn_val p - b) mod 2^270.
Proof.
  intros a b p [La Ha] [Lp Hp] Hb A. destruct a as [|a0 a]; [discriminate|]. destruct p as [|p0 p]; [discriminate|].
  unfold bn_subi_assert, limb in A. cbn [nth] in A. apply Z.leb_le in A.
  inversion Ha; inversion Hp; subst. cbn [length] in *. unfold bn_subi, bn_add. cbn [add_loop]. cbv zeta.
  replace (u32 (0 + (u32 (a0 - b) + p0))) with (a0 + p0 - b).
  2:{ unfold u32. rewrite Z.add_0_l, Zplus_mod_idemp_l. symmetry. rewrite Z.mod_small by lia. lia. }
  rewrite land_mask, shr30, add_loop_digs; auto; [|lia|pose proof (div_range 0 2 (a0 + p0 - b) ltac:(lia)); lia].
  set (cols := map (fun ab => fst ab + snd ab) (combine a p)).
  assert (LC : length cols = 8%nat) by (unfold cols; rewrite zip_len; lia).
  change ((a0 + p0 - b) mod 2^30 :: digs cols ((a0 + p0 - b) / 2^30)) with (digs ((a0 + p0 - b) :: cols) 0).
  split; [split; [rewrite digs_len; cbn [length]; lia|apply digs_ok]|].
  rewrite digs_mod. unfold len. cbn [length]. rewrite LC. change (B ^ Z.of_nat 9) with (2^270). f_equal.
  rewrite !bn_val_cons. unfold cols. rewrite (zip_val (fun x y => x + y) 1) by (intros; lia). lia.
Qed.

(** Comparison from the top limb. *)
Definition lt_step (r : Z * Z) (ab : Z * Z) : Z * Z :=
  (Z.lor (u32 (Z.shiftl (fst r) 1)) (Z.b2z (fst ab <? snd ab)), Z.lor (u32 (Z.shiftl (snd r) 1)) (Z.b2z (snd ab <? fst ab))).
Lemma lor_bit : forall x b, 0 <= x < 2^31 -> Z.lor (u32 (Z.shiftl x 1)) (Z.b2z b) = 2 * x + Z.b2z b.
Proof.
  intros x b H. rewrite Z.shiftl_mul_pow2 by lia. rewrite u32_id by lia. change (2^1) with (2^Z.of_nat 1). rewrite lor_add.
  - change (2^Z.of_nat 1) with 2. lia.
  - lia.
  - destruct b; cbn; lia.
Qed.
Lemma less_fold : forall l n r, Z.of_nat (length l) + n <= 31 -> 0 <= n -> 0 <= fst r < 2^n -> 0 <= snd r < 2^n ->
  let r' := fold_left lt_step l r in
  (snd r <? fst r = true -> snd r' <? fst r' = true) /\ (fst r <? snd r = true -> snd r' <? fst r' = false) /\
  (fst r = snd r -> snd r' <? fst r' = (be_val B (map fst l) <? be_val B (map snd l)) \/ ~ (Forall (fun ab => 0 <= fst ab < B /\ 0 <= snd ab < B) l)).
Proof.
  induction l as [|[a b] l IH]; intros n [r1 r2] L N H1 H2; cbn [fst snd] in *.
  - cbn [fold_left fst snd map]. cbv zeta. split; auto. split; [intros; lia|]. intros ->. left. change (be_val B []) with 0. lia.
  - assert (P : 2^n <= 2^30) by (apply Z.pow_le_mono_r; cbn [length] in L; lia).
    change (fold_left lt_step ((a, b) :: l) (r1, r2)) with (fold_left lt_step l (lt_step (r1, r2) (a, b))).
    assert (E : lt_step (r1, r2) (a, b) = (2 * r1 + Z.b2z (a <? b), 2 * r2 + Z.b2z (b <? a))).
    { unfold lt_step. cbn [fst snd]. rewrite !lor_bit by lia. reflexivity. }
    rewrite E. specialize (IH (n + 1) (2 * r1 + Z.b2z (a <? b), 2 * r2 + Z.b2z (b <? a))). cbn [fst snd] in IH.
    rewrite Z.pow_add_r in IH by lia. change (2^1) with 2 in IH.
    assert (B1 : 0 <= Z.b2z (a <? b) <= 1) by (destruct (a <? b); cbn; lia).
    assert (B2 : 0 <= Z.b2z (b <? a) <= 1) by (destruct (b <? a); cbn; lia).
    cbn [length] in L. destruct IH as (I1 & I2 & I3); try lia.
    cbv zeta in *. set (r' := fold_left _ _ _) in *.
    split; [intros Q; apply I1; lia|]. split; [intros Q; apply I2; lia|].
    intros ->. destruct (Z.lt_total a b) as [Q|[Q|Q]].
    + rewrite I1. 2:{ replace (a <? b) with true by lia. replace (b <? a) with false by lia. cbn [Z.b2z]. lia. }
      destruct (Forall_dec (fun ab => 0 <= fst ab < B /\ 0 <= snd ab < B)) with (l := (a, b) :: l) as [F|F]; [|..|right; exact F].
      { intros [u v]. cbn [fst snd]. destruct (Z_le_dec 0 u), (Z_lt_dec u B), (Z_le_dec 0 v), (Z_lt_dec v B); (left; lia) || (right; lia). }
      left. symmetry. apply Z.ltb_lt. cbn [map fst snd]. rewrite !be_val_cons. inversion F as [|? ? F1 F2]; subst. cbn [fst snd] in F1.
      assert (D1 : digits_ok B (map fst l)) by (apply Forall_map; eapply Forall_impl; [|exact F2]; cbv beta; intros; lia).
      assert (D2 : digits_ok B (map snd l)) by (apply Forall_map; eapply Forall_impl; [|exact F2]; cbv beta; intros; lia).
      apply be_val_bound in D1, D2; try lia. rewrite !len_map in *. pose proof (Z.mul_le_mono_nonneg_r (a + 1) b (B ^ len l) ltac:(lia) ltac:(lia)). lia.
    + subst b. destruct I3 as [I3|I3].
      * rewrite Z.ltb_irrefl. reflexivity.
      * left. rewrite I3. cbn [map fst snd]. rewrite !be_val_cons, !len_map.
        destruct (Z.ltb_spec (be_val B (map fst l)) (be_val B (map snd l))); symmetry; [apply Z.ltb_lt|apply Z.ltb_ge]; lia.
      * right. intros F. apply I3. inversion F; auto.
    + rewrite I2. 2:{ replace (a <? b) with false by lia. replace (b <? a) with true by lia. cbn [Z.b2z]. lia. }
      destruct (Forall_dec (fun ab => 0 <= fst ab < B /\ 0 <= snd ab < B)) with (l := (a, b) :: l) as [F|F]; [|..|right; exact F].
      { intros [u v]. cbn [fst snd]. destruct (Z_le_dec 0 u), (Z_lt_dec u B), (Z_le_dec 0 v), (Z_lt_dec v B); (left; lia) || (right; lia). }
      left. symmetry. apply Z.ltb_ge. cbn [map fst snd]. rewrite !be_val_cons. inversion F as [|? ? F1 F2]; subst. cbn [fst snd] in F1.
      assert (D1 : digits_ok B (map fst l)) by (apply Forall_map; eapply Forall_impl; [|exact F2]; cbv beta; intros; lia).
      assert (D2 : digits_ok B (map snd l)) by (apply Forall_map; eapply Forall_impl; [|exact F2]; cbv beta; intros; lia).
      apply be_val_bound in D1, D2; try lia. rewrite !len_map in *. pose proof (Z.mul_le_mono_nonneg_r (b + 1) a (B ^ len l) ltac:(lia) ltac:(lia)). lia.
Qed.
Lemma map_fst_combine : forall (a b : list Z), length a = length b -> map fst (combine a b) = a /\ map snd (combine a b) = b.
Proof.
  induction a as [|x a IH]; intros [|y b] L; try discriminate; cbn [combine map fst snd]; auto.
  destruct (IH b) as [-> ->]; auto.
Qed.
Lemma combine_Forall : forall a b, words_ok B a -> words_ok B b -> Forall (fun ab : Z * Z => 0 <= fst ab < B /\ 0 <= snd ab < B) (combine a b).
Proof.
  induction a as [|x a IH]; intros [|y b] Ha Hb; cbn [combine]; auto. inversion Ha; inversion Hb; subst. constructor; [split; auto|apply IH; auto].
Qed.
Lemma words_rev : forall b l, words_ok b l -> words_ok b (rev l).
Proof. intros. apply Forall_rev. auto. Qed.
Lemma bn_is_less_spec : forall a b, normalized a -> normalized b -> bn_is_less a b = (bn_val a <? bn_val b).
Proof.
  intros a b [La Ha] [Lb Hb]. unfold bn_is_less.
  change (fold_left _ (combine (rev a) (rev b)) (0, 0)) with (fold_left lt_step (combine (rev a) (rev b)) (0, 0)).
  pose proof (less_fold (combine (rev a) (rev b)) 0 (0, 0)) as F. rewrite combine_length, !rev_length, La, Lb in F. cbn [fst snd] in F.
  destruct (fold_left lt_step (combine (rev a) (rev b)) (0, 0)) as [r1 r2].
  destruct F as (_ & _ & F); try (cbn; lia). cbn [fst snd] in F. destruct (F eq_refl) as [E|E].
  - rewrite E. destruct (map_fst_combine (rev a) (rev b)) as [-> ->]; [rewrite !rev_length; lia|].
    unfold bn_val. rewrite !le_val_be_val. reflexivity.
  - exfalso. apply E. apply combine_Forall; apply words_rev; auto.
Qed.
(** Equality tests. *)
Lemma lor_fold0 : forall l acc, fold_left Z.lor l acc = 0 <-> acc = 0 /\ Forall (fun d => d = 0) l.
Proof.
  induction l as [|d l IH]; intros acc; cbn [fold_left].
  - split; [auto|tauto].
  - rewrite IH, Z.lor_eq_0_iff. split.
    + intros ((-> & ->) & F). auto.
    + intros (-> & F). inversion F; auto.
Qed.
Lemma bn_val_zero : forall l, words_ok (2^32) l -> bn_val l = 0 <-> Forall (fun d => d = 0) l.
Proof.
  induction l as [|d l IH]; intros H; [split; auto|]. inversion H as [|? ? H1 H2]; subst. rewrite bn_val_cons.
  pose proof (bn_val_bound (2^32) l ltac:(lia) H2). split.
  - intros E. constructor; [lia|]. apply IH; auto. lia.
  - intros F. inversion F; subst. rewrite (proj2 (IH H2)) by auto. lia.
Qed.
Lemma words_weaken : forall a b l, a <= b -> words_ok a l -> words_ok b l.
Proof. intros a b l L H. eapply Forall_impl; [|exact H]. cbv beta. intros. lia. Qed.
Lemma norm_unnorm : forall x, normalized x -> unnormalized x.
Proof. intros x [L H]. split; auto. eapply words_weaken; [|exact H]. lia. Qed.
Lemma bn_is_zero_spec : forall a, normalized a -> bn_is_zero a = (bn_val a =? 0).
Proof.
  intros a [L H]. unfold bn_is_zero. apply (words_weaken _ (2^32)) in H; [|lia].
  destruct (Z.eqb_spec (fold_left Z.lor a 0) 0) as [E|E], (Z.eqb_spec (bn_val a) 0) as [V|V]; auto; exfalso.
  - apply lor_fold0 in E as [_ E]. apply V. apply bn_val_zero; auto.
  - apply E. apply lor_fold0. split; auto. apply bn_val_zero; auto.
Qed.
Lemma bn_is_equal_spec : forall a b, normalized a -> normalized b -> bn_is_equal a b = (bn_val a =? bn_val b).
Proof.
  intros a b [La Ha] [Lb Hb]. unfold bn_is_equal.
  assert (E : forall l acc, fold_left (fun r (ab : Z * Z) => Z.lor r (Z.lxor (fst ab) (snd ab))) l acc = fold_left Z.lor (map (fun ab => Z.lxor (fst ab) (snd ab)) l) acc).
  { induction l; intros; cbn [fold_left map]; auto. }
  rewrite E. clear E.
  assert (Q : Forall (fun d => d = 0) (map (fun ab => Z.lxor (fst ab) (snd ab)) (combine a b)) <-> a = b).
  { assert (L : length a = length b) by lia. clear - L. revert b L. induction a as [|x a IH]; intros [|y b] L; try discriminate; cbn [combine map fst snd].
    - split; auto.
    - split.
      + intros F. inversion F as [|? ? F1 F2]; subst. apply Z.lxor_eq in F1. subst. f_equal. apply IH; auto.
      + intros E. injection E as -> ->. constructor; [apply Z.lxor_nilpotent|]. apply IH; auto. }
  destruct (Z.eqb_spec (fold_left Z.lor (map (fun ab => Z.lxor (fst ab) (snd ab)) (combine a b)) 0) 0) as [E|E], (Z.eqb_spec (bn_val a) (bn_val b)) as [V|V]; auto; exfalso.
  - apply lor_fold0 in E as [_ E]. apply V. f_equal. apply Q; auto.
  - apply E. apply lor_fold0. split; auto. apply Q. apply bn_val_inj; auto. lia.
Qed.
Lemma bn_cmov_spec : forall c a b, unnormalized a -> unnormalized b -> bn_cmov c a b = if c then a else b.
Proof.
  intros c a b [La Ha] [Lb Hb]. unfold bn_cmov. assert (L : length a = length b) by lia. clear La Lb.
  assert (M : forall x, 0 <= x < 2^32 -> Z.land x (2^32 - 1) = x).
  { intros. change (2^32 - 1) with (Z.ones 32). rewrite Z.land_ones by lia. apply Z.mod_small. lia. }
  revert b L Hb. induction a as [|x a IH]; intros [|y b] L Hb; try discriminate; cbn [combine map]; [destruct c; auto|].
  inversion Ha; inversion Hb; subst. cbn [fst snd]. cbv zeta in IH |- *. rewrite IH by auto. destruct c; cbn [Z.b2z].
  - change (u32 (- (1))) with (2^32 - 1). change (u32 (-1 - (2^32 - 1))) with 0. rewrite M, Z.land_0_r, Z.lor_0_r by auto. reflexivity.
  - change (u32 (- 0)) with 0. change (u32 (-1 - 0)) with (2^32 - 1). rewrite M, Z.land_0_r, Z.lor_0_l by auto. reflexivity.
Qed.
Lemma bn_mod_spec : forall x m, normalized x -> normalized m -> bn_val x < 2 * bn_val m ->
  normalized (bn_mod x m) /\ bn_val (bn_mod x m) = bn_val x mod bn_val m.
Proof.
  intros x m Hx Hm L. unfold bn_mod. destruct (bn_subtract_spec x m Hx Hm) as [N V].
  rewrite bn_cmov_spec by (auto using norm_unnorm). rewrite bn_is_less_spec by auto.
  pose proof (norm_val x Hx). pose proof (norm_val m Hm).
  destruct (Z.ltb_spec (bn_val x) (bn_val m)).
  - split; auto. symmetry. apply Z.mod_small. lia.
  - split; auto. rewrite V, Z.mod_small by lia. apply (Z.mod_unique_pos _ _ 1); lia.
Qed.

(** Subtracting a multiple of the modulus. *)
Lemma msub_loop_digs : forall x p coef temp, words_ok (2^32) x -> words_ok B p -> length x = length p -> 0 <= coef < 2^31 ->
  0 <= temp < 2^61 + 2^34 ->
  let cols := map (fun xp => fst xp - coef * snd xp) (combine x p) in
  let c := (temp - 2^61) / 2^30 in
  fst (msub_loop x p coef temp) = digs cols c /\
  (x <> [] -> Z.shiftr (snd (msub_loop x p coef temp)) 30 = dcarry cols c + 2^31) /\ 0 <= snd (msub_loop x p coef temp) < 2^61 + 2^34.
Proof.
  induction x as [|x0 x IH]; intros [|p0 p] coef temp Hx Hp L Hc Ht; try discriminate; cbv zeta.
  - cbn [msub_loop combine map digs fst snd]. split; [reflexivity|]. split; [congruence|lia].
  - inversion Hx; inversion Hp; subst. cbn [msub_loop combine map digs dcarry fst snd]. cbv zeta.
    set (c := (temp - 2^61) / 2^30) in *.
    assert (C : - 2^31 <= c < 2^4 + 1) by (apply div_range; lia).
    assert (T : Z.shiftr temp 30 = c + 2^31).
    { rewrite shr30. unfold c. replace temp with (temp - 2^61 + 2^31 * 2^30) at 1 by lia. apply Z.div_add. lia. }
    rewrite T.
    pose proof (Z.mul_le_mono_nonneg coef (2^31 - 1) p0 (2^30 - 1) ltac:(lia) ltac:(lia) ltac:(lia) ltac:(lia)) as P1.
    assert (P2 : 0 <= p0 * coef) by (apply Z.mul_nonneg_nonneg; lia).
    replace (u64 (c + 2^31 + (2305843007066210304 + x0 - p0 * coef))) with (2^61 + (c + (x0 - coef * p0))).
    2:{ rewrite u64_id by lia. lia. }
    set (s := c + (x0 - coef * p0)) in *.
    specialize (IH p coef (2^61 + s)). cbv zeta in IH. replace (2^61 + s - 2^61) with s in IH by lia.
    destruct IH as (I1 & I2 & I3); auto; [unfold s; lia|].
    destruct (msub_loop x p coef (2^61 + s)) as [l t] eqn:E. cbn [fst snd] in *. split; [|split; auto].
    + rewrite land_mask. f_equal; [|exact I1]. replace (2^61 + s) with (s + 2^31 * 2^30) by lia. apply Z.mod_add. lia.
    + intros _. destruct x as [|x1 x].
      * destruct p; [|discriminate]. cbn [msub_loop] in E. apply pair_equal_spec in E as [<- <-]. cbn [combine map dcarry].
        rewrite shr30. replace (2^61 + s) with (s + 2^31 * 2^30) by lia. rewrite Z.div_add by lia. reflexivity.
      * apply I2. discriminate.
Qed.
Lemma msub_digs : forall x p coef, words_ok (2^32) x -> words_ok B p -> length x = length p -> 0 <= coef < 2^31 -> x <> [] ->
  let cols := map (fun xp => fst xp - coef * snd xp) (combine x p) in
  fst (msub x p coef) = digs cols 0 /\ Z.shiftr (snd (msub x p coef)) 30 = dcarry cols 0 + 2^31 /\ 0 <= snd (msub x p coef) < 2^61 + 2^34.
Proof.
  intros x p coef Hx Hp L Hc N. destruct x as [|x0 x]; [congruence|]. destruct p as [|p0 p]; [discriminate|].
  inversion Hx; inversion Hp; subst. cbv zeta. unfold msub. cbn [combine map digs dcarry fst snd].
  pose proof (Z.mul_le_mono_nonneg coef (2^31 - 1) p0 (2^30 - 1) ltac:(lia) ltac:(lia) ltac:(lia) ltac:(lia)) as P1.
  assert (P2 : 0 <= p0 * coef) by (apply Z.mul_nonneg_nonneg; lia).
  replace (u64 (2305843009213693952 + x0 - p0 * coef)) with (2^61 + (0 + (x0 - coef * p0))).
  2:{ rewrite u64_id by lia. lia. }
  set (s := 0 + (x0 - coef * p0)) in *.
  pose proof (msub_loop_digs x p coef (2^61 + s)) as IH. cbv zeta in IH. replace (2^61 + s - 2^61) with s in IH by lia.
  destruct IH as (I1 & I2 & I3); auto; [unfold s; lia|].
  destruct (msub_loop x p coef (2^61 + s)) as [l t] eqn:E. cbn [fst snd] in *. split; [|split; auto].
  - rewrite land_mask. f_equal; [|exact I1]. replace (2^61 + s) with (s + 2^31 * 2^30) by lia. apply Z.mod_add. lia.
  - destruct x as [|x1 x].
    + destruct p; [|discriminate]. cbn [msub_loop] in E. apply pair_equal_spec in E as [<- <-]. cbn [combine map dcarry].
      rewrite shr30. replace (2^61 + s) with (s + 2^31 * 2^30) by lia. rewrite Z.div_add by lia. reflexivity.
    + apply I2. discriminate.
Qed.
Lemma msub_val : forall x p coef, length x = length p ->
  bn_val (map (fun xp => fst xp - coef * snd xp) (combine x p)) = bn_val x - coef * bn_val p.
Proof. intros. rewrite (zip_val (fun u v => u - coef * v) (- coef)) by (intros; lia). lia. Qed.
Lemma fast_mod_bounds : forall x m, unnormalized x -> modulus m ->
  0 <= bn_val x - Z.shiftr (limb x 8) 16 * bn_val m < 2 * bn_val m.
Proof.
  intros x m [Lx Hx] [_ Hm].
  destruct x as [|x0 [|x1 [|x2 [|x3 [|x4 [|x5 [|x6 [|x7 [|x8 [|]]]]]]]]]]; try discriminate.
  unfold limb. cbn [nth]. rewrite Z.shiftr_div_pow2 by lia.
  assert (F : 0 <= x0 < 2^32 /\ 0 <= x1 < 2^32 /\ 0 <= x2 < 2^32 /\ 0 <= x3 < 2^32 /\ 0 <= x4 < 2^32 /\ 0 <= x5 < 2^32 /\ 0 <= x6 < 2^32 /\ 0 <= x7 < 2^32 /\ 0 <= x8 < 2^32).
  { repeat match goal with H : words_ok _ (_ :: _) |- _ => inversion H; clear H; subst | H : Forall _ (_ :: _) |- _ => inversion H; clear H; subst end.
    repeat split; lia. }
  clear Hx Lx. set (c := x8 / 2^16). assert (E : x8 = 2^16 * c + x8 mod 2^16) by (apply Z.div_mod; lia).
  pose proof (Z.mod_pos_bound x8 (2^16) ltac:(lia)). assert (C : 0 <= c < 2^16) by (split; [apply Z.div_pos; lia|apply Z.div_lt_upper_bound; lia]).
  set (r := x8 mod 2^16) in *. clearbody c r. subst x8.
  rewrite !bn_val_cons, bn_val_nil. set (M := bn_val m) in *. clearbody M.
  pose proof (Z.mul_le_mono_nonneg_l (2^256 - M) (2^224) c ltac:(lia) ltac:(lia)).
  pose proof (Z.mul_le_mono_nonneg_l 0 (2^256 - M) c ltac:(lia) ltac:(lia)). lia.
Qed.
Lemma bn_fast_mod_exact : forall x m, unnormalized x -> modulus m ->
  normalized (bn_fast_mod x m) /\ bn_val (bn_fast_mod x m) = bn_val x - Z.shiftr (limb x 8) 16 * bn_val m.
Proof.
  intros x m Hx Hm. pose proof (fast_mod_bounds x m Hx Hm) as Bd. destruct Hx as [Lx Hx]. destruct Hm as [[Lm Hm] Rm].
  assert (C : 0 <= Z.shiftr (limb x 8) 16 < 2^31).
  { assert (0 <= limb x 8 < 2^32). { unfold limb. apply (proj1 (Forall_forall _ _) Hx). apply nth_In. lia. }
    rewrite Z.shiftr_div_pow2 by lia. split; [apply Z.div_pos; lia|apply Z.div_lt_upper_bound; lia]. }
  unfold bn_fast_mod. set (coef := Z.shiftr (limb x 8) 16) in *.
  destruct (msub_digs x m coef) as (D & _); auto; [lia|intros ->; discriminate|]. rewrite D.
  set (cols := map _ _) in *. assert (LC : length cols = 9%nat) by (unfold cols; rewrite zip_len; lia).
  split; [split; [rewrite digs_len; lia|apply digs_ok]|].
  rewrite digs_mod. unfold len. rewrite LC. change (B ^ Z.of_nat 9) with (2^270). unfold cols. rewrite msub_val by lia.
  rewrite Z.mod_small by lia. lia.
Qed.
Lemma bn_fast_mod_spec : forall x m, unnormalized x -> modulus m ->
  partly_reduced (bn_fast_mod x m) m /\ bn_val (bn_fast_mod x m) mod bn_val m = bn_val x mod bn_val m.
Proof.
  intros x m Hx Hm. pose proof (fast_mod_bounds x m Hx Hm) as Bd. destruct (bn_fast_mod_exact x m Hx Hm) as [N V].
  set (coef := Z.shiftr (limb x 8) 16) in *. unfold partly_reduced. rewrite V. split; [split; [auto|lia]|].
  replace (bn_val x - coef * bn_val m) with (bn_val x + (- coef) * bn_val m) by lia. apply Z.mod_add. destruct Hm. lia.
Qed.
