(** The bech32 checksum as a linear code: any four errors in 89 symbols are detected. *)
From Coq Require Import Lia.
From Verif Require Import Base.Bytes Base.BytesFacts Model.Bech32 Spec.Bech32.
Open Scope Z_scope.


Definition step (c v : Z) : Z := Z.lxor (polymod_step c) v.

Lemma pick_lin : forall a b i g, 0 <= i -> pick (Z.shiftr (Z.lxor a b) 25) i g = Z.lxor (pick (Z.shiftr a 25) i g) (pick (Z.shiftr b 25) i g).
Proof.
  intros a b i g Hi. unfold pick. rewrite !Z.shiftr_spec, Z.lxor_spec by lia.
  destruct (Z.testbit a (i + 25)), (Z.testbit b (i + 25)); cbn [xorb]; rewrite ?Z.lxor_0_r, ?Z.lxor_0_l, ?Z.lxor_nilpotent; auto.
Qed.
Lemma lxor_swap : forall a b c d, Z.lxor (Z.lxor a b) (Z.lxor c d) = Z.lxor (Z.lxor a c) (Z.lxor b d).
Proof. intros. rewrite !Z.lxor_assoc. f_equal. rewrite <- !Z.lxor_assoc. f_equal. apply Z.lxor_comm. Qed.
Lemma step_lin : forall a b, polymod_step (Z.lxor a b) = Z.lxor (polymod_step a) (polymod_step b).
Proof.
  intros a b. unfold polymod_step. cbv zeta. rewrite !pick_lin by lia.
  assert (E : Z.shiftl (Z.land (Z.lxor a b) 33554431) 5 = Z.lxor (Z.shiftl (Z.land a 33554431) 5) (Z.shiftl (Z.land b 33554431) 5)).
  { rewrite <- Z.shiftl_lxor. f_equal. apply Z.bits_inj'. intros n Hn. rewrite !Z.lxor_spec, !Z.land_spec, Z.lxor_spec. destruct (Z.testbit a n), (Z.testbit b n), (Z.testbit 33554431 n); reflexivity. }
  rewrite E. generalize (Z.shiftl (Z.land a 33554431) 5) as x, (Z.shiftl (Z.land b 33554431) 5) as x'.
  generalize (pick (Z.shiftr a 25) 0 996825010) as p0, (pick (Z.shiftr a 25) 1 642813549) as p1, (pick (Z.shiftr a 25) 2 513874426) as p2,
    (pick (Z.shiftr a 25) 3 1027748829) as p3, (pick (Z.shiftr a 25) 4 705979059) as p4.
  generalize (pick (Z.shiftr b 25) 0 996825010) as q0, (pick (Z.shiftr b 25) 1 642813549) as q1, (pick (Z.shiftr b 25) 2 513874426) as q2,
    (pick (Z.shiftr b 25) 3 1027748829) as q3, (pick (Z.shiftr b 25) 4 705979059) as q4.
  intros. rewrite (lxor_swap x x' p0 q0), (lxor_swap _ _ p1 q1), (lxor_swap _ _ p2 q2), (lxor_swap _ _ p3 q3), (lxor_swap _ _ p4 q4). reflexivity.
Qed.
Lemma step0 : polymod_step 0 = 0. Proof. reflexivity. Qed.

(** Values stay below 2^30. *)
Lemma lxor_bound : forall n a b, 0 <= n -> 0 <= a < 2^n -> 0 <= b < 2^n -> 0 <= Z.lxor a b < 2^n.
Proof.
  intros n a b Hn Ha Hb. assert (N : 0 <= Z.lxor a b) by (apply Z.lxor_nonneg; lia). split; auto.
  destruct (Z.eq_dec (Z.lxor a b) 0) as [->|NZ]; [apply Z.pow_pos_nonneg; lia|].
  apply Z.log2_lt_pow2; [lia|]. eapply Z.le_lt_trans; [apply Z.log2_lxor; lia|].
  apply Z.max_lub_lt.
  - destruct (Z.eq_dec a 0) as [->|]; [|apply Z.log2_lt_pow2; lia]. destruct (Z.eq_dec n 0) as [->|]; [|cbn; lia].
    assert (b = 0) by (change (2^0) with 1 in Hb; lia). subst. cbn in NZ. lia.
  - destruct (Z.eq_dec b 0) as [->|]; [|apply Z.log2_lt_pow2; lia]. destruct (Z.eq_dec n 0) as [->|]; [|cbn; lia].
    assert (a = 0) by (change (2^0) with 1 in Ha; lia). subst. cbn in NZ. lia.
Qed.
Definition v30 (x : Z) : Prop := 0 <= x < 2^30.
Lemma pick_v30 : forall b i g, v30 g -> v30 (pick b i g).
Proof. intros b i g H. unfold pick, v30 in *. destruct (Z.testbit b i); lia. Qed.
Lemma lxor_v30 : forall a b, v30 a -> v30 b -> v30 (Z.lxor a b).
Proof. intros. apply lxor_bound; auto; lia. Qed.
Lemma step_v30 : forall c, v30 (polymod_step c).
Proof.
  intros c. unfold polymod_step. cbv zeta.
  repeat apply lxor_v30; try (apply pick_v30; unfold v30; lia).
  unfold v30. rewrite Z.shiftl_mul_pow2 by lia. change 33554431 with (Z.ones 25). rewrite Z.land_ones by lia.
  pose proof (Z.mod_pos_bound c (2^25) ltac:(lia)). lia.
Qed.
Lemma v30_of_value : forall v, value_ok v -> v30 v.
Proof. unfold value_ok, v30. intros. lia. Qed.
Lemma step_v30' : forall c v, value_ok v -> v30 (step c v).
Proof. intros. apply lxor_v30; [apply step_v30|apply v30_of_value; auto]. Qed.

(** The step is injective on such values. *)
Lemma step_kernel : forall x, v30 x -> polymod_step x = 0 -> x = 0.
Proof.
  intros x Hx E.
  set (b := Z.shiftr x 25). assert (Hb : 0 <= b < 32).
  { unfold b, v30 in *. rewrite Z.shiftr_div_pow2 by lia. split; [apply Z.div_pos; lia|apply Z.div_lt_upper_bound; lia]. }
  assert (M : Z.land (polymod_step x) 31 = Z.land (Z.lxor (Z.lxor (Z.lxor (Z.lxor (pick b 0 996825010) (pick b 1 642813549)) (pick b 2 513874426)) (pick b 3 1027748829)) (pick b 4 705979059)) 31).
  { unfold polymod_step. fold b. cbv zeta. rewrite !Z.lxor_assoc. apply Z.bits_inj'. intros n Hn. rewrite !Z.land_spec, Z.lxor_spec.
    change 31 with (Z.ones 5). destruct (Z.ltb_spec n 5).
    - rewrite Z.shiftl_spec_low by lia. rewrite xorb_false_l. reflexivity.
    - rewrite Z.ones_spec_high by lia. rewrite !andb_false_r. reflexivity. }
  rewrite E in M. change (Z.land 0 31) with 0 in M.
  assert (B0 : b = 0).
  { assert (S : forallb (fun b => (b =? 0) || negb (Z.land (Z.lxor (Z.lxor (Z.lxor (Z.lxor (pick b 0 996825010) (pick b 1 642813549)) (pick b 2 513874426)) (pick b 3 1027748829)) (pick b 4 705979059)) 31 =? 0)) (zrange 32) = true) by (vm_compute; reflexivity).
    pose proof (zrange_sweep 32 _ S b ltac:(lia)) as Q. cbv beta in Q. rewrite <- M in Q. change (0 =? 0) with true in Q. cbn [negb orb] in Q. rewrite orb_false_r in Q. apply Z.eqb_eq; auto. }
  unfold polymod_step in E. fold b in E. rewrite B0 in E. change (pick 0 0 996825010) with 0 in E. change (pick 0 1 642813549) with 0 in E.
  change (pick 0 2 513874426) with 0 in E. change (pick 0 3 1027748829) with 0 in E. change (pick 0 4 705979059) with 0 in E. rewrite !Z.lxor_0_r in E.
  change 33554431 with (Z.ones 25) in E. rewrite Z.land_ones in E by lia.
  assert (x < 2^25). { unfold b in B0. rewrite Z.shiftr_div_pow2 in B0 by lia. unfold v30 in Hx. apply Z.div_small_iff in B0; lia. }
  unfold v30 in Hx. rewrite Z.mod_small in E by lia. rewrite Z.shiftl_mul_pow2 in E by lia. lia.
Qed.

(** The model's step is the reference code's. *)
Lemma lxor_right : forall a v g, Z.lxor (Z.lxor a v) g = Z.lxor (Z.lxor a g) v.
Proof. intros. rewrite !Z.lxor_assoc. f_equal. apply Z.lxor_comm. Qed.
Lemma if_pick : forall c b i g, (if Z.testbit b i then Z.lxor c g else c) = Z.lxor c (pick b i g).
Proof. intros. unfold pick. destruct (Z.testbit b i); rewrite ?Z.lxor_0_r; reflexivity. Qed.
Lemma step_value : forall c v, polymod_value c v = step c v.
Proof.
  intros c v. unfold polymod_value, step, polymod_step, GEN. cbn [combine fold_left]. cbv zeta. rewrite !if_pick.
  generalize (Z.shiftl (Z.land c 33554431) 5). generalize (Z.shiftr c 25). intros b x.
  generalize (pick b 0 996825010), (pick b 1 642813549), (pick b 2 513874426), (pick b 3 1027748829), (pick b 4 705979059). intros g0 g1 g2 g3 g4.
  rewrite (lxor_right x v g0), (lxor_right _ v g1), (lxor_right _ v g2), (lxor_right _ v g3), (lxor_right _ v g4). reflexivity.
Qed.
