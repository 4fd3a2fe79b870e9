From Coq Require Import Lia.
From Verif Require Import Base.Bytes Base.BytesFacts Spec.Codecs Spec.Keys Spec.Bignum Spec.Scalar Model.Bignum Model.Keys Model.HD Model.Scalar
  Proof.IntVarint Proof.KeyFacts Proof.BnCore Proof.BnRed Proof.BnMul Proof.BnIo.
Open Scope Z_scope.

Lemma order_val : bn_val order_limbs = group_order. Proof. vm_compute. reflexivity. Qed.
Lemma order_modulus : modulus order_limbs.
Proof.
  split; [split; [reflexivity|]|].
  - repeat (constructor; [lia|]). constructor.
  - rewrite order_val. unfold group_order. lia.
Qed.
Lemma prime_modulus : modulus prime_limbs.
Proof.
  split; [split; [reflexivity|]|].
  - repeat (constructor; [lia|]). constructor.
  - replace (bn_val prime_limbs) with (2^256 - 2^32 - 977) by (vm_compute; reflexivity). lia.
Qed.
Lemma order_range : 2^256 - 2^224 < group_order < 2^256.
Proof. unfold group_order. lia. Qed.
Lemma number_range : forall s, word256 s -> 0 <= number s < 2^256.
Proof.
  intros s [H L]. unfold number. pose proof (be_val_bound 256 s ltac:(lia) (proj1 (bytes_digits s) H)) as R. unfold len in R. rewrite L in R. exact R.
Qed.
Lemma read_word256 : forall s, word256 s -> normalized (bn_read_be s) /\ bn_val (bn_read_be s) = number s.
Proof. intros s [H L]. apply bn_read_be_spec; auto. Qed.
Lemma write_mod : forall x, partly_reduced x order_limbs -> bn_write_be (bn_mod x order_limbs) = be_bytes 32 (bn_val x mod group_order).
Proof.
  intros x [N V]. destruct order_modulus as [Nm _]. destruct (bn_mod_spec x order_limbs N Nm V) as [N2 V2]. rewrite bn_write_be_spec, V2, order_val by auto. reflexivity.
Qed.
Lemma word_partly : forall s, word256 s -> partly_reduced (bn_read_be s) order_limbs.
Proof.
  intros s H. destruct (read_word256 s H) as [N V]. split; auto. rewrite V, order_val. pose proof (number_range s H). pose proof order_range. lia.
Qed.
Lemma scalar_word : forall v, word256 (be_bytes 32 v).
Proof. intros v. split; [apply be_bytes_ok|apply be_bytes_length]. Qed.
Lemma scalar_of_num : forall v, 0 <= v < 2^256 -> number (be_bytes 32 v) = v.
Proof. intros v H. unfold number. rewrite be_val_be_bytes. apply Z.mod_small. exact H. Qed.
Lemma scalar_of_scalar : forall v, is_scalar (scalar_of v) /\ number (scalar_of v) = v mod group_order.
Proof.
  intros v. pose proof order_range. pose proof (Z.mod_pos_bound v group_order ltac:(lia)).
  assert (E : number (scalar_of v) = v mod group_order) by (apply scalar_of_num; lia).
  split; auto. split; [apply scalar_word|]. rewrite E. lia.
Qed.

Lemma sc_add_spec : forall a b, word256 a -> word256 b -> sc_add a b = scalar_of (number a + number b).
Proof.
  intros a b Ha Hb. destruct (read_word256 a Ha) as [Na Va], (read_word256 b Hb) as [Nb Vb]. unfold sc_add, scalar_of.
  destruct (bn_addmod_spec _ _ _ Na Nb order_modulus) as [P M]. rewrite write_mod by auto. rewrite order_val in M. rewrite M, Va, Vb. reflexivity.
Qed.
Lemma sc_mul_spec : forall a b, word256 a -> word256 b -> sc_mul a b = Ok (scalar_of (number a * number b)).
Proof.
  intros a b Ha Hb. destruct (read_word256 a Ha) as [Na Va], (read_word256 b Hb) as [Nb Vb]. unfold sc_mul, scalar_of.
  pose proof (number_range a Ha). pose proof (number_range b Hb). pose proof order_range.
  destruct (bn_multiply_180 (bn_read_be b) (bn_read_be a) order_limbs order_modulus Nb Na) as (P & M & A); try (rewrite ?Va, ?Vb, order_val; lia).
  rewrite A, write_mod by auto. rewrite order_val in M. rewrite M, Va, Vb. do 3 f_equal. ring.
Qed.
Lemma sc_neg_val : forall a, is_scalar a -> sc_neg a = be_bytes 32 (group_order - number a).
Proof.
  intros a [Ha La]. destruct (read_word256 a Ha) as [Na Va]. unfold sc_neg. destruct (bn_subtract_spec order_limbs (bn_read_be a) (proj1 order_modulus) Na) as [N V].
  pose proof (number_range a Ha). pose proof order_range. rewrite bn_write_be_spec, V, Va, order_val by auto. rewrite Z.mod_small by lia. reflexivity.
Qed.
Lemma sc_neg_spec : forall a, is_scalar a -> number a <> 0 -> sc_neg a = scalar_of (- number a).
Proof.
  intros a Ha H0. rewrite sc_neg_val by auto. unfold scalar_of. f_equal. destruct Ha as [Ha La]. pose proof (number_range a Ha).
  apply (Z.mod_unique_pos _ _ (-1)); lia.
Qed.
Lemma sc_sub_spec : forall a b, word256 a -> is_scalar b -> sc_sub a b = scalar_of (number a - number b).
Proof.
  intros a b Ha Hb. unfold sc_sub. rewrite sc_neg_val by auto. rewrite sc_add_spec; auto; [|apply scalar_word].
  destruct Hb as [Hb Lb]. pose proof (number_range b Hb). pose proof order_range.
  rewrite scalar_of_num by lia. unfold scalar_of. f_equal. replace (number a + (group_order - number b)) with (number a - number b + 1 * group_order) by ring.
  apply Z.mod_add. lia.
Qed.
Lemma sc_less_spec : forall a b, word256 a -> word256 b -> sc_less a b = (number a <? number b).
Proof.
  intros a b Ha Hb. destruct (read_word256 a Ha) as [Na Va], (read_word256 b Hb) as [Nb Vb]. unfold sc_less. rewrite bn_is_less_spec, Va, Vb by auto. reflexivity.
Qed.
Lemma number_inj : forall a b, word256 a -> word256 b -> number a = number b -> a = b.
Proof.
  intros a b [Ha La] [Hb Lb] E. apply (be_val_inj 256); auto; try lia; apply bytes_digits; auto.
Qed.
Lemma sc_eq_spec : forall a b, word256 a -> word256 b -> sc_eq a b = (number a =? number b).
Proof.
  intros a b Ha Hb. unfold sc_eq. destruct (list_eq_dec Z.eq_dec a b) as [->|NE]; [symmetry; apply Z.eqb_refl|].
  symmetry. apply Z.eqb_neq. intros E. apply NE. apply number_inj; auto.
Qed.
Lemma zeros_word : word256 (zeros 32).
Proof. split; [apply bytes_ok_zeros|reflexivity]. Qed.
Lemma sc_valid_spec : forall a, word256 a -> sc_valid a = negb (number a =? 0).
Proof. intros a Ha. unfold sc_valid. rewrite sc_eq_spec; auto. apply zeros_word. Qed.
(** Adding a small integer. *)
Lemma addi_any : forall a i, normalized a -> 0 <= i < 2^32 -> bn_val a mod 2^30 + i < 2^32 ->
  normalized (bn_addi a i) /\ bn_val (bn_addi a i) = (bn_val a + i) mod 2^270.
Proof.
  intros a i [L H] Hi Ho. destruct a as [|a0 a]; [discriminate|]. rewrite bn_val_cons in Ho.
  inversion H as [|? ? H0 H1]; subst. rewrite Z.mul_comm, Z.mod_add, Z.mod_small in Ho by lia.
  unfold bn_addi. cbn [addi_loop]. cbv zeta. rewrite u32_id by lia. rewrite land_mask, shr30.
  rewrite addi_loop_digs; [|exact H1|pose proof (div_range 0 4 (i + a0) ltac:(lia)); lia].
  change ((i + a0) mod 2^30 :: digs a ((i + a0) / 2^30)) with (digs (a0 :: a) i).
  split; [split; [rewrite digs_len; auto|apply digs_ok]|]. rewrite digs_mod. unfold len. rewrite L. change (B ^ Z.of_nat 9) with (2^270). f_equal. lia.
Qed.
Lemma digs_id : forall l, words_ok B l -> digs l 0 = l.
Proof.
  induction l as [|d l IH]; intros H; cbn [digs]; auto. inversion H; subst. rewrite Z.add_0_l, Z.mod_small, Z.div_small by lia. f_equal. auto.
Qed.
Lemma addi_over : forall a i, normalized a -> 0 <= i < 2^32 -> 2^32 <= bn_val a mod 2^30 + i ->
  normalized (bn_addi a i) /\ bn_val (bn_addi a i) = bn_val a + i - 2^32.
Proof.
  intros a i [L H] Hi Ho. destruct a as [|a0 a]; [discriminate|]. rewrite bn_val_cons in Ho.
  inversion H as [|? ? H0 H1]; subst. rewrite Z.mul_comm, Z.mod_add, Z.mod_small in Ho by lia.
  unfold bn_addi. cbn [addi_loop]. cbv zeta.
  assert (E : u32 (i + a0) = i + a0 - 2^32) by (symmetry; apply (Z.mod_unique_pos _ _ 1); lia).
  rewrite E, land_mask, shr30, Z.mod_small, Z.div_small by lia. rewrite addi_loop_digs, digs_id by (auto; lia).
  split; [split; [auto|constructor; [lia|auto]]|]. rewrite !bn_val_cons. lia.
Qed.
Lemma addi_word : forall a i, word256 a -> 0 <= i < 2^32 ->
  sc_add_u32 a i = if number a mod 2^30 + i <? 2^32 then scalar_of (number a + i) else scalar_of (number a + i - 2^32).
Proof.
  intros a i Ha Hi. destruct (read_word256 a Ha) as [Na Va]. pose proof (number_range a Ha) as R. pose proof order_range as Ro. unfold sc_add_u32.
  destruct (Z.ltb_spec (number a mod 2^30 + i) (2^32)) as [L|L]; rewrite <- Va in L.
  - destruct (addi_any _ i Na Hi L) as [N V]. rewrite Z.mod_small, Va in V by lia. rewrite write_mod, V; [reflexivity|]. split; auto. rewrite V, order_val. lia.
  - destruct (addi_over _ i Na Hi L) as [N V]. rewrite Va in V. rewrite write_mod, V; [reflexivity|]. split; auto. rewrite V, order_val. lia.
Qed.
Lemma sub_word : forall a i, is_scalar a -> 0 <= i < 2^32 ->
  sc_sub_u32 a i = if i <=? 0x10364141 then Ok (scalar_of (number a - i)) else UB.
Proof.
  intros a i [Ha La] Hi. destruct (read_word256 a Ha) as [Na Va]. pose proof (number_range a Ha) as R. pose proof order_range as Ro. unfold sc_sub_u32.
  change (bn_subi_assert i order_limbs) with (i <=? 0x10364141). destruct (Z.leb_spec i 0x10364141) as [L|L]; [|reflexivity].
  destruct (bn_subi_spec (bn_read_be a) i order_limbs Na (proj1 order_modulus)) as [N V]; [lia|apply Z.leb_le; exact L|].
  rewrite Va, order_val, Z.mod_small in V by lia. rewrite write_mod, V.
  - unfold scalar_of. do 2 f_equal. replace (number a + group_order - i) with (number a - i + 1 * group_order) by ring. apply Z.mod_add. lia.
  - split; auto. rewrite V, order_val. lia.
Qed.
Lemma sub_below_order : forall a i, is_scalar a -> 0 <= i < 2^32 -> i <= 0x10364141 -> sc_sub_u32 a i = Ok (scalar_of (number a - i)).
Proof. intros a i Ha Hi L. rewrite sub_word by auto. destruct (Z.leb_spec i 0x10364141); [reflexivity|lia]. Qed.
Lemma sub_above : forall a i, is_scalar a -> 0x10364141 < i < 2^32 -> sc_sub_u32 a i = UB.
Proof. intros a i Ha Hi. rewrite sub_word by (auto; lia). destruct (Z.leb_spec i 0x10364141); [lia|reflexivity]. Qed.
Lemma scalar_of_inj : forall u v, scalar_of u = scalar_of v -> u mod group_order = v mod group_order.
Proof. intros u v E. destruct (scalar_of_scalar u) as [_ A], (scalar_of_scalar v) as [_ C]. rewrite <- A, <- C, E. reflexivity. Qed.
Lemma add_u32_wrong : forall a i, word256 a -> 0 <= i < 2^32 -> 2^32 <= number a mod 2^30 + i ->
  sc_add_u32 a i = scalar_of (number a + i - 2^32) /\ sc_add_u32 a i <> scalar_of (number a + i).
Proof.
  intros a i Ha Hi L. rewrite addi_word by auto. destruct (Z.ltb_spec (number a mod 2^30 + i) (2^32)); [lia|]. split; auto.
  intros E. apply scalar_of_inj in E. pose proof order_range.
  assert (D : (2^32) mod group_order = 0).
  { replace (2^32) with (number a + i - (number a + i - 2^32)) by ring. rewrite Zminus_mod, E, Z.sub_diag. reflexivity. }
  rewrite Z.mod_small in D by lia. lia.
Qed.
Lemma of_u32 : forall i, 0 <= i < 2^32 -> sc_of_u32 i = be_bytes 32 i.
Proof. intros i Hi. rewrite <- be_write_spec. reflexivity. Qed.
Lemma add_sub_of_u32 : forall a i, is_scalar a -> 0 <= i < 2^32 ->
  sc_add a (sc_of_u32 i) = scalar_of (number a + i) /\ sc_sub a (sc_of_u32 i) = scalar_of (number a - i) /\
  sc_mul a (sc_of_u32 i) = Ok (scalar_of (number a * i)).
Proof.
  intros a i [Ha La] Hi. rewrite of_u32 by auto. assert (N : number (be_bytes 32 i) = i) by (apply scalar_of_num; lia).
  assert (S0 : is_scalar (be_bytes 32 i)) by (split; [apply scalar_word|rewrite N; pose proof order_range; lia]).
  rewrite sc_add_spec, sc_sub_spec, sc_mul_spec, N by (auto; apply scalar_word). auto.
Qed.
Lemma neg_zero : sc_neg (zeros 32) = be_bytes 32 group_order /\ sc_valid (sc_neg (zeros 32)) = true /\
  ~ is_scalar (sc_neg (zeros 32)) /\ sc_neg (zeros 32) <> scalar_of (- number (zeros 32)).
Proof.
  assert (E : sc_neg (zeros 32) = be_bytes 32 group_order) by (vm_compute; reflexivity).
  assert (N : number (be_bytes 32 group_order) = group_order) by (apply scalar_of_num; pose proof order_range; lia).
  rewrite E. split; [reflexivity|]. split; [vm_compute; reflexivity|]. split.
  - intros [_ L]. rewrite N in L. lia.
  - intros F. assert (G : number (be_bytes 32 group_order) = number (scalar_of (- number (zeros 32)))) by (rewrite F; reflexivity).
    rewrite N in G. vm_compute in G. discriminate.
Qed.
(** The value level models used elsewhere. *)
Lemma reduce_same : forall num, word256 num -> sc_reduce num = reduce_num num.
Proof.
  intros num H. unfold sc_reduce. rewrite write_mod by (apply word_partly; auto). destruct (read_word256 num H) as [_ ->]. destruct H. rewrite reduce_num_spec by auto. reflexivity.
Qed.
Lemma add_same : forall a b, word256 a -> word256 b -> sc_add a b = scalar_add a b.
Proof. intros a b Ha Hb. rewrite sc_add_spec by auto. unfold scalar_add, scalar_of, number. rewrite be_write_spec, order_value. reflexivity. Qed.
