From Coq Require Import Lia.
From Verif Require Import Base.Bytes Base.BytesFacts Spec.Codecs Spec.Bignum Model.Bignum Proof.IntVarint Proof.BnCore Proof.BnRed Proof.BnMul Proof.BnIo Proof.BnSqrt.
Open Scope Z_scope.

Lemma read_write : forall l, bytes_ok l -> length l = 32%nat ->
  normalized (bn_read_be l) /\ bn_val (bn_read_be l) = be_val 256 l /\ bn_write_be (bn_read_be l) = l /\
  normalized (bn_read_le l) /\ bn_val (bn_read_le l) = le_val 256 l /\ bn_write_le (bn_read_le l) = l.
Proof.
  intros l H L. destruct (bn_read_be_spec l H L) as [N V], (bn_read_le_spec l H L) as [N2 V2].
  split; [auto|]. split; [auto|]. split; [|split; [auto|split; [auto|]]].
  - rewrite bn_write_be_spec, V by auto. rewrite <- L. apply be_bytes_val. auto.
  - unfold bn_write_le. rewrite bn_write_be_spec, V2, le_val_be_val by auto. rewrite <- (rev_involutive l) at 2. f_equal.
    rewrite <- L, <- rev_length. apply be_bytes_val. apply Forall_rev. auto.
Qed.
Lemma write_any : forall x, normalized x -> bn_write_be x = be_bytes 32 (bn_val x) /\ bn_write_le x = le_bytes 32 (bn_val x).
Proof.
  intros x N. split; [apply bn_write_be_spec; auto|]. unfold bn_write_le. rewrite bn_write_be_spec by auto. apply rev_involutive.
Qed.
Lemma compare : forall a b, normalized a -> normalized b ->
  bn_is_less a b = (bn_val a <? bn_val b) /\ bn_is_equal a b = (bn_val a =? bn_val b) /\ bn_is_zero a = (bn_val a =? 0) /\
  forall c : bool, bn_cmov c a b = if c then a else b.
Proof.
  intros a b Na Nb. split; [apply bn_is_less_spec; auto|]. split; [apply bn_is_equal_spec; auto|]. split; [apply bn_is_zero_spec; auto|].
  intros c. apply bn_cmov_spec; apply norm_unnorm; auto.
Qed.
Lemma add_sub : forall a b, normalized a -> normalized b ->
  (bn_val a + bn_val b < 2^270 -> normalized (bn_add a b) /\ bn_val (bn_add a b) = bn_val a + bn_val b) /\
  (bn_val b <= bn_val a -> normalized (bn_subtract a b) /\ bn_val (bn_subtract a b) = bn_val a - bn_val b).
Proof.
  intros a b Na Nb. pose proof (norm_val a Na). pose proof (norm_val b Nb). split; intros L.
  - destruct (bn_add_spec a b Na Nb) as [N V]. rewrite Z.mod_small in V by lia. auto.
  - destruct (bn_subtract_spec a b Na Nb) as [N V]. rewrite Z.mod_small in V by lia. auto.
Qed.
Lemma modular : forall a b m, modulus m -> normalized a -> normalized b ->
  (partly_reduced (bn_addmod a b m) m /\ bn_val (bn_addmod a b m) mod bn_val m = (bn_val a + bn_val b) mod bn_val m) /\
  (bn_val a < 2^269 -> bn_val b <= 2 * bn_val m ->
   normalized (bn_subtractmod a b m) /\ bn_val (bn_subtractmod a b m) = bn_val a + 2 * bn_val m - bn_val b /\
   bn_val (bn_subtractmod a b m) mod bn_val m = (bn_val a - bn_val b) mod bn_val m).
Proof.
  intros a b m Hm Na Nb. split; [apply bn_addmod_spec; auto|]. intros La Lb. pose proof (norm_val a Na). pose proof (norm_val b Nb). destruct Hm as [Nm Rm].
  destruct (bn_subtractmod_spec a b m Na Nb Nm) as [N V]. rewrite Z.mod_small in V by lia. split; [auto|]. split; [auto|].
  rewrite V. replace (bn_val a + 2 * bn_val m - bn_val b) with (bn_val a - bn_val b + 2 * bn_val m) by ring. apply Z.mod_add. lia.
Qed.
Lemma reduce : forall x m, modulus m ->
  (unnormalized x -> partly_reduced (bn_fast_mod x m) m /\ bn_val (bn_fast_mod x m) mod bn_val m = bn_val x mod bn_val m) /\
  (partly_reduced x m -> reduced (bn_mod x m) m /\ bn_val (bn_mod x m) = bn_val x mod bn_val m).
Proof.
  intros x m Hm. split; [intros; apply bn_fast_mod_spec; auto|]. intros [N V]. destruct Hm as [Nm Rm]. destruct (bn_mod_spec x m N Nm V) as [N2 V2].
  split; auto. split; auto. rewrite V2. apply Z.mod_pos_bound. lia.
Qed.
Lemma half : forall x m, modulus m -> Z.odd (bn_val m) = true -> partly_reduced x m ->
  partly_reduced (bn_mult_half x m) m /\ (2 * bn_val (bn_mult_half x m)) mod bn_val m = bn_val x mod bn_val m.
Proof.
  intros x m Hm Om [N V]. destruct (bn_mult_half_spec x m N Hm Om) as [N2 V2]. pose proof (proj2 Hm). split.
  - split; auto. destruct (Z.odd (bn_val x)); lia.
  - rewrite V2. destruct (Z.odd (bn_val x)); [|f_equal; lia]. replace (bn_val x + bn_val m) with (bn_val x + 1 * bn_val m) by ring. apply Z.mod_add. lia.
Qed.
Lemma shifts : forall x, normalized x ->
  (bn_val x < 2^269 -> normalized (bn_lshift x) /\ bn_val (bn_lshift x) = 2 * bn_val x) /\
  normalized (bn_rshift x) /\ bn_val (bn_rshift x) = bn_val x / 2.
Proof.
  intros x N. pose proof (norm_val x N). split; [|apply bn_rshift_spec; auto]. intros L. destruct (bn_lshift_spec x N) as [N2 V]. rewrite Z.mod_small in V by lia. auto.
Qed.
Lemma from_ints : forall n, (0 <= n < 2^32 -> normalized (bn_read_uint32 n) /\ bn_val (bn_read_uint32 n) = n) /\
  (0 <= n < 2^64 -> normalized (bn_read_uint64 n) /\ bn_val (bn_read_uint64 n) = n).
Proof. intros n. split; intros; [apply bn_read_uint32_spec|apply bn_read_uint64_spec]; auto. Qed.
Lemma small_ops : forall a i m, modulus m -> normalized a -> bn_val a < 2^269 ->
  (0 <= i <= 2^32 - 2^30 -> normalized (bn_addi a i) /\ bn_val (bn_addi a i) = bn_val a + i) /\
  (0 <= i -> bn_subi_assert i m = true -> normalized (bn_subi a i m) /\ bn_val (bn_subi a i m) = bn_val a + bn_val m - i).
Proof.
  intros a i m [Nm Rm] Na La. pose proof (norm_val a Na). split.
  - intros Hi. destruct (bn_addi_spec a i Na Hi) as [N V]. rewrite Z.mod_small in V by lia. auto.
  - intros Hi A. destruct (bn_subi_spec a i m Na Nm Hi A) as [N V]. rewrite Z.mod_small in V; auto.
    apply Z.leb_le in A. pose proof (limb_range B m 0 ltac:(lia) (proj2 Nm)). lia.
Qed.
