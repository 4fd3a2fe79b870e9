(** Machine words: bitwise operations on bytes, byte reversal, rotations; groups of a list. *)
From Verif Require Import Base.Bytes Base.BytesFacts Base.Groups Spec.Codecs Spec.Hash.
From Verif Require Import Model.Hash Proof.IntVarint.
Require Import Lia.
Open Scope Z_scope.

(** * Groups *)
Lemma groups_f_enough : forall A fuel n (l : list A), (0 < n)%nat -> (length l <= fuel)%nat ->
  groups_f fuel n l = groups n l.
Proof.
  assert (G : forall A f1 f2 n (l : list A), (0 < n)%nat -> (length l <= f1)%nat -> (length l <= f2)%nat ->
    groups_f f1 n l = groups_f f2 n l).
  { induction f1; intros f2 n l Hn L1 L2.
    - destruct l; [|cbn in L1; lia]. destruct f2; reflexivity.
    - destruct l. { destruct f2; reflexivity. }
      destruct f2; [cbn in L2; lia|]. cbn [groups_f]. f_equal. apply IHf1; auto;
      rewrite skipn_length; cbn [length] in *; lia. }
  intros. apply G; auto.
Qed.
Lemma groups_nil : forall A n, @groups A n [] = []. Proof. reflexivity. Qed.
Lemma groups_cons : forall A n (a b : list A), (0 < n)%nat -> length a = n ->
  groups n (a ++ b) = a :: groups n b.
Proof.
  intros A n a b Hn La. destruct a; [cbn in La; lia|].
  unfold groups at 1. cbn [length app groups_f]. f_equal.
  - change (a :: a0 ++ b) with ((a :: a0) ++ b). apply firstn_app_len. auto.
  - change (a :: a0 ++ b) with ((a :: a0) ++ b). rewrite skipn_app_len by auto.
    apply groups_f_enough; auto. rewrite app_length. lia.
Qed.
Lemma groups_one : forall A n (a : list A), (0 < n)%nat -> length a = n -> groups n a = [a].
Proof. intros. rewrite <- (app_nil_r a) at 1. rewrite groups_cons by auto. reflexivity. Qed.
Lemma groups_app : forall A n q (a b : list A), (0 < n)%nat -> length a = (q * n)%nat ->
  groups n (a ++ b) = groups n a ++ groups n b.
Proof.
  induction q; intros a b Hn L.
  - destruct a; [reflexivity|cbn in L; lia].
  - rewrite <- (firstn_skipn n a). rewrite <- app_assoc.
    assert (length (firstn n a) = n) by (rewrite firstn_length; lia).
    rewrite (groups_cons _ n (firstn n a) (skipn n a ++ b)), (groups_cons _ n (firstn n a) (skipn n a)) by auto.
    cbn [app]. f_equal. apply IHq; auto.
    rewrite skipn_length. lia.
Qed.
Lemma groups_all : forall A n q (l : list A), (0 < n)%nat -> length l = (q * n)%nat ->
  length (groups n l) = q /\ Forall (fun g => length g = n) (groups n l) /\ concat (groups n l) = l.
Proof.
  induction q; intros l Hn L.
  - destruct l; [cbn; auto|cbn in L; lia].
  - rewrite <- (firstn_skipn n l).
    assert (LF : length (firstn n l) = n) by (rewrite firstn_length; lia).
    rewrite !groups_cons by auto. destruct (IHq (skipn n l)) as (A1 & A2 & A3); auto.
    { rewrite skipn_length. lia. }
    cbn [length concat]. rewrite A1, A3. auto.
Qed.
Lemma groups_bytes : forall n q l, (0 < n)%nat -> length l = (q * n)%nat -> bytes_ok l ->
  Forall bytes_ok (groups n l).
Proof.
  induction q; intros l Hn L O.
  - destruct l; [constructor|cbn in L; lia].
  - rewrite <- (firstn_skipn n l).
    rewrite groups_cons by (auto; rewrite firstn_length; lia). constructor.
    + apply bytes_ok_firstn; auto.
    + apply IHq; auto. { rewrite skipn_length. lia. } apply bytes_ok_skipn; auto.
Qed.

(** * Bits *)
Lemma bits_bound : forall x w, 0 <= w -> 0 <= x -> (forall n, w <= n -> Z.testbit x n = false) -> x < 2 ^ w.
Proof.
  intros x w Hw Hx B. replace x with (x mod 2 ^ w).
  - apply Z.mod_pos_bound. apply Z.pow_pos_nonneg; lia.
  - apply Z.bits_inj'. intros n Hn. destruct (Z.ltb_spec n w).
    + apply Z.mod_pow2_bits_low. auto.
    + rewrite Z.mod_pow2_bits_high by lia. symmetry. auto.
Qed.
Lemma bits_high : forall x w n, 0 <= x < 2 ^ w -> w <= n -> Z.testbit x n = false.
Proof.
  intros x w n Hx Hn. destruct (Z.ltb_spec w 0).
  { rewrite Z.pow_neg_r in Hx by auto. lia. }
  rewrite <- (Z.mod_small x (2 ^ w)) by auto. apply Z.mod_pow2_bits_high. lia.
Qed.
Lemma land_range : forall w x y, 0 <= w -> 0 <= x < 2 ^ w -> 0 <= y < 2 ^ w -> 0 <= Z.land x y < 2 ^ w.
Proof.
  intros w x y Hw Hx Hy. split; [apply Z.land_nonneg; lia|].
  apply bits_bound; auto. { apply Z.land_nonneg; lia. }
  intros n Hn. rewrite Z.land_spec, (bits_high x w n); auto.
Qed.
Lemma lor_range : forall w x y, 0 <= w -> 0 <= x < 2 ^ w -> 0 <= y < 2 ^ w -> 0 <= Z.lor x y < 2 ^ w.
Proof.
  intros w x y Hw Hx Hy. split; [apply Z.lor_nonneg; lia|].
  apply bits_bound; auto. { apply Z.lor_nonneg; lia. }
  intros n Hn. rewrite Z.lor_spec, (bits_high x w n), (bits_high y w n); auto.
Qed.
Lemma lxor_range : forall w x y, 0 <= w -> 0 <= x < 2 ^ w -> 0 <= y < 2 ^ w -> 0 <= Z.lxor x y < 2 ^ w.
Proof.
  intros w x y Hw Hx Hy. split; [apply Z.lxor_nonneg; lia|].
  apply bits_bound; auto. { apply Z.lxor_nonneg; lia. }
  intros n Hn. rewrite Z.lxor_spec, (bits_high x w n), (bits_high y w n); auto.
Qed.
Lemma tb_cons : forall a b n, 0 <= a < 256 -> 0 <= n ->
  Z.testbit (a + 256 * b) n = if n <? 8 then Z.testbit a n else Z.testbit b (n - 8).
Proof.
  intros a b n Ha Hn. destruct (Z.ltb_spec n 8).
  - rewrite <- (Z.mod_pow2_bits_low (a + 256 * b) 8 n) by lia. f_equal.
    change (2 ^ 8) with 256. dlia.
  - replace b with ((a + 256 * b) / 2 ^ 8) at 2 by (change (2 ^ 8) with 256; dlia).
    rewrite Z.div_pow2_bits by lia. f_equal. lia.
Qed.
Lemma land_cons : forall a b c d, 0 <= a < 256 -> 0 <= c < 256 ->
  Z.land (a + 256 * b) (c + 256 * d) = Z.land a c + 256 * Z.land b d.
Proof.
  intros a b c d Ha Hc. pose proof (land_range 8 a c ltac:(lia) Ha Hc) as R.
  apply Z.bits_inj'. intros n Hn. rewrite Z.land_spec, !tb_cons by auto.
  destruct (n <? 8); rewrite Z.land_spec; reflexivity.
Qed.
Lemma lor_cons : forall a b c d, 0 <= a < 256 -> 0 <= c < 256 ->
  Z.lor (a + 256 * b) (c + 256 * d) = Z.lor a c + 256 * Z.lor b d.
Proof.
  intros a b c d Ha Hc. pose proof (lor_range 8 a c ltac:(lia) Ha Hc) as R.
  apply Z.bits_inj'. intros n Hn. rewrite Z.lor_spec, !tb_cons by auto.
  destruct (n <? 8); rewrite Z.lor_spec; reflexivity.
Qed.
Lemma lxor_cons : forall a b c d, 0 <= a < 256 -> 0 <= c < 256 ->
  Z.lxor (a + 256 * b) (c + 256 * d) = Z.lxor a c + 256 * Z.lxor b d.
Proof.
  intros a b c d Ha Hc. pose proof (lxor_range 8 a c ltac:(lia) Ha Hc) as R.
  apply Z.bits_inj'. intros n Hn. rewrite Z.lxor_spec, !tb_cons by auto.
  destruct (n <? 8); rewrite Z.lxor_spec; reflexivity.
Qed.
Lemma land_255 : forall b, 0 <= b < 256 -> Z.land b 255 = b.
Proof. intros. change 255 with (Z.ones 8). rewrite Z.land_ones by lia. apply Z.mod_small. auto. Qed.

(** * Byte strings as numbers *)
Notation le := (le_val 256).
Lemma le_cons : forall b t, le (b :: t) = b + 256 * le t. Proof. reflexivity. Qed.
Lemma le_zeros : forall l n, le (l ++ zeros n) = le l.
Proof.
  induction l; intros; cbn [app].
  - induction n; [reflexivity|]. change (zeros (S n)) with (0 :: zeros n). rewrite le_cons, IHn. reflexivity.
  - rewrite !le_cons, IHl. reflexivity.
Qed.
Lemma le_nonneg : forall l, bytes_ok l -> 0 <= le l < 256 ^ len l.
Proof.
  induction 1 as [|b t Hb Ht IH]; [cbn; lia|]. rewrite le_cons, len_cons.
  rewrite Z.pow_add_r by (try lia; apply len_nonneg). change (256 ^ 1) with 256.
  unfold byte_ok in Hb. nia.
Qed.
Lemma le_shiftr : forall k l, bytes_ok l -> Z.shiftr (le l) (8 * Z.of_nat k) = le (skipn k l).
Proof.
  induction k; intros l Hl.
  - cbn [skipn]. apply Z.shiftr_0_r.
  - destruct Hl as [|b t Hb Ht]. { cbn [skipn le_val]. apply Z.shiftr_0_l. }
    cbn [skipn]. rewrite <- IHk by auto. rewrite le_cons.
    replace (8 * Z.of_nat (S k)) with (8 + 8 * Z.of_nat k) by lia.
    rewrite <- Z.shiftr_shiftr by lia. f_equal. rewrite Z.shiftr_div_pow2 by lia.
    change (2 ^ 8) with 256. unfold byte_ok in Hb. dlia.
Qed.
Lemma le_shiftl : forall k n l, bytes_ok l -> length l = n -> (k <= n)%nat ->
  Z.shiftl (le l) (8 * Z.of_nat k) mod 256 ^ Z.of_nat n = le (zeros k ++ firstn (n - k) l).
Proof.
  induction k; intros n l Hl L Hk.
  - cbn [zeros repeat app]. rewrite Nat.sub_0_r, firstn_all2 by lia.
    rewrite Z.shiftl_0_r. apply Z.mod_small. pose proof (le_nonneg l Hl). unfold len in H.
    rewrite L in H. auto.
  - change (zeros (S k)) with (0 :: zeros k). cbn [app]. rewrite le_cons.
    destruct n as [|n]; [lia|]. cbn [Nat.sub].
    replace (firstn (n - k) l) with (firstn (n - k) (firstn n l))
      by (rewrite firstn_firstn; f_equal; lia).
    rewrite <- (IHk n (firstn n l)); [|apply bytes_ok_firstn; auto|rewrite firstn_length; lia|lia].
    assert (E : exists c, 0 <= c /\ le l = le (firstn n l) + c * 256 ^ Z.of_nat n).
    { exists (le (skipn n l)). split. { apply le_nonneg, bytes_ok_skipn; auto. }
      rewrite <- (firstn_skipn n l) at 1.
      assert (LL : len (firstn n l) = Z.of_nat n) by (unfold len; rewrite firstn_length; lia).
      rewrite <- LL. generalize (firstn n l) (skipn n l). clear.
      induction l; intros; cbn [app]. { rewrite len_nil. cbn [le_val]. lia. }
      rewrite !le_cons, IHl, len_cons. rewrite Z.pow_add_r by (try lia; apply len_nonneg).
      change (256 ^ 1) with 256. ring. }
    destruct E as (c & Hc & E). rewrite E.
    replace (8 * Z.of_nat (S k)) with (8 * Z.of_nat k + 8) by lia.
    rewrite !Z.shiftl_mul_pow2 by lia. rewrite Z.pow_add_r by lia. change (2 ^ 8) with 256.
    rewrite Nat2Z.inj_succ, Z.pow_succ_r by lia.
    set (P := 256 ^ Z.of_nat n). set (Q := 2 ^ (8 * Z.of_nat k)).
    replace ((le (firstn n l) + c * P) * (Q * 256)) with (256 * (le (firstn n l) * Q) + (c * Q) * (256 * P)) by ring.
    assert (0 < P) by (unfold P; apply Z.pow_pos_nonneg; lia).
    rewrite Z.mod_add by lia. rewrite Zmult_mod_distr_l. reflexivity.
Qed.
Fixpoint map2 (f : Z -> Z -> Z) (a b : list Z) : list Z :=
  match a, b with
  | x :: a', y :: b' => f x y :: map2 f a' b'
  | _, _ => []
  end.
Lemma le_land : forall a b, bytes_ok a -> bytes_ok b -> length a = length b ->
  Z.land (le a) (le b) = le (map2 Z.land a b).
Proof.
  induction a; intros b Ha Hb L; destruct b; try discriminate; [reflexivity|].
  inversion Ha; inversion Hb; subst. rewrite !le_cons. cbn [map2]. rewrite le_cons.
  rewrite land_cons by auto. rewrite IHa; auto.
Qed.
Lemma le_lor : forall a b, bytes_ok a -> bytes_ok b -> length a = length b ->
  Z.lor (le a) (le b) = le (map2 Z.lor a b).
Proof.
  induction a; intros b Ha Hb L; destruct b; try discriminate; [reflexivity|].
  inversion Ha; inversion Hb; subst. rewrite !le_cons. cbn [map2]. rewrite le_cons.
  rewrite lor_cons by auto. rewrite IHa; auto.
Qed.
Lemma le_lxor : forall a b, bytes_ok a -> bytes_ok b -> length a = length b ->
  Z.lxor (le a) (le b) = le (map2 Z.lxor a b).
Proof.
  induction a; intros b Ha Hb L; destruct b; try discriminate; [reflexivity|].
  inversion Ha; inversion Hb; subst. rewrite !le_cons. cbn [map2]. rewrite le_cons.
  rewrite lxor_cons by auto. rewrite IHa; auto.
Qed.

Lemma mem_bytes_le : forall n x, mem_bytes n x = le_bytes n x.
Proof. induction n; intros; cbn; [reflexivity|]. rewrite IHn. reflexivity. Qed.

Lemma byte0 : byte_ok 0. Proof. unfold byte_ok; lia. Qed.
Lemma byte255 : byte_ok 255. Proof. unfold byte_ok; lia. Qed.
Ltac bytes := repeat (first [apply Forall_nil | apply Forall_cons]); try assumption;
  try (unfold byte_ok; lia).
Ltac small := rewrite ?Z.land_0_r, ?land_255, ?Z.lor_0_l, ?Z.lor_0_r by (unfold byte_ok in *; lia).

Lemma REVERSE32_le : forall l, bytes_ok l -> length l = 4%nat -> REVERSE32 (le l) = be_val 256 l.
Proof.
  intros l Hl L. destruct l as [|a [|b [|c [|d [|]]]]]; try discriminate. clear L.
  pose proof (Forall_inv Hl) as Ha. pose proof (Forall_inv (Forall_inv_tail Hl)) as Hb.
  pose proof (Forall_inv (Forall_inv_tail (Forall_inv_tail Hl))) as Hc.
  pose proof (Forall_inv (Forall_inv_tail (Forall_inv_tail (Forall_inv_tail Hl)))) as Hd.
  cbv beta in *. unfold REVERSE32, u32. cbv zeta. change (2 ^ 32) with (256 ^ Z.of_nat 4).
  change 16 with (8 * Z.of_nat 2). change 8 with (8 * Z.of_nat 1) at 2 5.
  rewrite le_shiftr by auto. rewrite le_shiftl by (auto; lia). cbn [skipn zeros repeat Nat.sub firstn app].
  rewrite <- (le_zeros [c; d] 2). cbn [zeros repeat app].
  rewrite le_lor by (bytes || reflexivity). cbn [map2]. small.
  change 0xff00ff00 with (le [0; 255; 0; 255]). change 0x00ff00ff with (le [255; 0; 255; 0]).
  rewrite !le_land by (bytes || reflexivity). cbn [map2]. small.
  change (Z.shiftr (le [0; d; 0; b]) 8) with (Z.shiftr (le [0; d; 0; b]) (8 * Z.of_nat 1)).
  change (Z.shiftl (le [c; 0; a; 0]) 8) with (Z.shiftl (le [c; 0; a; 0]) (8 * Z.of_nat 1)).
  rewrite le_shiftr by bytes. rewrite le_shiftl by (bytes || reflexivity || lia).
  cbn [skipn zeros repeat Nat.sub firstn app].
  rewrite <- (le_zeros [d; 0; b] 1). cbn [zeros repeat app].
  rewrite le_lor by (bytes || reflexivity). cbn [map2]. small.
  rewrite le_val_be_val. reflexivity.
Qed.
Lemma REVERSE64_le : forall l, bytes_ok l -> length l = 8%nat -> REVERSE64 (le l) = be_val 256 l.
Proof.
  intros l Hl L. destruct l as [|a [|b [|c [|d [|e [|f [|g [|h [|]]]]]]]]]; try discriminate. clear L.
  assert (O : byte_ok a /\ byte_ok b /\ byte_ok c /\ byte_ok d /\ byte_ok e /\ byte_ok f /\ byte_ok g /\ byte_ok h).
  { repeat match goal with H : bytes_ok (_ :: _) |- _ => inversion_clear H
      | H : Forall byte_ok (_ :: _) |- _ => inversion_clear H end. tauto. }
  destruct O as (Ha & Hb & Hc & Hd & He & Hf & Hg & Hh).
  unfold REVERSE64, u64. cbv zeta. change (2 ^ 64) with (256 ^ Z.of_nat 8).
  change 32 with (8 * Z.of_nat 4).
  rewrite le_shiftr by auto. rewrite le_shiftl by (auto; lia). cbn [skipn zeros repeat Nat.sub firstn app].
  rewrite <- (le_zeros [e; f; g; h] 4). cbn [zeros repeat app].
  rewrite le_lor by (bytes || reflexivity). cbn [map2]. small.
  change 0xff00ff00ff00ff00 with (le [0; 255; 0; 255; 0; 255; 0; 255]).
  change 0x00ff00ff00ff00ff with (le [255; 0; 255; 0; 255; 0; 255; 0]).
  rewrite !le_land by (bytes || reflexivity). cbn [map2]. small.
  match goal with |- context [Z.shiftr (le ?l) 8] =>
    change (Z.shiftr (le l) 8) with (Z.shiftr (le l) (8 * Z.of_nat 1)) end.
  match goal with |- context [Z.shiftl (le ?l) 8] =>
    change (Z.shiftl (le l) 8) with (Z.shiftl (le l) (8 * Z.of_nat 1)) end.
  rewrite (le_shiftr 1) by bytes. rewrite (le_shiftl 1) by (bytes || reflexivity || lia).
  cbn [skipn zeros repeat Nat.sub firstn app].
  rewrite <- (le_zeros [f; 0; h; 0; b; 0; d] 1). cbn [zeros repeat app].
  rewrite le_lor by (bytes || reflexivity). cbn [map2]. small.
  change 0xffff0000ffff0000 with (le [0; 0; 255; 255; 0; 0; 255; 255]).
  change 0x0000ffff0000ffff with (le [255; 255; 0; 0; 255; 255; 0; 0]).
  rewrite !le_land by (bytes || reflexivity). cbn [map2]. small.
  match goal with |- context [Z.shiftr (le ?l) 16] =>
    change (Z.shiftr (le l) 16) with (Z.shiftr (le l) (8 * Z.of_nat 2)) end.
  match goal with |- context [Z.shiftl (le ?l) 16] =>
    change (Z.shiftl (le l) 16) with (Z.shiftl (le l) (8 * Z.of_nat 2)) end.
  rewrite (le_shiftr 2) by bytes. rewrite (le_shiftl 2) by (bytes || reflexivity || lia).
  cbn [skipn zeros repeat Nat.sub firstn app].
  match goal with |- Z.lor (le ?l) _ = _ => rewrite <- (le_zeros l 2) end. cbn [zeros repeat app].
  rewrite le_lor by (bytes || reflexivity). cbn [map2]. small.
  rewrite le_val_be_val. reflexivity.
Qed.

(** Reversal of a word whose bytes are then stored: big endian. *)
Lemma rev_store : forall rv n, (forall l, bytes_ok l -> length l = n -> rv (le l) = be_val 256 l) ->
  forall x, 0 <= x < 256 ^ Z.of_nat n -> mem_bytes n (rv x) = be_bytes n x.
Proof.
  intros rv n R x Hx.
  assert (E : x = le (le_bytes n x)).
  { rewrite le_val_le_bytes, Z.mod_small; auto. }
  rewrite E at 1. rewrite R by (apply le_bytes_ok || apply le_bytes_length).
  rewrite mem_bytes_le. unfold be_bytes.
  rewrite <- (rev_involutive (le_bytes n x)) at 1. rewrite <- le_val_be_val.
  rewrite <- (le_bytes_length n x) at 1. rewrite <- (rev_length (le_bytes n x)).
  apply le_bytes_val. apply bytes_ok_rev, le_bytes_ok.
Qed.

(** * Rotations *)
Lemma pow_split : forall w b, 0 <= b <= w -> 2 ^ w = 2 ^ b * 2 ^ (w - b).
Proof. intros. rewrite <- Z.pow_add_r by lia. f_equal. lia. Qed.
Lemma lor_add : forall a b n, 0 <= n -> 0 <= a < 2 ^ n -> 0 <= b -> Z.lor a (b * 2 ^ n) = a + b * 2 ^ n.
Proof.
  intros a b n Hn Ha Hb. rewrite <- Z.lxor_lor, Z.add_nocarry_lxor; auto;
  apply Z.bits_inj'; intros m Hm; rewrite Z.land_spec, Z.bits_0, <- Z.shiftl_mul_pow2 by auto;
  destruct (Z.ltb_spec m n);
  [rewrite Z.shiftl_spec_low by auto; apply andb_false_r
  |rewrite (bits_high a n m) by auto; reflexivity
  |rewrite Z.shiftl_spec_low by auto; apply andb_false_r
  |rewrite (bits_high a n m) by auto; reflexivity].
Qed.
Lemma shl_mod : forall w b x, 0 <= b <= w -> Z.shiftl x (w - b) mod 2 ^ w = (x mod 2 ^ b) * 2 ^ (w - b).
Proof.
  intros w b x H. rewrite Z.shiftl_mul_pow2 by lia. rewrite (pow_split w b) by auto.
  rewrite Zmult_mod_distr_r. reflexivity.
Qed.
Lemma rotr_eq : forall w b x, 0 <= b <= w -> 0 <= x < 2 ^ w ->
  Z.lor (Z.shiftr x b) (Z.shiftl x (w - b) mod 2 ^ w) = rotr w b x.
Proof.
  intros w b x Hb Hx. rewrite shl_mod by auto. rewrite Z.shiftr_div_pow2 by lia. unfold rotr.
  assert (P : 0 < 2 ^ b) by (apply Z.pow_pos_nonneg; lia).
  rewrite (pow_split w b) in Hx by auto.
  apply lor_add; [lia| |].
  - split. { apply Z.div_pos; lia. } apply Z.div_lt_upper_bound; lia.
  - apply Z.mod_pos_bound. auto.
Qed.
Lemma rotl_eq : forall w b x, 0 <= b <= w -> 0 <= x < 2 ^ w ->
  Z.lor (Z.shiftl x b mod 2 ^ w) (Z.shiftr x (w - b)) = rotl w b x.
Proof.
  intros w b x Hb Hx. replace b with (w - (w - b)) at 1 by lia. rewrite shl_mod by lia.
  rewrite Z.shiftr_div_pow2 by lia. unfold rotl. replace (w - (w - b)) with b by lia.
  assert (P : 0 < 2 ^ (w - b)) by (apply Z.pow_pos_nonneg; lia).
  rewrite (pow_split w (w - b)) in Hx by lia. replace (w - (w - b)) with b in Hx by lia.
  rewrite Z.lor_comm, Z.add_comm. apply lor_add; [lia| |].
  - split. { apply Z.div_pos; lia. } apply Z.div_lt_upper_bound; lia.
  - apply Z.mod_pos_bound. auto.
Qed.
Lemma rotl_range : forall w b x, 0 <= b <= w -> 0 <= x < 2 ^ w -> 0 <= rotl w b x < 2 ^ w.
Proof.
  intros w b x Hb Hx. unfold rotl.
  assert (P : 0 < 2 ^ (w - b)) by (apply Z.pow_pos_nonneg; lia).
  assert (Q : 0 < 2 ^ b) by (apply Z.pow_pos_nonneg; lia).
  pose proof (Z.mod_pos_bound x (2 ^ (w - b)) P).
  rewrite (pow_split w b) by lia. rewrite (pow_split w b) in Hx by lia.
  assert (0 <= x / 2 ^ (w - b) < 2 ^ b).
  { split. { apply Z.div_pos; lia. } apply Z.div_lt_upper_bound; lia. }
  nia.
Qed.
Lemma lnot_mod : forall w x, 0 <= w -> 0 <= x < 2 ^ w -> Z.lnot x mod 2 ^ w = compl w x.
Proof.
  intros w x Hw Hx. unfold compl, Z.lnot. rewrite <- (Z.mod_add (Z.pred (- x)) 1) by lia.
  rewrite Z.mod_small by lia. lia.
Qed.
