(** Bits of byte lists and the bit loops of bip39.c. *)
From Coq Require Import Lia.
From Verif Require Import Base.Bytes Base.BytesFacts Base.Groups Spec.Bip39 Model.Bip39.
Open Scope Z_scope.

Lemma app_inj_len : forall A (a b c d : list A), length a = length b -> a ++ c = b ++ d -> a = b /\ c = d.
Proof.
  induction a as [|x a IH]; intros [|y b] c d L E; try discriminate; auto.
  cbn [app] in E. injection E as <- E. apply IH in E as [-> ->]; auto.
Qed.
Lemma byte_bits_len : forall b, length (byte_bits b) = 8%nat. Proof. reflexivity. Qed.
Lemma bits_of_len : forall l, length (bits_of l) = (8 * length l)%nat.
Proof. induction l; [reflexivity|]. unfold bits_of in *. cbn [flat_map]. rewrite app_length, IHl, byte_bits_len. cbn [length]. lia. Qed.
Lemma bits_of_app : forall a b, bits_of (a ++ b) = bits_of a ++ bits_of b.
Proof. intros. unfold bits_of. apply flat_map_app. Qed.
Lemma bits_of_cons : forall x l, bits_of (x :: l) = byte_bits x ++ bits_of l. Proof. reflexivity. Qed.
Lemma byte_bits_val : forall b, byte_ok b -> bits_val (byte_bits b) = b.
Proof.
  intros b B. apply Z.eqb_eq. revert b B. apply (zrange_sweep 256). vm_compute. reflexivity.
Qed.
Lemma byte_bits_inj : forall a b, byte_ok a -> byte_ok b -> byte_bits a = byte_bits b -> a = b.
Proof. intros a b A B E. rewrite <- (byte_bits_val a A), <- (byte_bits_val b B), E. reflexivity. Qed.
Lemma bits_of_inj : forall a b, bytes_ok a -> bytes_ok b -> bits_of a = bits_of b -> a = b.
Proof.
  induction a as [|x a IH]; intros [|y b] A B E; auto; try discriminate.
  rewrite !bits_of_cons in E. apply app_inj_len in E as [E1 E2]; [|reflexivity].
  f_equal; [apply byte_bits_inj; auto; [exact (Forall_inv A)|exact (Forall_inv B)]|apply IH; auto].
  - exact (Forall_inv_tail A). - exact (Forall_inv_tail B).
Qed.

(** ** Reading bits *)
Lemma land_bit : forall b k, 0 <= b -> 0 <= k -> (0 <? Z.land b (Z.shiftl 1 k)) = Z.testbit b k.
Proof.
  intros b k B K. rewrite Z.shiftl_1_l.
  assert (E : Z.land b (2 ^ k) = if Z.testbit b k then 2 ^ k else 0).
  { apply Z.bits_inj'. intros n N. rewrite Z.land_spec, Z.pow2_bits_eqb by auto.
    destruct (Z.eqb_spec k n) as [<-|D].
    - destruct (Z.testbit b k); cbn [andb]; [rewrite Z.pow2_bits_true; auto|rewrite Z.bits_0; auto].
    - rewrite andb_false_r. destruct (Z.testbit b k); [rewrite Z.pow2_bits_false; auto; lia|rewrite Z.bits_0; auto]. }
  rewrite E. destruct (Z.testbit b k); [apply Z.ltb_lt; apply Z.pow_pos_nonneg; lia|reflexivity].
Qed.
Lemma byte_bit_nth : forall b i, (i < 8)%nat -> nth i (byte_bits b) false = Z.testbit b (7 - Z.of_nat i).
Proof. intros b i H. do 8 (destruct i; [reflexivity|]). lia. Qed.
Lemma bits_nth : forall l p, (p < 8 * length l)%nat ->
  nth p (bits_of l) false = Z.testbit (nth (p / 8) l 0) (7 - Z.of_nat (p mod 8)).
Proof.
  induction l as [|x l IH]; intros p H; [cbn in H; lia|]. rewrite bits_of_cons.
  destruct (lt_dec p 8).
  - rewrite app_nth1 by (rewrite byte_bits_len; auto). rewrite Nat.div_small, Nat.mod_small by auto. apply byte_bit_nth; auto.
  - replace p with ((p - 8) + 1 * 8)%nat at 2 3 by lia. rewrite Nat.div_add, Nat.mod_add by lia.
    rewrite app_nth2 by (rewrite byte_bits_len; lia). rewrite byte_bits_len, IH by (cbn [length] in H; lia).
    replace ((p - 8) / 8 + 1)%nat with (S ((p - 8) / 8)) by lia. reflexivity.
Qed.
Lemma firstn_S_nth : forall A (l : list A) n d, (n < length l)%nat -> skipn n l = nth n l d :: skipn (S n) l.
Proof. induction l; intros n d H; [cbn in H; lia|]. destruct n; [reflexivity|]. cbn [nth]. rewrite <- IHl by (cbn [length] in H; lia). reflexivity. Qed.
Lemma bytes_nth_nonneg : forall l n, bytes_ok l -> 0 <= nth n l 0.
Proof.
  intros l n O. destruct (lt_dec n (length l)); [|rewrite nth_overflow; lia].
  assert (byte_ok (nth n l 0)) by (apply (proj1 (Forall_forall _ _) O); apply nth_In; auto). unfold byte_ok in *; lia.
Qed.
Lemma word_index_eq : forall n bits pos idx, bytes_ok bits -> (pos + n <= 8 * length bits)%nat ->
  word_index n bits (Z.of_nat pos) idx = Ok (be_acc 2 idx (map Z.b2z (firstn n (skipn pos (bits_of bits))))).
Proof.
  induction n; intros bits pos idx O L; [reflexivity|].
  cbn [word_index]. rewrite aget_ok by (unfold len; dlia). cbn [bind].
  rewrite (firstn_S_nth _ _ pos false) by (rewrite bits_of_len; lia).
  assert (Ep : Z.to_nat (Z.of_nat pos / 8) = (pos / 8)%nat).
  { change 8 with (Z.of_nat 8). rewrite <- Nat2Z.inj_div. apply Nat2Z.id. }
  rewrite Ep. change 8 with (Z.of_nat 8) at 1. rewrite <- Nat2Z.inj_mod.
  rewrite land_bit.
  2: apply bytes_nth_nonneg; auto.
  2: { pose proof (Nat.mod_upper_bound pos 8). lia. }
  rewrite <- bits_nth by lia.
  replace (Z.of_nat pos + 1) with (Z.of_nat (S pos)) by lia. rewrite IHn by (auto; lia).
  cbn [firstn map]. unfold be_acc at 2. fold be_acc. destruct (nth pos (bits_of bits) false); reflexivity.
Qed.

(** ** Setting bits *)
Fixpoint bset (l : list bool) (i : nat) : list bool :=
  match l, i with
  | [], _ => []
  | _ :: t, O => true :: t
  | x :: t, S j => x :: bset t j
  end.
Lemma bset_app1 : forall a b i, (i < length a)%nat -> bset (a ++ b) i = bset a i ++ b.
Proof. induction a; intros b i H; [cbn in H; lia|]. destruct i; [reflexivity|]. cbn [app bset]. rewrite IHa by (cbn [length] in H; lia). reflexivity. Qed.
Lemma bset_app2 : forall a b i, bset (a ++ b) (length a + i) = a ++ bset b i.
Proof. induction a; intros; [reflexivity|]. cbn [app length Nat.add bset]. rewrite IHa. reflexivity. Qed.
Lemma byte_bset : forall b i, (i < 8)%nat -> byte_bits (Z.lor b (Z.shiftl 1 (7 - Z.of_nat i))) = bset (byte_bits b) i.
Proof.
  intros b i H. unfold byte_bits. rewrite !Z.lor_spec, Z.shiftl_1_l.
  do 8 (destruct i; [cbn [bset]; rewrite !Z.pow2_bits_eqb by lia; cbn -[Z.testbit]; rewrite ?orb_false_r, ?orb_true_r; reflexivity|]). lia.
Qed.
Lemma bits_set : forall l p, (p < 8 * length l)%nat ->
  bits_of (set_nth l (p / 8) (Z.lor (nth (p / 8) l 0) (Z.shiftl 1 (7 - Z.of_nat (p mod 8))))) = bset (bits_of l) p.
Proof.
  induction l as [|x l IH]; intros p H; [cbn in H; lia|]. rewrite bits_of_cons.
  destruct (lt_dec p 8).
  - rewrite bset_app1 by (rewrite byte_bits_len; auto). rewrite Nat.div_small, Nat.mod_small by auto.
    cbn [set_nth nth]. rewrite bits_of_cons, byte_bset by auto. reflexivity.
  - replace p with ((p - 8) + 1 * 8)%nat at 1 2 3 by lia. rewrite Nat.div_add, Nat.mod_add by lia.
    replace ((p - 8) / 8 + 1)%nat with (S ((p - 8) / 8)) by lia. cbn [set_nth nth]. rewrite bits_of_cons.
    rewrite IH by (cbn [length] in H; lia). replace p with (length (byte_bits x) + (p - 8))%nat at 2 by (rewrite byte_bits_len; lia).
    rewrite bset_app2. reflexivity.
Qed.
Lemma set_ok : forall l i v, bytes_ok l -> byte_ok v -> bytes_ok (set_nth l i v).
Proof.
  induction l; intros i v O V; destruct i; cbn [set_nth]; auto; constructor; auto; try exact (Forall_inv O); try exact (Forall_inv_tail O).
  apply IHl; auto. exact (Forall_inv_tail O).
Qed.
Lemma lor_byte : forall b i, byte_ok b -> (i < 8)%nat -> byte_ok (Z.lor b (Z.shiftl 1 (7 - Z.of_nat i))).
Proof.
  intros b i B I. unfold byte_ok in *. split; [apply Z.lor_nonneg; split; [lia|]; apply Z.shiftl_nonneg; lia|].
  change 256 with (2 ^ 8). apply Z.log2_lt_pow2; [|].
  - assert (0 <= Z.lor b (Z.shiftl 1 (7 - Z.of_nat i))) by (apply Z.lor_nonneg; split; [lia|]; apply Z.shiftl_nonneg; lia).
    assert (Z.lor b (Z.shiftl 1 (7 - Z.of_nat i)) <> 0); [|lia].
    intro E. apply Z.lor_eq_0_iff in E as [_ E]. rewrite Z.shiftl_1_l in E. pose proof (Z.pow_pos_nonneg 2 (7 - Z.of_nat i)). lia.
  - rewrite Z.log2_lor, Z.shiftl_1_l, Z.log2_pow2 by (try lia; apply Z.shiftl_nonneg; lia).
    apply Z.max_lub_lt; [|lia]. destruct (Z.eq_dec b 0) as [->|N]; [reflexivity|].
    apply Z.log2_lt_pow2; lia.
Qed.

(** The low [n] bits of [k], most significant first. *)
Fixpoint bits_n (n : nat) (k : Z) : list bool :=
  match n with O => [] | S m => Z.testbit k (Z.of_nat m) :: bits_n m k end.
Lemma bits_n_len : forall n k, length (bits_n n k) = n. Proof. induction n; intros; cbn; auto. Qed.
Lemma bits_n_val : forall n k, bits_val (bits_n n k) = k mod 2 ^ Z.of_nat n.
Proof.
  induction n; intros; [rewrite Z.mod_1_r; reflexivity|].
  unfold bits_val in *. cbn [bits_n map]. rewrite be_val_cons, IHn, len_map. unfold len. rewrite bits_n_len.
  rewrite Nat2Z.inj_succ, Z.pow_succ_r by lia. rewrite Z.testbit_spec' by lia.
  rewrite (Z.mul_comm 2). rewrite Z.rem_mul_r by (try lia; apply Z.pow_nonzero; lia). lia.
Qed.
Lemma val_bits_n : forall l, bits_n (length l) (bits_val l) = l.
Proof.
  assert (B : forall l, 0 <= bits_val l < 2 ^ len l).
  { intro l. unfold bits_val. rewrite <- (len_map _ _ Z.b2z l). apply be_val_bound; [lia|]. apply Forall_forall. intros x X.
    apply in_map_iff in X as (b & <- & _). destruct b; cbn [Z.b2z]; lia. }
  assert (G : forall l n k, 0 <= k -> (n <= length l)%nat -> bits_n n (bits_val l + k * 2 ^ len l) = bits_n n (bits_val l)).
  { intros l n k K. induction n; intros N; [reflexivity|]. cbn [bits_n]. rewrite IHn by lia. f_equal.
    rewrite <- (Z.mod_pow2_bits_low (bits_val l + k * 2 ^ len l) (len l)) by (unfold len; lia).
    rewrite Z.mod_add by (apply Z.pow_nonzero; unfold len; lia). rewrite Z.mod_pow2_bits_low by (unfold len; lia). reflexivity. }
  induction l as [|x l IH]; [reflexivity|]. cbn [length bits_n].
  unfold bits_val at 1 2. cbn [map]. rewrite be_val_cons. fold (bits_val l). rewrite len_map. f_equal.
  - pose proof (B l) as BL. change (Z.of_nat (length l)) with (len l). rewrite Z.add_comm.
    destruct x; cbn [Z.b2z].
    + rewrite Z.mul_1_l. apply Z.testbit_true; [apply len_nonneg|].
      rewrite (Z.add_comm (bits_val l)). replace (2 ^ len l) with (1 * 2 ^ len l) at 1 by lia.
      rewrite Z.div_add_l by lia. rewrite Z.div_small by lia. reflexivity.
    + rewrite Z.mul_0_l, Z.add_0_r. apply Z.testbit_false; [apply len_nonneg|]. rewrite Z.div_small by lia. reflexivity.
  - rewrite Z.add_comm. rewrite G by (try (destruct x; cbn; lia); auto). exact IH.
Qed.

Lemma bset_false : forall P n, bset (P ++ repeat false (S n)) (length P) = (P ++ [true]) ++ repeat false n.
Proof. intros. replace (length P) with (length P + 0)%nat by lia. rewrite bset_app2. cbn [repeat bset]. rewrite <- app_assoc. reflexivity. Qed.
Lemma put_bits_eq : forall n k bits P m, 0 <= k -> bytes_ok bits -> bits_of bits = P ++ repeat false (n + m) ->
  exists bits', put_bits n k bits (len P) = Ok (bits', len P + Z.of_nat n) /\ bytes_ok bits' /\ length bits' = length bits /\
    bits_of bits' = P ++ bits_n n k ++ repeat false m.
Proof.
  induction n; intros k bits P m K O E.
  - exists bits. cbn [put_bits]. rewrite Z.add_0_r. auto.
  - cbn [put_bits].
    assert (L : (8 * length bits = length P + S (n + m))%nat).
    { rewrite <- bits_of_len, E, app_length, repeat_length. lia. }
    assert (T : negb (Z.land k (Z.shiftl 1 (Z.of_nat n)) =? 0) = Z.testbit k (Z.of_nat n)).
    { rewrite <- land_bit by lia. assert (0 <= Z.land k (Z.shiftl 1 (Z.of_nat n))) by (apply Z.land_nonneg; auto).
      destruct (Z.eqb_spec (Z.land k (Z.shiftl 1 (Z.of_nat n))) 0) as [->|N]; [reflexivity|]. symmetry. apply Z.ltb_lt. lia. }
    rewrite T. destruct (Z.testbit k (Z.of_nat n)) eqn:B.
    + rewrite aget_ok by (unfold len; dlia). cbn [bind].
      assert (Ep : Z.to_nat (len P / 8) = (length P / 8)%nat).
      { unfold len. change 8 with (Z.of_nat 8). rewrite <- Nat2Z.inj_div. apply Nat2Z.id. }
      assert (Em : len P mod 8 = Z.of_nat (length P mod 8)).
      { unfold len. change 8 with (Z.of_nat 8). rewrite <- Nat2Z.inj_mod. reflexivity. }
      unfold aset. rewrite Ep, Em.
      assert (C : ((0 <=? len P / 8) && (len P / 8 <? len bits)) = true).
      { apply andb_true_intro. split; [apply Z.leb_le|apply Z.ltb_lt]; unfold len; dlia. }
      rewrite C. cbn [bind].
      pose proof (Nat.mod_upper_bound (length P) 8 ltac:(lia)) as M.
      set (v := Z.lor _ _).
      assert (V : byte_ok v).
      { apply lor_byte; auto. apply (proj1 (Forall_forall _ _) O). apply nth_In. apply Nat.div_lt_upper_bound; lia. }
      assert (Es : bits_of (set_nth bits (length P / 8) v) = (P ++ [true]) ++ repeat false (n + m)).
      { unfold v. rewrite bits_set by lia. rewrite E. cbn [Nat.add]. apply bset_false. }
      destruct (IHn k (set_nth bits (length P / 8) v) (P ++ [true]) m K (set_ok _ _ _ O V) Es) as (b' & E1 & E2 & E3 & E4).
      replace (len P + 1) with (len (P ++ [true])) by (rewrite len_app; reflexivity).
      exists b'. rewrite E1. split; [f_equal; f_equal; rewrite len_app; unfold len; cbn [length]; lia|].
      split; auto. split; [rewrite E3; apply set_nth_length|]. rewrite E4. cbn [bits_n]. rewrite B, <- app_assoc. reflexivity.
    + cbn [bind]. assert (Es : bits_of bits = (P ++ [false]) ++ repeat false (n + m)) by (rewrite E, <- app_assoc; reflexivity).
      destruct (IHn k bits (P ++ [false]) m K O Es) as (b' & E1 & E2 & E3 & E4).
      replace (len P + 1) with (len (P ++ [false])) by (rewrite len_app; reflexivity).
      exists b'. rewrite E1. split; [f_equal; f_equal; rewrite len_app; unfold len; cbn [length]; lia|].
      split; auto. split; auto. rewrite E4. cbn [bits_n]. rewrite B, <- app_assoc. reflexivity.
Qed.
