(** Lemmas about the definitions of [Bytes]. *)
From Coq Require Import Lia.
From Verif Require Import Base.Bytes.
Open Scope Z_scope.

Ltac dlia := Z.div_mod_to_equations; lia.

Lemma len_nil : forall A, len (@nil A) = 0. Proof. reflexivity. Qed.
Lemma len_cons : forall A (x : A) l, len (x :: l) = 1 + len l.
Proof. intros; unfold len; cbn [List.length]; lia. Qed.
Lemma len_app : forall A (l1 l2 : list A), len (l1 ++ l2) = len l1 + len l2.
Proof. intros; unfold len; rewrite app_length; lia. Qed.
Lemma len_nonneg : forall A (l : list A), 0 <= len l.
Proof. intros; unfold len; lia. Qed.
Lemma len_rev : forall A (l : list A), len (rev l) = len l.
Proof. intros; unfold len; rewrite rev_length; reflexivity. Qed.
Lemma len_repeat : forall A (x : A) n, len (repeat x n) = Z.of_nat n.
Proof. intros; unfold len; rewrite repeat_length; reflexivity. Qed.
Lemma len_zeros : forall n, len (zeros n) = Z.of_nat n.
Proof. intros; apply len_repeat. Qed.
Lemma len_map : forall A B (f : A -> B) l, len (map f l) = len l.
Proof. intros; unfold len; rewrite map_length; reflexivity. Qed.

Lemma u8_id : forall x, 0 <= x < 256 -> u8 x = x.
Proof. intros; unfold u8; apply Z.mod_small; change (2^8) with 256; lia. Qed.
Lemma u16_id : forall x, 0 <= x < 65536 -> u16 x = x.
Proof. intros; unfold u16; apply Z.mod_small; change (2^16) with 65536; lia. Qed.
Lemma u32_id : forall x, 0 <= x < 2^32 -> u32 x = x.
Proof. intros; unfold u32; apply Z.mod_small; lia. Qed.
Lemma u64_id : forall x, 0 <= x < 2^64 -> u64 x = x.
Proof. intros; unfold u64; apply Z.mod_small; lia. Qed.
Lemma u8_range : forall x, 0 <= u8 x < 256.
Proof. intros; unfold u8; apply Z.mod_pos_bound; reflexivity. Qed.
Lemma u8_byte : forall x, byte_ok (u8 x).
Proof. intros; unfold byte_ok; apply u8_range. Qed.
Lemma u32_range : forall x, 0 <= u32 x < 2^32.
Proof. intros; unfold u32; apply Z.mod_pos_bound; reflexivity. Qed.
Lemma u64_range : forall x, 0 <= u64 x < 2^64.
Proof. intros; unfold u64; apply Z.mod_pos_bound; reflexivity. Qed.

Lemma bytes_ok_app : forall a b, bytes_ok (a ++ b) <-> bytes_ok a /\ bytes_ok b.
Proof. intros; unfold bytes_ok; rewrite Forall_app; tauto. Qed.
Lemma bytes_ok_rev : forall a, bytes_ok a -> bytes_ok (rev a).
Proof. intros; unfold bytes_ok in *; apply Forall_rev; assumption. Qed.
Lemma bytes_ok_zeros : forall n, bytes_ok (zeros n).
Proof.
  intros n; induction n; cbn; constructor; auto. unfold byte_ok; lia.
Qed.
Lemma bytes_ok_firstn : forall n l, bytes_ok l -> bytes_ok (firstn n l).
Proof.
  intros n l H; rewrite <- (firstn_skipn n l) in H; apply bytes_ok_app in H; tauto.
Qed.
Lemma bytes_ok_skipn : forall n l, bytes_ok l -> bytes_ok (skipn n l).
Proof.
  intros n l H; rewrite <- (firstn_skipn n l) in H; apply bytes_ok_app in H; tauto.
Qed.

Lemma aget_ok : forall l i, 0 <= i < len l -> aget l i = Ok (nth (Z.to_nat i) l 0).
Proof.
  intros; unfold aget.
  destruct (Z.leb_spec 0 i); destruct (Z.ltb_spec i (len l)); cbn; try lia; reflexivity.
Qed.
Lemma aget_app1 : forall a b i, 0 <= i < len a -> aget (a ++ b) i = aget a i.
Proof.
  intros; rewrite !aget_ok; rewrite ?len_app; try (pose proof (len_nonneg _ b); lia).
  rewrite app_nth1; auto. unfold len in *; lia.
Qed.
Lemma aget_mid : forall a x b, aget (a ++ x :: b) (len a) = Ok x.
Proof.
  intros; rewrite aget_ok.
  - unfold len; rewrite Nat2Z.id, app_nth2, Nat.sub_diag; auto.
  - rewrite len_app, len_cons; pose proof (len_nonneg _ a); pose proof (len_nonneg _ b); lia.
Qed.

Lemma set_nth_length : forall l i v, List.length (set_nth l i v) = List.length l.
Proof. induction l; intros [|i] v; cbn; auto. Qed.
Lemma set_nth_app_mid : forall a x b v, set_nth (a ++ x :: b) (List.length a) v = a ++ v :: b.
Proof. induction a; intros; cbn; auto. f_equal; auto. Qed.

Lemma be_acc_app : forall b l1 l2 acc, be_acc b acc (l1 ++ l2) = be_acc b (be_acc b acc l1) l2.
Proof. induction l1; intros; cbn; auto. Qed.
Lemma be_acc_val : forall b l acc, be_acc b acc l = acc * b ^ len l + be_val b l.
Proof.
  unfold be_val. induction l; intros; cbn [be_acc].
  - rewrite len_nil, Z.pow_0_r. lia.
  - rewrite IHl, (IHl (0 * b + a)), len_cons, Z.pow_add_r, Z.pow_1_r
      by (pose proof (len_nonneg _ l); lia).
    ring.
Qed.
Lemma be_val_nil : forall b, be_val b [] = 0. Proof. reflexivity. Qed.
Lemma be_val_cons : forall b d l, be_val b (d :: l) = d * b ^ len l + be_val b l.
Proof. intros; unfold be_val at 1; cbn [be_acc]. rewrite be_acc_val. f_equal; ring. Qed.
Lemma be_val_app : forall b l1 l2, be_val b (l1 ++ l2) = be_val b l1 * b ^ len l2 + be_val b l2.
Proof. intros; unfold be_val at 1; rewrite be_acc_app, be_acc_val; reflexivity. Qed.
Lemma be_val_snoc : forall b l d, be_val b (l ++ [d]) = be_val b l * b + d.
Proof. intros; rewrite be_val_app, be_val_cons; cbn. ring. Qed.
Lemma le_val_be_val : forall b l, le_val b l = be_val b (rev l).
Proof. induction l; cbn [le_val rev]; auto. rewrite be_val_snoc, <- IHl. ring. Qed.
Lemma be_val_zeros : forall b n l, be_val b (zeros n ++ l) = be_val b l.
Proof.
  intros b n l; induction n; [reflexivity|].
  change (zeros (S n) ++ l) with (0 :: (zeros n ++ l)). rewrite be_val_cons, IHn. lia.
Qed.
Lemma be_val_zeros0 : forall b n, be_val b (zeros n) = 0.
Proof. intros; rewrite <- (app_nil_r (zeros n)), be_val_zeros; reflexivity. Qed.

Definition digits_ok (b : Z) (l : list Z) : Prop := Forall (fun d => 0 <= d < b) l.
Lemma be_val_bound : forall b l, 0 < b -> digits_ok b l -> 0 <= be_val b l < b ^ len l.
Proof.
  intros b l Hb H; induction H.
  - cbn. lia.
  - rewrite be_val_cons, len_cons, Z.pow_add_r, Z.pow_1_r by (pose proof (len_nonneg _ l); lia).
    assert (0 < b ^ len l) by (apply Z.pow_pos_nonneg; [lia | apply len_nonneg]).
    nia.
Qed.
Lemma be_val_lower : forall b d l, 0 < b -> digits_ok b l -> 0 < d -> b ^ len l <= be_val b (d :: l).
Proof.
  intros; rewrite be_val_cons. pose proof (be_val_bound b l H H0).
  assert (0 < b ^ len l) by (apply Z.pow_pos_nonneg; [lia | apply len_nonneg]).
  nia.
Qed.

(** Digit lists of the same length are determined by their value. *)
Lemma be_val_inj : forall b l1 l2, 0 < b -> digits_ok b l1 -> digits_ok b l2 ->
  List.length l1 = List.length l2 -> be_val b l1 = be_val b l2 -> l1 = l2.
Proof.
  intros b l1; induction l1 as [|d1 l1 IH]; intros [|d2 l2] Hb H1 H2 HL HV;
    try discriminate; auto.
  injection HL as HL. inversion H1; subst. inversion H2; subst.
  rewrite !be_val_cons in HV.
  assert (len l1 = len l2) as HLL by (unfold len; congruence).
  rewrite HLL in HV.
  pose proof (be_val_bound b l1 Hb H4) as B1. pose proof (be_val_bound b l2 Hb H6) as B2.
  rewrite HLL in B1.
  assert (0 < b ^ len l2) by (apply Z.pow_pos_nonneg; [lia | apply len_nonneg]).
  assert (d1 = d2) by nia. subst d2. f_equal. apply IH; auto. nia.
Qed.

Lemma bytes_digits : forall l, bytes_ok l <-> digits_ok 256 l.
Proof. intros; unfold bytes_ok, digits_ok, byte_ok; tauto. Qed.

Lemma count_while_app_all : forall A (f : A -> bool) a b, forallb f a = true ->
  count_while f (a ++ b) = (List.length a + count_while f b)%nat.
Proof.
  induction a; intros; cbn in *; auto.
  apply andb_true_iff in H as [H1 H2]; rewrite H1, IHa; auto.
Qed.
Lemma count_while_le : forall A (f : A -> bool) l, (count_while f l <= List.length l)%nat.
Proof. induction l; cbn; auto. destruct (f a); lia. Qed.
Lemma count_while_zeros : forall l,
  l = zeros (count_while (fun b => b =? 0) l) ++ skipn (count_while (fun b => b =? 0) l) l.
Proof.
  induction l as [|x l IH]; cbn; auto. destruct (Z.eqb_spec x 0); cbn; auto.
  subst. f_equal. exact IH.
Qed.
Lemma count_while_stop : forall A (f : A -> bool) l,
  match skipn (count_while f l) l with [] => True | x :: _ => f x = false end.
Proof.
  induction l as [|x l IH]; cbn; auto. destruct (f x) eqn:E; cbn; auto.
Qed.

Lemma index_of_some : forall c l i, index_of c l = Some i -> 0 <= i < len l /\ nth (Z.to_nat i) l 0 = c.
Proof.
  induction l as [|x l IH]; intros i H; cbn in H; try discriminate.
  rewrite len_cons. pose proof (len_nonneg _ l).
  destruct (Z.eqb_spec x c).
  - injection H as <-. split; [lia|]. cbn. auto.
  - destruct (index_of c l) as [j|]; cbn in H; try discriminate. injection H as <-.
    destruct (IH j eq_refl). split; [lia|].
    replace (Z.to_nat (Z.succ j)) with (S (Z.to_nat j)) by lia. exact H1.
Qed.
Lemma index_of_nth : forall l i, NoDup l -> (i < List.length l)%nat ->
  index_of (nth i l 0) l = Some (Z.of_nat i).
Proof.
  induction l as [|x l IH]; intros i ND Hi; cbn in Hi; try lia.
  inversion ND; subst. destruct i; cbn [nth index_of].
  - rewrite Z.eqb_refl. reflexivity.
  - destruct (Z.eqb_spec x (nth i l 0)).
    + exfalso. apply H1. rewrite e. apply nth_In. lia.
    + rewrite IH by (auto; lia). cbn. f_equal. lia.
Qed.
Lemma index_of_none : forall c l, index_of c l = None -> ~ In c l.
Proof.
  induction l as [|x l IH]; intros H; cbn in *; auto.
  destruct (Z.eqb_spec x c); try discriminate.
  destruct (index_of c l); cbn in H; try discriminate. intros [?|?]; auto. apply IH; auto.
Qed.
Lemma index_of_app1 : forall c a b i, index_of c a = Some i -> index_of c (a ++ b) = Some i.
Proof.
  induction a as [|x a IH]; intros b i H; cbn in *; try discriminate.
  destruct (x =? c); auto. destruct (index_of c a) as [j|] eqn:E; cbn in H; try discriminate.
  injection H as <-. rewrite (IH b j); auto.
Qed.

Lemma firstn_app_len : forall A (a b : list A) n, n = length a -> firstn n (a ++ b) = a.
Proof. intros; subst; rewrite firstn_app, Nat.sub_diag, firstn_all; cbn; apply app_nil_r. Qed.
Lemma skipn_app_len : forall A (a b : list A) n, n = length a -> skipn n (a ++ b) = b.
Proof. intros; subst; rewrite skipn_app, Nat.sub_diag, skipn_all; reflexivity. Qed.

(** Finite sweeps over 0..n-1. *)
Definition zrange (n : nat) : list Z := map Z.of_nat (seq 0 n).
Lemma zrange_in : forall n x, In x (zrange n) <-> 0 <= x < Z.of_nat n.
Proof.
  intros; unfold zrange; rewrite in_map_iff; split.
  - intros (k & <- & H). apply in_seq in H. lia.
  - intros H. exists (Z.to_nat x). split; [lia|]. apply in_seq. lia.
Qed.
Lemma zrange_sweep : forall n (P : Z -> bool), forallb P (zrange n) = true ->
  forall x, 0 <= x < Z.of_nat n -> P x = true.
Proof. intros n P H x Hx. rewrite forallb_forall in H. apply H, zrange_in; auto. Qed.

(** Deciding [bytes_ok], for concrete lists. *)
Lemma bytes_ok_bool : forall l, forallb (fun b => (0 <=? b) && (b <? 256)) l = true -> bytes_ok l.
Proof.
  intros l H. apply Forall_forall. intros x I. rewrite forallb_forall in H. specialize (H x I).
  apply andb_prop in H as [H1 H2]. unfold byte_ok. lia.
Qed.
Lemma bytes_ok_lists : forall l, forallb (forallb (fun b => (0 <=? b) && (b <? 256))) l = true -> Forall bytes_ok l.
Proof. intros l H. apply Forall_forall. intros x I. rewrite forallb_forall in H. apply bytes_ok_bool; auto. Qed.

(** Bits that do not overlap. *)
Lemma land_disjoint : forall n W x, 0 <= n -> 0 <= x < 2^n -> Z.land (W * 2^n) x = 0.
Proof.
  intros n W x Hn Hx. rewrite <- Z.shiftl_mul_pow2 by lia. apply Z.bits_inj'. intros i Hi. rewrite Z.land_spec, Z.bits_0.
  destruct (Z.ltb_spec i n).
  - rewrite Z.shiftl_spec_low by lia. reflexivity.
  - replace (Z.testbit x i) with false; [apply andb_false_r|]. rewrite <- (Z.mod_small x (2^n)) by lia. symmetry. apply Z.mod_pow2_bits_high. lia.
Qed.
Lemma lxor_add : forall n W x, 0 <= n -> 0 <= x < 2^n -> Z.lxor (W * 2^n) x = W * 2^n + x.
Proof. intros. symmetry. apply Z.add_nocarry_lxor. apply land_disjoint; auto. Qed.
Lemma lor_add : forall n W x, 0 <= n -> 0 <= x < 2^n -> Z.lor (W * 2^n) x = W * 2^n + x.
Proof. intros. rewrite <- lxor_add by auto. symmetry. apply Z.lxor_lor. apply land_disjoint; auto. Qed.
