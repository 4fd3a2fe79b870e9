(** Carries, comparisons and reductions of nine limb numbers. *)
From Coq Require Import Lia.
From Verif Require Import Base.Bytes Base.BytesFacts Spec.Bignum Model.Bignum.
Open Scope Z_scope.

Notation B := (2^30).
Lemma land_mask : forall x, Z.land x 0x3FFFFFFF = x mod 2^30.
Proof. intros. change 0x3FFFFFFF with (Z.ones 30). apply Z.land_ones. lia. Qed.
Lemma shr30 : forall x, Z.shiftr x 30 = x / 2^30.
Proof. intros. apply Z.shiftr_div_pow2. lia. Qed.
Lemma bn_val_cons : forall d l, bn_val (d :: l) = d + 2^30 * bn_val l.
Proof. reflexivity. Qed.
Lemma bn_val_nil : bn_val [] = 0. Proof. reflexivity. Qed.
Lemma bn_val_app : forall a b, bn_val (a ++ b) = bn_val a + B ^ len a * bn_val b.
Proof.
  induction a as [|d a IH]; intros b; cbn [app].
  - rewrite bn_val_nil, len_nil. lia.
  - rewrite !bn_val_cons, IH, len_cons, Z.pow_add_r by (try apply len_nonneg; lia). ring.
Qed.
Lemma bn_val_bound : forall b l, 0 < b -> words_ok b l -> 0 <= bn_val l.
Proof.
  induction l as [|d l IH]; intros Hb H; [cbn; lia|]. inversion H; subst. rewrite bn_val_cons.
  specialize (IH Hb H3). lia.
Qed.
Lemma bn_val_upper : forall l, words_ok B l -> 0 <= bn_val l < B ^ len l.
Proof.
  induction l as [|d l IH]; intros H; [cbn; lia|]. inversion H; subst. rewrite bn_val_cons, len_cons, Z.pow_add_r by (try apply len_nonneg; lia).
  specialize (IH H3). change (2^30^1) with (2^30). lia.
Qed.
Lemma norm_val : forall x, normalized x -> 0 <= bn_val x < 2^270.
Proof. intros x [L H]. apply bn_val_upper in H. unfold len in H. rewrite L in H. exact H. Qed.
Lemma bn_val_inj : forall a b, words_ok B a -> words_ok B b -> length a = length b -> bn_val a = bn_val b -> a = b.
Proof.
  induction a as [|x a IH]; intros [|y b] Ha Hb L E; try discriminate; auto.
  inversion Ha as [|? ? Hx Ha']; inversion Hb as [|? ? Hy Hb']; subst. rewrite !bn_val_cons in E.
  assert (x = y) by (clear - Hx Hy E; dlia). subst y. f_equal. apply IH; auto. lia.
Qed.

(** Digits of a sum of columns, with a carry that may be negative. *)
Fixpoint digs (cols : list Z) (c : Z) : list Z :=
  match cols with
  | [] => []
  | s :: t => (c + s) mod B :: digs t ((c + s) / B)
  end.
Fixpoint dcarry (cols : list Z) (c : Z) : Z :=
  match cols with [] => c | s :: t => dcarry t ((c + s) / B) end.
Lemma digs_val : forall cols c, bn_val (digs cols c) + B ^ len cols * dcarry cols c = c + bn_val cols.
Proof.
  induction cols as [|s t IH]; intros c; cbn [digs dcarry].
  - rewrite len_nil, bn_val_nil. lia.
  - rewrite !bn_val_cons, len_cons, Z.pow_add_r by (try apply len_nonneg; lia). change (2^30^1) with (2^30).
    specialize (IH ((c + s) / B)). pose proof (Z.div_mod (c + s) B ltac:(lia)). lia.
Qed.
Lemma digs_ok : forall cols c, words_ok B (digs cols c).
Proof.
  induction cols as [|s t IH]; intros c; cbn [digs]; [constructor|]. constructor; [apply Z.mod_pos_bound; lia|apply IH].
Qed.
Lemma digs_len : forall cols c, length (digs cols c) = length cols.
Proof. induction cols; intros; cbn [digs length]; auto. Qed.
Lemma digs_mod : forall cols c, bn_val (digs cols c) = (c + bn_val cols) mod B ^ len cols.
Proof.
  intros. apply (Z.mod_unique_pos _ _ (dcarry cols c)).
  - pose proof (bn_val_upper _ (digs_ok cols c)) as H. unfold len in *. rewrite digs_len in H. exact H.
  - pose proof (digs_val cols c). lia.
Qed.
Lemma digs_exact : forall cols c, 0 <= c + bn_val cols < B ^ len cols -> bn_val (digs cols c) = c + bn_val cols /\ dcarry cols c = 0.
Proof.
  intros cols c H. pose proof (digs_val cols c). pose proof (digs_mod cols c) as M. rewrite Z.mod_small in M by lia. split; auto.
  assert (B ^ len cols * dcarry cols c = 0) as E by lia. apply Z.mul_eq_0 in E as [E|E]; auto. lia.
Qed.

Lemma div_range : forall lo hi s, lo * B <= s < hi * B -> lo <= s / B < hi.
Proof. intros lo hi s H. split; [apply Z.div_le_lower_bound; lia|apply Z.div_lt_upper_bound; lia]. Qed.

(** Addition. *)
Definition zipadd (a b : list Z) : list Z := map (fun ab => fst ab + snd ab) (combine a b).
Lemma zip_val : forall f g, forall a b, (forall x y, f x y = x + g * y) -> length a = length b ->
  bn_val (map (fun ab => f (fst ab) (snd ab)) (combine a b)) = bn_val a + g * bn_val b.
Proof.
  intros f g a. induction a as [|x a IH]; intros [|y b] F L; try discriminate; cbn [combine map].
  - rewrite bn_val_nil. lia.
  - rewrite !bn_val_cons, IH by auto. cbn [fst snd]. rewrite F. ring.
Qed.
Lemma zip_len : forall (f : Z * Z -> Z) a b, length a = length b -> length (map f (combine a b)) = length a.
Proof. intros. rewrite map_length, combine_length. lia. Qed.
Lemma add_loop_digs : forall a b tmp, words_ok B a -> words_ok B b -> length a = length b -> 0 <= tmp <= 1 ->
  add_loop a b tmp = digs (map (fun ab => fst ab + snd ab) (combine a b)) tmp.
Proof.
  induction a as [|x a IH]; intros [|y b] tmp Ha Hb L T; try discriminate; cbn [add_loop combine map digs]; auto.
  inversion Ha; inversion Hb; subst. cbn [fst snd]. cbv zeta. rewrite u32_id by lia. rewrite land_mask, shr30. f_equal.
  apply IH; auto. clear - H1 H5 T. pose proof (div_range 0 2 (tmp + (x + y)) ltac:(lia)). lia.
Qed.
Lemma bn_add_spec : forall a b, normalized a -> normalized b ->
  normalized (bn_add a b) /\ bn_val (bn_add a b) = (bn_val a + bn_val b) mod 2^270.
Proof.
  intros a b [La Ha] [Lb Hb]. unfold bn_add. rewrite add_loop_digs by (auto; lia).
  split; [split; [rewrite digs_len, zip_len; lia|apply digs_ok]|].
  rewrite digs_mod. rewrite (zip_val (fun x y => x + y) 1) by (intros; lia). unfold len. rewrite zip_len, La by lia.
  change (B ^ Z.of_nat 9) with (2^270). f_equal; lia.
Qed.
(** Adding a small number. *)
Lemma addi_loop_digs : forall a tmp, words_ok B a -> 0 <= tmp < 2^32 - 2^30 -> addi_loop a tmp = digs a tmp.
Proof.
  induction a as [|x a IH]; intros tmp Ha T; cbn [addi_loop digs]; auto.
  inversion Ha; subst. cbv zeta. rewrite u32_id by lia. rewrite land_mask, shr30. f_equal.
  apply IH; auto. clear - H1 T. pose proof (div_range 0 4 (tmp + x) ltac:(lia)). lia.
Qed.
Lemma bn_addi_spec : forall a b, normalized a -> 0 <= b <= 2^32 - 2^30 ->
  normalized (bn_addi a b) /\ bn_val (bn_addi a b) = (bn_val a + b) mod 2^270.
Proof.
  intros a b [La Ha] Hb. unfold bn_addi.
  assert (E : addi_loop a b = digs a b).
  { destruct a as [|x a]; [discriminate|]. inversion Ha; subst. cbn [addi_loop digs]. cbv zeta. rewrite u32_id by lia. rewrite land_mask, shr30. f_equal.
    apply addi_loop_digs; auto. clear - H1 Hb. pose proof (div_range 0 4 (b + x) ltac:(lia)). lia. }
  rewrite E. split; [split; [rewrite digs_len; lia|apply digs_ok]|].
  rewrite digs_mod. unfold len. rewrite La. change (B ^ Z.of_nat 9) with (2^270). f_equal; lia.
Qed.
(** Subtraction. *)
Lemma sub_loop_digs : forall a b tmp, words_ok B a -> words_ok B b -> length a = length b -> 0 <= tmp <= 1 ->
  sub_loop a b tmp = digs (map (fun ab => fst ab - snd ab) (combine a b)) (tmp - 1).
Proof.
  induction a as [|x a IH]; intros [|y b] tmp Ha Hb L T; try discriminate; cbn [sub_loop combine map digs]; auto.
  inversion Ha; inversion Hb; subst. cbn [fst snd]. cbv zeta. rewrite u32_id by lia. rewrite land_mask, shr30.
  replace (tmp + (1073741823 + x - y)) with (tmp - 1 + (x - y) + 1 * 2^30) by lia.
  rewrite Z.mod_add, Z.div_add by lia. f_equal. rewrite IH; auto.
  - f_equal; lia.
  - clear - H1 H5 T. pose proof (div_range (-1) 1 (tmp - 1 + (x - y)) ltac:(lia)). lia.
Qed.
Lemma bn_subtract_spec : forall a b, normalized a -> normalized b ->
  normalized (bn_subtract a b) /\ bn_val (bn_subtract a b) = (bn_val a - bn_val b) mod 2^270.
Proof.
  intros a b [La Ha] [Lb Hb]. unfold bn_subtract. rewrite sub_loop_digs by (auto; lia).
  split; [split; [rewrite digs_len, zip_len; lia|apply digs_ok]|].
  rewrite digs_mod. rewrite (zip_val (fun x y => x - y) (-1)) by (intros; lia). unfold len. rewrite zip_len, La by lia.
  change (B ^ Z.of_nat 9) with (2^270). f_equal; lia.
Qed.
Lemma submod_loop_digs : forall a b p tmp, words_ok B a -> words_ok B b -> words_ok B p -> length a = length b -> length a = length p -> 0 <= tmp <= 3 ->
  submod_loop a b p tmp = digs (map (fun ab => fst ab - snd ab) (combine (map (fun ap => fst ap + 2 * snd ap) (combine a p)) b)) (tmp - 1).
Proof.
  induction a as [|x a IH]; intros [|y b] [|q p] tmp Ha Hb Hp L L' T; try discriminate; cbn [submod_loop combine map digs]; auto.
  inversion Ha; inversion Hb; inversion Hp; subst. cbn [fst snd combine map digs]. cbv zeta. rewrite u32_id by lia. rewrite land_mask, shr30.
  replace (tmp + (1073741823 + x + 2 * q - y)) with (tmp - 1 + (x + 2 * q - y) + 1 * 2^30) by lia.
  rewrite Z.mod_add, Z.div_add by lia. f_equal. rewrite IH; auto.
  - f_equal; lia.
  - clear - H1 H5 H9 T. pose proof (div_range (-1) 3 (tmp - 1 + (x + 2 * q - y)) ltac:(lia)). lia.
Qed.
Lemma bn_subtractmod_spec : forall a b p, normalized a -> normalized b -> normalized p ->
  normalized (bn_subtractmod a b p) /\ bn_val (bn_subtractmod a b p) = (bn_val a + 2 * bn_val p - bn_val b) mod 2^270.
Proof.
  intros a b p [La Ha] [Lb Hb] [Lp Hp]. unfold bn_subtractmod. rewrite submod_loop_digs by (auto; lia).
  assert (L1 : length (map (fun ap => fst ap + 2 * snd ap) (combine a p)) = 9%nat) by (rewrite zip_len; lia).
  split; [split; [rewrite digs_len, zip_len; lia|apply digs_ok]|].
  rewrite digs_mod. rewrite (zip_val (fun x y => x - y) (-1)) by (intros; lia). rewrite (zip_val (fun x y => x + 2 * y) 2) by (intros; lia).
  unfold len. rewrite zip_len, L1 by lia. change (B ^ Z.of_nat 9) with (2^270). f_equal; lia.
Qed.
