(** Base-58 / base-43 encoding and decoding, generic in the constants. *)
From Coq Require Import Lia.
From Verif Require Import Base.Bytes Base.BytesFacts Model.Conversion Spec.Codecs.
Open Scope Z_scope.

Record bp_ok (p : base_params) : Prop := {
  ok_base : 2 <= bp_base p <= 255;
  ok_len : len (bp_chars p) = bp_base p;
  ok_nodup : NoDup (bp_chars p);
  ok_eden : 0 < bp_eden p; ok_enum : 0 < bp_enum p < 2^10;
  ok_dden : 0 < bp_dden p; ok_dnum : 0 < bp_dnum p < 2^10;
  ok_enc : 256 ^ bp_eden p <= bp_base p ^ bp_enum p;
  ok_dec : bp_base p ^ bp_dden p <= 256 ^ bp_dnum p }.

Fixpoint nodupb (l : list Z) : bool :=
  match l with [] => true | x :: t => negb (existsb (Z.eqb x) t) && nodupb t end.
Lemma nodupb_spec : forall l, nodupb l = true -> NoDup l.
Proof.
  induction l; intros H; cbn in H; constructor; apply andb_true_iff in H as [H1 H2]; auto.
  intros HI. apply negb_true_iff in H1. assert (existsb (Z.eqb a) l = true); [|congruence].
  apply existsb_exists. exists a. split; auto. apply Z.eqb_refl.
Qed.

Lemma p58_ok : bp_ok p58.
Proof.
  constructor; try (vm_compute; try split; congruence).
  apply nodupb_spec; vm_compute; reflexivity.
Qed.
Lemma p43_ok : bp_ok p43.
Proof.
  constructor; try (vm_compute; try split; congruence).
  apply nodupb_spec; vm_compute; reflexivity.
Qed.

(** [base^a <= c^b] with fractions: the size estimates suffice at every length. *)
Lemma size_bound : forall a c num den k, 1 < a -> 1 < c -> 0 < den -> 0 < num -> 0 <= k ->
  a ^ den <= c ^ num -> a ^ k <= c ^ (k * num / den + 1).
Proof.
  intros a c num den k Ha Hc Hd Hn Hk H.
  assert (0 <= k * num / den) by (apply Z.div_pos; nia).
  apply Z.nlt_ge; intros L.
  assert ((c ^ (k * num / den + 1)) ^ den < (a ^ k) ^ den) as L2.
  { apply Z.pow_lt_mono_l; [lia|]. split; [apply Z.pow_nonneg; lia|exact L]. }
  rewrite <- !Z.pow_mul_r in L2 by lia.
  rewrite (Z.mul_comm k den), (Z.pow_mul_r a) in L2 by lia.
  assert ((a ^ den) ^ k <= (c ^ num) ^ k) as L3.
  { apply Z.pow_le_mono_l. split; [apply Z.pow_nonneg; lia|exact H]. }
  rewrite <- (Z.pow_mul_r c) in L3 by lia.
  assert (c ^ (num * k) <= c ^ ((k * num / den + 1) * den)) as L4.
  { apply Z.pow_le_mono_r; [lia|]. pose proof (Z.mul_succ_div_gt (k * num) den Hd). nia. }
  lia.
Qed.

Fixpoint le_digits (base : Z) (n : nat) (x : Z) : list Z :=
  match n with O => [] | S n' => x mod base :: le_digits base n' (x / base) end.
Lemma le_digits_length : forall b n x, length (le_digits b n x) = n.
Proof. induction n; intros; cbn; auto. Qed.
Lemma le_digits_ok : forall b n x, 0 < b -> digits_ok b (le_digits b n x).
Proof.
  induction n; intros; cbn; constructor; [apply Z.mod_pos_bound; lia|apply IHn; auto].
Qed.
Lemma le_digits_val : forall b n x, 0 < b -> le_val b (le_digits b n x) = x mod b ^ Z.of_nat n.
Proof.
  induction n; intros x H.
  - cbn. rewrite Z.mod_1_r. reflexivity.
  - cbn [le_digits le_val]. rewrite IHn, Nat2Z.inj_succ, Z.pow_succ_r by lia.
    rewrite Z.rem_mul_r by (try apply Z.pow_nonzero; lia). reflexivity.
Qed.

Section Generic.
Variable p : base_params.
Hypothesis OK : bp_ok p.
Let base := bp_base p.
Let ch (d : Z) : Z := char_at (bp_chars p) d.

Lemma div_pass_spec : forall buf rem, 0 <= rem < base -> bytes_ok buf ->
  let '(r, buf') := div_pass base rem buf in
  length buf' = length buf /\ bytes_ok buf' /\ 0 <= r < base /\
  rem * 256 ^ len buf + be_val 256 buf = base * be_val 256 buf' + r.
Proof.
  pose proof (ok_base _ OK) as HB. fold base in HB.
  induction buf as [|b t IH]; intros rem HR HO; cbn [div_pass].
  - repeat split; auto; try lia. cbn. lia.
  - inversion HO; subst. unfold byte_ok in H1.
    assert (0 <= rem * 256 + b < 65536) as T by nia. rewrite (u16_id _ T).
    set (temp := rem * 256 + b) in *.
    assert (0 <= temp mod base < base) as HR' by (apply Z.mod_pos_bound; lia).
    specialize (IH (temp mod base) HR' H2).
    destruct (div_pass base (temp mod base) t) as [r t'].
    destruct IH as (L & BO & RR & V).
    assert (0 <= temp / base < 256) as TD.
    { split; [apply Z.div_pos; lia|]. apply Z.div_lt_upper_bound; subst temp; nia. }
    rewrite u8_id by lia. repeat split; try lia.
    + cbn; congruence.
    + constructor; auto.
    + rewrite !be_val_cons, len_cons.
      assert (len t' = len t) as -> by (unfold len; congruence).
      rewrite Z.pow_add_r, Z.pow_1_r by (pose proof (len_nonneg _ t); lia).
      assert (temp = base * (temp / base) + temp mod base) as E by (apply Z.div_mod; lia).
      transitivity (temp * 256 ^ len t + be_val 256 t); [subst temp; ring|].
      rewrite E at 1. rewrite Z.mul_add_distr_r. rewrite <- Z.add_assoc, V. ring.
Qed.

Lemma digit_loop_spec : forall n buf acc, bytes_ok buf ->
  digit_loop p n buf acc = map ch (rev (le_digits base n (be_val 256 buf))) ++ acc.
Proof.
  pose proof (ok_base _ OK) as HB. fold base in HB.
  induction n; intros buf acc H; cbn [digit_loop le_digits]; auto.
  fold base.
  pose proof (div_pass_spec buf 0 ltac:(lia) H) as S.
  destruct (div_pass base 0 buf) as [r buf']. destruct S as (L & BO & RR & V).
  rewrite IHn by auto. cbn [rev]. rewrite map_app, <- app_assoc. cbn [map app].
  rewrite Z.mul_0_l, Z.add_0_l in V. rewrite V.
  replace ((base * be_val 256 buf' + r) / base) with (be_val 256 buf').
  2:{ rewrite Z.mul_comm, Z.div_add_l, (Z.div_small r) by lia. lia. }
  replace ((base * be_val 256 buf' + r) mod base) with r; auto.
  rewrite Z.add_comm, Z.mul_comm, Z.mod_add, Z.mod_small by lia. reflexivity.
Qed.

Lemma ch_inj : forall d e, 0 <= d < base -> 0 <= e < base -> ch d = ch e -> d = e.
Proof.
  intros d e Hd He E. unfold ch, char_at in E.
  pose proof (ok_len _ OK) as L. unfold len in L. fold base in L.
  assert (Z.to_nat d = Z.to_nat e); [|lia].
  apply (proj1 (NoDup_nth (bp_chars p) 0) (ok_nodup _ OK)); auto; lia.
Qed.

Definition strip0 (l : list Z) : list Z := skipn (count_while (fun d => d =? 0) l) l.
Lemma strip_map : forall l, digits_ok base l ->
  count_while (fun c => c =? ch 0) (map ch l) = count_while (fun d => d =? 0) l.
Proof.
  pose proof (ok_base _ OK) as HB. fold base in HB.
  intros l H; induction H; cbn; auto.
  destruct (Z.eqb_spec x 0).
  - subst. rewrite Z.eqb_refl. congruence.
  - destruct (Z.eqb_spec (ch x) (ch 0)); auto. exfalso; apply n, ch_inj; auto. lia.
Qed.
Lemma skipn_map : forall A B (f : A -> B) n l, skipn n (map f l) = map f (skipn n l).
Proof. induction n; intros [|x l]; cbn; auto. Qed.
Lemma strip0_val : forall l, be_val base (strip0 l) = be_val base l.
Proof.
  intros. rewrite (count_while_zeros l) at 2. rewrite be_val_zeros. reflexivity.
Qed.
Lemma strip0_ok : forall l, digits_ok base l -> digits_ok base (strip0 l).
Proof.
  intros l H. rewrite (count_while_zeros l) in H. apply Forall_app in H. tauto.
Qed.
Lemma strip0_hd : forall l, hd 1 (strip0 l) <> 0.
Proof.
  intros. pose proof (count_while_stop Z (fun d => d =? 0) l) as S. unfold strip0.
  destruct (skipn _ l); cbn; [lia|]. apply Z.eqb_neq; auto.
Qed.

(** The text produced for [bs]. *)
Definition enc_digits (bs : list Z) : list Z :=
  strip0 (rev (le_digits base (Z.to_nat (enc_size p bs)) (be_val 256 (skipn (zero_count bs) bs)))).
Definition enc_text (bs : list Z) : list Z :=
  repeat (ch 0) (zero_count bs) ++ map ch (enc_digits bs).

Lemma enc_size_val : forall bs, len bs < 2^50 ->
  enc_size p bs = (len bs - Z.of_nat (zero_count bs)) * bp_enum p / bp_eden p + 1 /\ 0 < enc_size p bs.
Proof.
  intros bs HL. unfold enc_size, zero_count.
  pose proof (count_while_le _ (fun b => b =? 0) bs). pose proof (ok_enum _ OK). pose proof (ok_eden _ OK).
  unfold len in *. rewrite u64_id by nia.
  split; auto. assert (0 <= (Z.of_nat (length bs) - Z.of_nat (count_while (fun b => b =? 0) bs)) * bp_enum p / bp_eden p); [|lia].
  apply Z.div_pos; nia.
Qed.

Lemma toBase_spec : forall bs out, bytes_ok bs -> len bs < 2^50 ->
  toBaseLength p bs <= len out ->
  toBase p bs out = (len (enc_text bs), enc_text bs ++ zeros (length out - length (enc_text bs))).
Proof.
  intros bs out H HL HO. unfold toBase, toBaseLength in *.
  pose proof (ok_base _ OK) as HB. fold base in HB.
  destruct (Z.ltb_spec (len out) (enc_size p bs + Z.of_nat (zero_count bs))); [lia|].
  rewrite digit_loop_spec by (apply bytes_ok_skipn; auto). rewrite app_nil_r.
  change (char_at (bp_chars p) 0) with (ch 0).
  rewrite strip_map by (apply Forall_rev, le_digits_ok; lia).
  rewrite skipn_map. reflexivity.
Qed.
Lemma toBase_refuses : forall bs out, len out < toBaseLength p bs -> toBase p bs out = (0, out).
Proof.
  intros. unfold toBase, toBaseLength in *.
  destruct (Z.ltb_spec (len out) (enc_size p bs + Z.of_nat (zero_count bs))); [reflexivity|lia].
Qed.

Lemma rest_len : forall bs, len (skipn (zero_count bs) bs) = len bs - Z.of_nat (zero_count bs).
Proof.
  intros. unfold len, zero_count. rewrite skipn_length.
  pose proof (count_while_le _ (fun b => b =? 0) bs). lia.
Qed.

Lemma enc_digits_spec : forall bs, bytes_ok bs -> len bs < 2^50 ->
  digits_ok base (enc_digits bs) /\ hd 1 (enc_digits bs) <> 0 /\
  be_val base (enc_digits bs) = be_val 256 (skipn (zero_count bs) bs).
Proof.
  intros bs H HL. pose proof (ok_base _ OK) as HB. fold base in HB. unfold enc_digits.
  split; [|split].
  - apply strip0_ok, Forall_rev, le_digits_ok; lia.
  - apply strip0_hd.
  - rewrite strip0_val, <- le_val_be_val, le_digits_val by lia. apply Z.mod_small.
    destruct (enc_size_val bs HL) as [E P]. rewrite Z2Nat.id by lia.
    assert (bytes_ok (skipn (zero_count bs) bs)) as B by (apply bytes_ok_skipn; auto).
    apply bytes_digits in B. pose proof (be_val_bound 256 _ ltac:(lia) B) as V.
    split; [lia|]. eapply Z.lt_le_trans; [apply V|]. rewrite E, <- rest_len.
    apply size_bound; try lia; try apply OK. apply len_nonneg.
Qed.

Lemma enc_text_spec : forall bs, bytes_ok bs -> len bs < 2^50 ->
  base_text base (bp_chars p) bs (enc_text bs).
Proof.
  intros bs H HL. destruct (enc_digits_spec bs H HL) as (A & B & C).
  exists (zero_count bs), (skipn (zero_count bs) bs), (enc_digits bs).
  split; [apply count_while_zeros|].
  split; [apply (strip0_hd bs)|].
  repeat split; auto.
Qed.

(** * Decoding *)
Lemma mul_pass_spec : forall tmp v, 0 <= v <= 255 -> bytes_ok tmp ->
  length (mul_pass base v tmp) = length tmp /\ bytes_ok (mul_pass base v tmp) /\
  le_val 256 (mul_pass base v tmp) = (le_val 256 tmp * base + v) mod 256 ^ len tmp.
Proof.
  pose proof (ok_base _ OK) as HB. fold base in HB.
  induction tmp as [|b t IH]; intros v Hv H; cbn [mul_pass].
  - repeat split; auto. cbn. rewrite Z.mod_1_r. reflexivity.
  - inversion H; subst. unfold byte_ok in H2.
    assert (0 <= b * base + v < 65536) as T by nia.
    rewrite (u16_id (b * base)) by nia. rewrite (u16_id _ T). set (cur := b * base + v) in *.
    assert (0 <= cur / 256 <= 255) as C by dlia.
    destruct (IH (cur / 256) C H3) as (L & BO & V).
    rewrite u8_id by dlia.
    split; [cbn; congruence|]. split; [constructor; auto; unfold byte_ok; dlia|].
    cbn [le_val]. rewrite V, len_cons, Z.pow_add_r, Z.pow_1_r by (pose proof (len_nonneg _ t); lia).
    rewrite Z.rem_mul_r by (try apply Z.pow_nonzero; pose proof (len_nonneg _ t); lia).
    assert ((b + 256 * le_val 256 t) * base + v = cur + 256 * (le_val 256 t * base)) as -> by (subst cur; ring).
    rewrite Z.mul_comm, (Z.mul_comm 256 (le_val 256 t * base)), Z.mod_add, Z.div_add by lia.
    rewrite (Z.add_comm (cur / 256)). ring.
Qed.

Lemma strchr_ch : forall d, 0 <= d < base -> strchr (bp_chars p) (ch d) = Some d.
Proof.
  intros d Hd. unfold strchr. apply index_of_app1. unfold ch, char_at.
  pose proof (ok_len _ OK) as L. unfold len in L. fold base in L.
  rewrite index_of_nth by (try apply OK; lia). f_equal. lia.
Qed.
Lemma valid_prefix_ch : forall ds, digits_ok base ds -> valid_prefix (bp_chars p) (map ch ds) = map ch ds.
Proof. intros ds H; induction H; cbn; auto. rewrite strchr_ch by auto. congruence. Qed.

Lemma mul_loop_spec : forall ds tmp, digits_ok base ds -> bytes_ok tmp ->
  length (mul_loop p (map ch ds) tmp) = length tmp /\ bytes_ok (mul_loop p (map ch ds) tmp) /\
  le_val 256 (mul_loop p (map ch ds) tmp) = be_acc base (le_val 256 tmp) ds mod 256 ^ len tmp.
Proof.
  pose proof (ok_base _ OK) as HB. fold base in HB.
  induction ds as [|d ds IH]; intros tmp H HT; cbn [map mul_loop be_acc].
  - repeat split; auto. symmetry. apply Z.mod_small.
    rewrite le_val_be_val. rewrite <- len_rev. apply be_val_bound; [lia|].
    apply bytes_digits, bytes_ok_rev; auto.
  - inversion H; subst. rewrite strchr_ch by auto. fold base.
    destruct (mul_pass_spec tmp d ltac:(lia) HT) as (L & BO & V).
    destruct (IH (mul_pass base d tmp) H3 BO) as (L' & BO' & V').
    repeat split; auto; [congruence|]. rewrite V', V.
    assert (len (mul_pass base d tmp) = len tmp) as -> by (unfold len; congruence).
    rewrite !be_acc_val. rewrite <- (Zplus_mod_idemp_l (_ * _)), Zmult_mod_idemp_l, Zplus_mod_idemp_l.
    reflexivity.
Qed.

Lemma count_zero_prefix : forall z l, hd 1 l <> 0 -> count_while (fun d => d =? 0) (zeros z ++ l) = z.
Proof.
  induction z; intros l H; cbn.
  - destruct l; auto. cbn in H. cbn. destruct (Z.eqb_spec z 0); [congruence|auto].
  - f_equal. apply IHz; auto.
Qed.

Lemma enc_text_map : forall bs, enc_text bs = map ch (zeros (zero_count bs) ++ enc_digits bs).
Proof.
  intros. unfold enc_text. rewrite map_app. f_equal. unfold zeros.
  induction (zero_count bs); cbn; congruence.
Qed.

Definition dec_size (bs : list Z) : Z := fromBaseLength p (len (enc_text bs)).

Lemma enc_text_len : forall bs, bytes_ok bs -> len bs < 2^50 -> len (enc_text bs) <= toBaseLength p bs.
Proof.
  intros bs H HL. unfold enc_text, toBaseLength. rewrite len_app, len_repeat, len_map.
  destruct (enc_size_val bs HL). unfold enc_digits, strip0, len. rewrite skipn_length, rev_length, le_digits_length.
  lia.
Qed.
Lemma toBaseLength_bound : forall bs, len bs < 2^40 -> 0 < toBaseLength p bs < 2^51.
Proof.
  intros bs HL. unfold toBaseLength. destruct (enc_size_val bs ltac:(lia)) as [E P].
  pose proof (ok_enum _ OK). pose proof (ok_eden _ OK). pose proof (rest_len bs). pose proof (len_nonneg _ (skipn (zero_count bs) bs)).
  assert ((len bs - Z.of_nat (zero_count bs)) * bp_enum p / bp_eden p <= (len bs - Z.of_nat (zero_count bs)) * bp_enum p).
  { assert (0 <= (len bs - Z.of_nat (zero_count bs)) * bp_enum p) as N by nia.
    apply Z.div_le_upper_bound; [lia|]. revert N. generalize ((len bs - Z.of_nat (zero_count bs)) * bp_enum p). intros; nia. }
  nia.
Qed.

(** tmp after the loop: the original bytes right-aligned. *)
Lemma decode_tmp : forall bs, bytes_ok bs -> len bs < 2^40 -> len bs <= dec_size bs ->
  rev (mul_loop p (enc_text bs) (zeros (Z.to_nat (dec_size bs)))) =
  zeros (Z.to_nat (dec_size bs - len bs)) ++ bs.
Proof.
  intros bs H HL HD. pose proof (ok_base _ OK) as HB. fold base in HB.
  destruct (enc_digits_spec bs H ltac:(lia)) as (A & B & C).
  pose proof (len_nonneg _ bs) as LN.
  rewrite enc_text_map.
  assert (digits_ok base (zeros (zero_count bs) ++ enc_digits bs)) as DO.
  { apply Forall_app; split; auto. unfold zeros. apply Forall_forall. intros x Hx. apply repeat_spec in Hx. lia. }
  destruct (mul_loop_spec _ (zeros (Z.to_nat (dec_size bs))) DO (bytes_ok_zeros _)) as (L & BO & V).
  apply (be_val_inj 256); [lia| | | |].
  - apply bytes_digits, bytes_ok_rev; auto.
  - apply bytes_digits, bytes_ok_app; split; auto. apply bytes_ok_zeros.
  - rewrite rev_length, L, app_length. unfold zeros. rewrite !repeat_length. unfold len in *. lia.
  - rewrite <- le_val_be_val, V, be_val_zeros. rewrite le_val_be_val.
    assert (rev (zeros (Z.to_nat (dec_size bs))) = zeros (Z.to_nat (dec_size bs))) as ->.
    { unfold zeros. generalize (Z.to_nat (dec_size bs)). induction n; cbn; auto. rewrite IHn.
      clear. induction n; cbn; congruence. }
    rewrite be_val_zeros0. change (be_acc base 0 (zeros (zero_count bs) ++ enc_digits bs)) with
      (be_val base (zeros (zero_count bs) ++ enc_digits bs)).
    rewrite be_val_zeros, C.
    assert (be_val 256 bs = be_val 256 (skipn (zero_count bs) bs)) as E.
    { rewrite (count_while_zeros bs) at 1. apply be_val_zeros. }
    rewrite <- E. apply Z.mod_small. rewrite len_zeros, Z2Nat.id by lia.
    pose proof (be_val_bound 256 bs ltac:(lia) (proj1 (bytes_digits bs) H)).
    split; [lia|]. eapply Z.lt_le_trans; [apply H0|]. apply Z.pow_le_mono_r; lia.
Qed.

Lemma fromBase_spec : forall bs out, bytes_ok bs -> len bs < 2^40 ->
  Z.of_nat (zero_count bs) < 256 ->
  len bs <= dec_size bs < len bs + 256 -> len bs <= len out ->
  fromBase p (enc_text bs) out = (len bs, bs ++ zeros (length out - length bs)).
Proof.
  intros bs out H HL HZ [HD HD2] HO. pose proof (len_nonneg _ bs) as LN.
  destruct (enc_digits_spec bs H ltac:(lia)) as (A & B & C).
  pose proof (ok_base _ OK) as HB. fold base in HB.
  assert (digits_ok base (zeros (zero_count bs) ++ enc_digits bs)) as DO.
  { apply Forall_app; split; auto. unfold zeros. apply Forall_forall. intros x Hx. apply repeat_spec in Hx. lia. }
  unfold fromBase.
  assert (valid_prefix (bp_chars p) (enc_text bs) = enc_text bs) as -> by (rewrite enc_text_map; apply valid_prefix_ch; auto).
  fold (dec_size bs).
  assert (count_while (fun c => c =? char_at (bp_chars p) 0) (enc_text bs) = zero_count bs) as ->.
  { rewrite enc_text_map. change (char_at (bp_chars p) 0) with (ch 0). rewrite strip_map by auto.
    apply count_zero_prefix; auto. }
  rewrite (u8_id (Z.of_nat (zero_count bs))) by lia. rewrite Nat2Z.id.
  rewrite decode_tmp by (auto; lia).
  set (k := dec_size bs - len bs) in *.
  assert (count_while (fun b => b =? 0) (skipn (zero_count bs) (zeros (Z.to_nat k) ++ bs)) = Z.to_nat k) as ->.
  { rewrite (count_while_zeros bs) at 2. fold (zero_count bs).
    replace (zeros (Z.to_nat k) ++ zeros (zero_count bs) ++ skipn (zero_count bs) bs)
      with (zeros (zero_count bs) ++ zeros (Z.to_nat k) ++ skipn (zero_count bs) bs).
    - rewrite skipn_app_len by (unfold zeros; rewrite repeat_length; auto).
      apply count_zero_prefix. apply (strip0_hd bs).
    - rewrite !app_assoc. f_equal. unfold zeros. rewrite <- !repeat_app. f_equal. lia. }
  rewrite Z2Nat.id by lia. rewrite u8_id by lia.
  replace (dec_size bs - k) with (len bs) by lia.
  destruct (Z.ltb_spec (len out) (len bs)); [lia|].
  rewrite skipn_app_len by (unfold zeros; rewrite repeat_length; auto).
  reflexivity.
Qed.

(** The result is never longer than the size estimate, so a short estimate loses data. *)
Lemma fromBase_short : forall bs out r out', bytes_ok bs -> len bs < 2^40 ->
  dec_size bs < len bs -> fromBase p (enc_text bs) out = (r, out') -> r < len bs.
Proof.
  intros bs out r out' H HL HD E. unfold fromBase in E.
  destruct (enc_digits_spec bs H ltac:(lia)) as (A & B & C).
  pose proof (ok_base _ OK) as HB. fold base in HB.
  assert (digits_ok base (zeros (zero_count bs) ++ enc_digits bs)) as DO.
  { apply Forall_app; split; auto. unfold zeros. apply Forall_forall. intros x Hx. apply repeat_spec in Hx. lia. }
  assert (valid_prefix (bp_chars p) (enc_text bs) = enc_text bs) as X by (rewrite enc_text_map; apply valid_prefix_ch; auto).
  rewrite X in E. fold (dec_size bs) in E.
  match type of E with context [dec_size bs - ?e] => set (sh := e) in * end.
  assert (0 <= sh < 256) by apply u8_range.
  destruct (len out <? dec_size bs - sh); injection E as <- <-; [|lia].
  assert (0 < dec_size bs); [|lia]. unfold dec_size, fromBaseLength.
  pose proof (ok_dden _ OK). pose proof (Z.div_pos (u64 (len (enc_text bs) * bp_dnum p)) (bp_dden p) (proj1 (u64_range _)) ltac:(lia)).
  lia.
Qed.

(** No leading zero: the estimate always suffices. *)
Lemma dec_size_val : forall bs, bytes_ok bs -> len bs < 2^40 ->
  dec_size bs = len (enc_text bs) * bp_dnum p / bp_dden p + 1.
Proof.
  intros bs H HL. unfold dec_size, fromBaseLength.
  pose proof (enc_text_len bs H ltac:(lia)). pose proof (toBaseLength_bound bs HL).
  pose proof (len_nonneg _ (enc_text bs)). pose proof (ok_dnum _ OK).
  rewrite u64_id by nia. reflexivity.
Qed.
Lemma dec_size_nozero : forall bs, bytes_ok bs -> len bs < 2^40 -> zero_count bs = O -> len bs <= dec_size bs.
Proof.
  intros bs H HL HZ. pose proof (ok_base _ OK) as HB. fold base in HB.
  rewrite dec_size_val by auto.
  destruct (enc_digits_spec bs H ltac:(lia)) as (A & B & C).
  assert (be_val 256 bs < 256 ^ (len (enc_text bs) * bp_dnum p / bp_dden p + 1)) as U.
  { rewrite HZ in C. cbn [skipn] in C. rewrite <- C.
    eapply Z.lt_le_trans; [apply be_val_bound; auto; lia|].
    assert (len (enc_text bs) = len (enc_digits bs)) as ->.
    { unfold enc_text. rewrite HZ. cbn [repeat app]. apply len_map. }
    apply size_bound; try lia; try apply OK. apply len_nonneg. }
  destruct bs as [|b bs].
  - rewrite len_nil. pose proof (len_nonneg _ (enc_text [])). pose proof (ok_dnum _ OK). pose proof (ok_dden _ OK).
    pose proof (Z.div_pos (len (enc_text []) * bp_dnum p) (bp_dden p)). nia.
  - inversion H; subst. unfold byte_ok in H2.
    assert (b <> 0) by (intros ->; cbn in HZ; discriminate).
    pose proof (be_val_lower 256 b bs ltac:(lia) (proj1 (bytes_digits bs) H3) ltac:(lia)) as LO.
    rewrite len_cons.
    assert (256 ^ len bs < 256 ^ (len (enc_text (b :: bs)) * bp_dnum p / bp_dden p + 1)) as Q by lia.
    apply Z.pow_lt_mono_r_iff in Q; try lia.
    pose proof (len_nonneg _ (enc_text (b :: bs))). pose proof (ok_dnum _ OK). pose proof (ok_dden _ OK).
    pose proof (Z.div_pos (len (enc_text (b :: bs)) * bp_dnum p) (bp_dden p)). nia.
Qed.
End Generic.
