From Coq Require Import Lia.
From Verif Require Import Base.Bytes Base.BytesFacts Model.Conversion Spec.Codecs.
Open Scope Z_scope.

Lemma le_bytes_length : forall n x, length (le_bytes n x) = n.
Proof. induction n; intros; cbn; auto. Qed.
Lemma len_le_bytes : forall n x, len (le_bytes n x) = Z.of_nat n.
Proof. intros; unfold len; rewrite le_bytes_length; reflexivity. Qed.
Lemma le_bytes_ok : forall n x, bytes_ok (le_bytes n x).
Proof.
  induction n; intros; cbn; constructor; [|apply IHn].
  unfold byte_ok; apply Z.mod_pos_bound; lia.
Qed.
Lemma le_val_le_bytes : forall n x, le_val 256 (le_bytes n x) = x mod 256 ^ Z.of_nat n.
Proof.
  induction n; intros.
  - cbn. rewrite Z.mod_1_r. reflexivity.
  - cbn [le_bytes le_val]. rewrite IHn, Nat2Z.inj_succ, Z.pow_succ_r by lia.
    rewrite Z.rem_mul_r by (try apply Z.pow_nonzero; lia). reflexivity.
Qed.
Lemma le_bytes_val : forall l, bytes_ok l -> le_bytes (length l) (le_val 256 l) = l.
Proof.
  intros l H; induction H; cbn [length le_bytes le_val]; auto.
  unfold byte_ok in H. replace ((x + 256 * le_val 256 l) / 256) with (le_val 256 l) by dlia.
  rewrite IHForall. f_equal. dlia.
Qed.
Lemma le_bytes_app : forall a b x,
  le_bytes (a + b) x = le_bytes a x ++ le_bytes b (x / 256 ^ Z.of_nat a).
Proof.
  induction a; intros.
  - cbn. rewrite Z.div_1_r. reflexivity.
  - cbn [Nat.add le_bytes app]. f_equal. rewrite IHa. do 2 f_equal.
    rewrite Nat2Z.inj_succ, Z.pow_succ_r by lia. rewrite Z.div_div by (try apply Z.pow_pos_nonneg; lia).
    reflexivity.
Qed.
Lemma be_bytes_ok : forall n x, bytes_ok (be_bytes n x).
Proof. intros; apply bytes_ok_rev, le_bytes_ok. Qed.
Lemma be_bytes_length : forall n x, length (be_bytes n x) = n.
Proof. intros; unfold be_bytes; rewrite rev_length; apply le_bytes_length. Qed.
Lemma be_val_be_bytes : forall n x, be_val 256 (be_bytes n x) = x mod 256 ^ Z.of_nat n.
Proof. intros; unfold be_bytes; rewrite <- le_val_be_val; apply le_val_le_bytes. Qed.
Lemma be_bytes_val : forall l, bytes_ok l -> be_bytes (length l) (be_val 256 l) = l.
Proof.
  intros. unfold be_bytes. rewrite <- (rev_involutive l) at 2. rewrite <- le_val_be_val.
  rewrite <- (rev_length l), le_bytes_val, rev_involutive; auto. apply bytes_ok_rev; auto.
Qed.

Lemma land255 : forall x, Z.land x 255 = x mod 256.
Proof. intros; change 255 with (Z.ones 8); rewrite Z.land_ones by lia; reflexivity. Qed.
Lemma land255_byte : forall b, byte_ok b -> Z.land b 255 = b.
Proof. unfold byte_ok; intros; rewrite land255; apply Z.mod_small; lia. Qed.

Lemma beInt_loop_val : forall l num, bytes_ok l ->
  beInt_loop (u64 num) l = u64 (be_acc 256 num l).
Proof.
  induction l; intros num H; cbn [beInt_loop be_acc]; auto.
  inversion H; subst. rewrite <- IHl by auto. f_equal.
  rewrite land255_byte, Z.shiftl_mul_pow2 by (auto; lia). unfold u64.
  rewrite Zplus_mod_idemp_l. change (2^8) with 256.
  rewrite <- Zplus_mod_idemp_l, Zmult_mod_idemp_l, Zplus_mod_idemp_l. reflexivity.
Qed.
Lemma bigEndianToInt_mod : forall l, bytes_ok l -> bigEndianToInt l = be_val 256 l mod 2^64.
Proof.
  intros. unfold bigEndianToInt. change 0 with (u64 0) at 1. rewrite beInt_loop_val; auto.
Qed.
Lemma littleEndianToInt_mod : forall l, bytes_ok l -> littleEndianToInt l = le_val 256 l mod 2^64.
Proof.
  intros. unfold littleEndianToInt. rewrite le_val_be_val. apply bigEndianToInt_mod, bytes_ok_rev; auto.
Qed.

Lemma bytes_len_bound : forall l, bytes_ok l -> (length l <= 8)%nat -> 0 <= be_val 256 l < 2^64.
Proof.
  intros l H L. pose proof (be_val_bound 256 l ltac:(lia) (proj1 (bytes_digits l) H)).
  assert (256 ^ len l <= 256 ^ 8) by (apply Z.pow_le_mono_r; unfold len; lia).
  change (256^8) with (2^64) in H1. lia.
Qed.

Lemma intLE_loop_ok : forall n num i, 0 <= i -> i + Z.of_nat n <= 8 ->
  intLE_loop num i n = Ok (le_bytes n (num / 256 ^ i)).
Proof.
  induction n; intros num i Hi Hn; cbn [intLE_loop le_bytes]; auto.
  destruct (Z.leb_spec 64 (8 * i)); [lia|]. rewrite IHn by lia. cbn [bind].
  rewrite land255, Z.shiftr_div_pow2, Z.pow_mul_r by lia. change (2^8) with 256.
  do 2 f_equal. rewrite Z.div_div by (try apply Z.pow_pos_nonneg; lia).
  rewrite Z.pow_add_r, Z.pow_1_r by lia. reflexivity.
Qed.
Lemma intToLittleEndian_ok : forall num n, (n <= 8)%nat -> intToLittleEndian num n = Ok (le_bytes n num).
Proof. intros. unfold intToLittleEndian. rewrite intLE_loop_ok, Z.div_1_r by lia. reflexivity. Qed.
Lemma intToBigEndian_ok : forall num n, (n <= 8)%nat -> intToBigEndian num n = Ok (be_bytes n num).
Proof.
  intros. unfold intToBigEndian. rewrite intLE_loop_ok by lia. cbn [bind].
  rewrite Z.div_1_r. reflexivity.
Qed.
Lemma intLE_loop_UB : forall n num i, 0 <= i -> i <= 8 -> 8 < i + Z.of_nat n -> intLE_loop num i n = UB.
Proof.
  induction n; intros num i H0 H1 H2; cbn [intLE_loop]; [lia|].
  destruct (Z.leb_spec 64 (8 * i)); auto. rewrite IHn by lia. reflexivity.
Qed.

Lemma le_val_bound : forall l, bytes_ok l -> (length l <= 8)%nat -> 0 <= le_val 256 l < 2^64.
Proof.
  intros. rewrite le_val_be_val. apply bytes_len_bound; [apply bytes_ok_rev|rewrite rev_length]; auto.
Qed.

(** ** C02 *)
Definition fixed_int_roundtrip_stmt : Prop :=
  (forall x n, (n <= 8)%nat ->
     intToLittleEndian x n = Ok (le_bytes n x) /\ intToBigEndian x n = Ok (be_bytes n x) /\
     littleEndianToInt (le_bytes n x) = x mod 2 ^ (8 * Z.of_nat n) /\
     bigEndianToInt (be_bytes n x) = x mod 2 ^ (8 * Z.of_nat n)) /\
  (forall l, bytes_ok l -> (length l <= 8)%nat ->
     intToLittleEndian (littleEndianToInt l) (length l) = Ok l /\
     intToBigEndian (bigEndianToInt l) (length l) = Ok l).
Lemma fixed_int_roundtrip : fixed_int_roundtrip_stmt.
Proof.
  split.
  - intros x n Hn. rewrite intToLittleEndian_ok, intToBigEndian_ok by auto.
    repeat split; auto.
    + rewrite littleEndianToInt_mod by apply le_bytes_ok.
      rewrite Z.mod_small by (apply le_val_bound; [apply le_bytes_ok | rewrite le_bytes_length; auto]).
      rewrite le_val_le_bytes, Z.pow_mul_r by lia. reflexivity.
    + rewrite bigEndianToInt_mod by apply be_bytes_ok.
      rewrite Z.mod_small by (apply bytes_len_bound; [apply be_bytes_ok | rewrite be_bytes_length; auto]).
      rewrite be_val_be_bytes, Z.pow_mul_r by lia. reflexivity.
  - intros l H L. rewrite intToLittleEndian_ok, intToBigEndian_ok by auto.
    rewrite littleEndianToInt_mod, bigEndianToInt_mod by auto.
    rewrite !Z.mod_small by (auto using le_val_bound, bytes_len_bound).
    rewrite le_bytes_val, be_bytes_val; auto.
Qed.

Lemma wide_int_UB : forall x n, (8 < n)%nat -> intToLittleEndian x n = UB /\ intToBigEndian x n = UB.
Proof.
  intros. unfold intToLittleEndian, intToBigEndian. rewrite intLE_loop_UB by lia. auto.
Qed.

(** ** C01 *)
Lemma lenVarInt_spec : forall n, 0 <= n < 2^64 -> lenVarInt n = len (compact_size n).
Proof.
  intros n H. unfold lenVarInt, compact_size. rewrite !Z.shiftr_div_pow2 by lia.
  change (2^16) with 65536. change (2^32) with 4294967296.
  destruct (Z.ltb_spec n 253); [reflexivity|].
  destruct (Z.eqb_spec (n / 65536) 0); destruct (Z.ltb_spec n 65536); try dlia; [reflexivity|].
  destruct (Z.eqb_spec (n / 4294967296) 0); destruct (Z.ltb_spec n 4294967296); try dlia; reflexivity.
Qed.
Lemma compact_size_form : forall n, 0 <= n < 2^64 -> compact_form n (compact_size n).
Proof.
  intros n H. unfold compact_size.
  destruct (Z.ltb_spec n 253); [apply cf1; lia|].
  destruct (Z.ltb_spec n (2^16)); [apply cf3; lia|].
  destruct (Z.ltb_spec n (2^32)); [apply cf5; lia|]. apply cf9; lia.
Qed.
Lemma compact_size_shortest : forall n bs, compact_form n bs -> len (compact_size n) <= len bs.
Proof.
  intros n bs H; destruct H; unfold compact_size;
    destruct (Z.ltb_spec n 253); try (cbn; lia);
    destruct (Z.ltb_spec n (2^16)); try (cbn; lia);
    destruct (Z.ltb_spec n (2^32)); try (cbn; lia).
Qed.
Lemma compact_size_ok : forall n, 0 <= n < 2^64 -> bytes_ok (compact_size n).
Proof.
  intros n H. unfold compact_size.
  destruct (Z.ltb_spec n 253); [repeat constructor; lia|].
  destruct (Z.ltb_spec n (2^16)); [constructor; [unfold byte_ok; lia|apply le_bytes_ok]|].
  destruct (Z.ltb_spec n (2^32)); constructor; try apply le_bytes_ok; unfold byte_ok; lia.
Qed.

Lemma writeVarInt_spec : forall n buf, 0 <= n < 2^64 -> len (compact_size n) <= len buf ->
  writeVarInt n buf = Ok (len (compact_size n), compact_size n ++ skipn (length (compact_size n)) buf).
Proof.
  intros n buf H HB. unfold writeVarInt. rewrite lenVarInt_spec by auto.
  destruct (Z.ltb_spec (len buf) (len (compact_size n))); [lia|]. clear HB H0.
  unfold compact_size.
  destruct (Z.ltb_spec n 253).
  - cbn [len length Z.of_nat Z.eqb]. change (Z.of_nat 1 =? 1) with true. cbn iota.
    rewrite land255, u8_id by (apply Z.mod_pos_bound; lia). rewrite Z.mod_small by lia. reflexivity.
  - destruct (Z.ltb_spec n (2^16)); [|destruct (Z.ltb_spec n (2^32))];
      rewrite len_cons, len_le_bytes;
      match goal with |- context [1 + Z.of_nat ?k] =>
        let v := eval compute in (1 + Z.of_nat k) in change (1 + Z.of_nat k) with v end;
      cbv [Z.eqb Pos.eqb]; cbn iota; rewrite intToLittleEndian_ok by lia; cbn [bind]; reflexivity.
Qed.
Lemma writeVarInt_small : forall n buf, 0 <= n < 2^64 -> len buf < len (compact_size n) ->
  writeVarInt n buf = Ok (0, buf).
Proof.
  intros n buf H HB. unfold writeVarInt. rewrite lenVarInt_spec by auto.
  destruct (Z.ltb_spec (len buf) (len (compact_size n))); [reflexivity|lia].
Qed.

(** Reading any legal form gives the number, whatever follows. *)
Lemma readVarInt_form : forall n bs rest, compact_form n bs -> readVarInt (bs ++ rest) = Ok n.
Proof.
  intros n bs rest H. pose proof (len_nonneg _ rest) as LR.
  destruct H; unfold readVarInt; rewrite aget_ok by (rewrite len_app, ?len_cons, ?len_nil, ?len_le_bytes; lia);
    cbn [bind nth Z.to_nat app].
  - destruct (Z.ltb_spec n 253); [reflexivity|lia].
  - change (253 <? 253) with false. cbn iota. change (Z.shiftl 1 (253 - 252)) with 2.
    rewrite len_cons, len_app, len_le_bytes. destruct (Z.ltb_spec (1 + (Z.of_nat 2 + len rest)) (2 + 1)); [lia|].
    f_equal. change (Z.to_nat 2) with 2%nat. cbn [skipn].
    rewrite firstn_app_len by (rewrite le_bytes_length; lia).
    rewrite (proj1 (proj2 (proj2 (proj1 fixed_int_roundtrip n 2%nat ltac:(lia))))).
    apply Z.mod_small; cbn; lia.
  - change (254 <? 253) with false. cbn iota. change (Z.shiftl 1 (254 - 252)) with 4.
    rewrite len_cons, len_app, len_le_bytes. destruct (Z.ltb_spec (1 + (Z.of_nat 4 + len rest)) (4 + 1)); [lia|].
    f_equal. change (Z.to_nat 4) with 4%nat. cbn [skipn].
    rewrite firstn_app_len by (rewrite le_bytes_length; lia).
    rewrite (proj1 (proj2 (proj2 (proj1 fixed_int_roundtrip n 4%nat ltac:(lia))))).
    apply Z.mod_small; cbn; lia.
  - change (255 <? 253) with false. cbn iota. change (Z.shiftl 1 (255 - 252)) with 8.
    rewrite len_cons, len_app, len_le_bytes. destruct (Z.ltb_spec (1 + (Z.of_nat 8 + len rest)) (8 + 1)); [lia|].
    f_equal. change (Z.to_nat 8) with 8%nat. cbn [skipn].
    rewrite firstn_app_len by (rewrite le_bytes_length; lia).
    rewrite (proj1 (proj2 (proj2 (proj1 fixed_int_roundtrip n 8%nat ltac:(lia))))).
    apply Z.mod_small; cbn; lia.
Qed.

Lemma compact_form_value : forall n bs, compact_form n bs -> 0 <= n < 2^64.
Proof. intros n bs H; destruct H; lia. Qed.
Lemma compact_size_prefix_free : forall n m rest rest', 0 <= n < 2^64 -> 0 <= m < 2^64 ->
  compact_size n ++ rest = compact_size m ++ rest' -> n = m /\ rest = rest'.
Proof.
  intros n m rest rest' Hn Hm E.
  pose proof (readVarInt_form n _ rest (compact_size_form n Hn)) as A.
  pose proof (readVarInt_form m _ rest' (compact_size_form m Hm)) as B.
  rewrite E, B in A. injection A as ->. split; auto.
  apply app_inv_head in E. exact E.
Qed.
Lemma readVarInt_truncated : forall n k, 253 <= n < 2^64 -> (0 < k < length (compact_size n))%nat ->
  readVarInt (firstn k (compact_size n)) = Ok 0.
Proof.
  intros n k Hn Hk. unfold compact_size in *. destruct (Z.ltb_spec n 253); [lia|].
  destruct (Z.ltb_spec n (2^16)); [|destruct (Z.ltb_spec n (2^32))]; destruct k as [|k]; try lia;
    cbn [length] in Hk; rewrite le_bytes_length in Hk; cbn [firstn];
    unfold readVarInt; (rewrite aget_ok by (rewrite len_cons; pose proof (len_nonneg _ (firstn k (le_bytes 2 n)));
      pose proof (len_nonneg _ (firstn k (le_bytes 4 n))); pose proof (len_nonneg _ (firstn k (le_bytes 8 n))); lia));
    cbn [bind nth Z.to_nat];
    match goal with |- context [if ?b <? 253 then _ else _] => change (b <? 253) with false end; cbn iota;
    rewrite len_cons; unfold len; rewrite firstn_length, le_bytes_length;
    match goal with |- context [Z.shiftl 1 ?e] => let v := eval compute in (Z.shiftl 1 e) in change (Z.shiftl 1 e) with v end;
    match goal with |- context [?a <? ?b] => destruct (Z.ltb_spec a b); [reflexivity|lia] end.
Qed.
