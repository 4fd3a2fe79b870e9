From Coq Require Import Lia.
From Verif Require Import Base.Bytes Base.BytesFacts Model.Conversion Spec.Codecs Proof.BaseN.
Open Scope Z_scope.

Definition text58 (bs : list Z) : list Z := enc_text p58 bs.
Definition text43 (bs : list Z) : list Z := enc_text p43 bs.

Lemma toBase58_spec : forall bs out, bytes_ok bs -> len bs < 2^50 -> toBaseLength p58 bs <= len out ->
  toBase58 bs out = (len (text58 bs), text58 bs ++ zeros (length out - length (text58 bs))).
Proof. exact (toBase_spec p58 p58_ok). Qed.

Lemma dec58_upper : forall bs, bytes_ok bs -> len bs < 2^20 -> dec_size p58 bs < len bs + 256.
Proof.
  intros bs H HL. rewrite (dec_size_val p58 p58_ok) by (auto; lia).
  pose proof (enc_text_len p58 p58_ok bs H ltac:(lia)) as E.
  unfold toBaseLength in E. rewrite (proj1 (enc_size_val p58 p58_ok bs ltac:(lia))) in E. cbn [bp_enum bp_eden bp_dnum bp_dden p58] in *.
  pose proof (rest_len p58 bs). pose proof (len_nonneg _ (skipn (zero_count bs) bs)). pose proof (len_nonneg _ bs).
  dlia.
Qed.

Lemma base58_roundtrip_gen : forall bs out, bytes_ok bs -> len bs < 2^20 -> Z.of_nat (zero_count bs) < 256 ->
  len bs <= len (text58 bs) * 361 / 493 + 1 -> len bs <= len out ->
  fromBase58 (text58 bs) out = (len bs, bs ++ zeros (length out - length bs)).
Proof.
  intros. apply (fromBase_spec p58 p58_ok); auto; try lia.
  split; [|apply dec58_upper; auto]. rewrite (dec_size_val p58 p58_ok) by (auto; lia). assumption.
Qed.
Lemma base58_lossy : forall bs out, bytes_ok bs -> len bs < 2^20 ->
  len (text58 bs) * 361 / 493 + 1 < len bs -> fst (fromBase58 (text58 bs) out) < len bs.
Proof.
  intros bs out H HL HD. destruct (fromBase58 (text58 bs) out) as [r o] eqn:E. cbn.
  eapply (fromBase_short p58 p58_ok); [| | |exact E]; auto; try lia.
  rewrite (dec_size_val p58 p58_ok) by (auto; lia). assumption.
Qed.
Lemma base58_roundtrip_nozero : forall bs out, bytes_ok bs -> len bs < 2^20 -> hd 1 bs <> 0 -> len bs <= len out ->
  fromBase58 (text58 bs) out = (len bs, bs ++ zeros (length out - length bs)).
Proof.
  intros bs out H HL HH HO.
  assert (zero_count bs = O) as Z0.
  { destruct bs; auto. cbn in HH. unfold zero_count. cbn. destruct (Z.eqb_spec z 0); [congruence|auto]. }
  apply base58_roundtrip_gen; auto; [lia|].
  pose proof (dec_size_nozero p58 p58_ok bs H ltac:(lia) Z0) as D.
  rewrite (dec_size_val p58 p58_ok) in D by (auto; lia). exact D.
Qed.

(** Lower bound on the number of digits. *)
Lemma enc_digits_lower : forall bs k, bytes_ok bs -> len bs < 2^50 ->
  0 <= k -> 58 ^ k <= be_val 256 (skipn (zero_count bs) bs) -> k < len (enc_digits p58 bs).
Proof.
  intros bs k H HL Hk HV. destruct (enc_digits_spec p58 p58_ok bs H HL) as (A & B & C).
  pose proof (be_val_bound 58 _ eq_refl A) as U. cbn [bp_base p58] in C. rewrite C in U.
  apply (Z.pow_lt_mono_r_iff 58); try lia; try apply len_nonneg.
Qed.
Lemma base58_roundtrip_25 : forall bs out, bytes_ok bs -> len bs = 25 -> (zero_count bs <= 2)%nat -> 25 <= len out ->
  fromBase58 (text58 bs) out = (25, bs ++ zeros (length out - length bs)).
Proof.
  intros bs out H HL HZ HO. rewrite <- HL. apply base58_roundtrip_gen; auto; try lia.
  rewrite HL.
  assert (33 <= len (text58 bs)) as N; [|dlia].
  unfold text58, enc_text. rewrite len_app, len_repeat, len_map.
  set (r := skipn (zero_count bs) bs) in *.
  assert (bytes_ok r) as RO by (apply bytes_ok_skipn; auto).
  pose proof (rest_len p58 bs) as RL. fold r in RL.
  pose proof (strip0_hd p58 bs) as HH. fold (zero_count bs) in HH. unfold strip0 in HH. fold (zero_count bs) in HH. fold r in HH.
  destruct r as [|b t] eqn:Er; [rewrite len_nil in RL; lia|]. cbn [hd] in HH.
  inversion RO; subst. unfold byte_ok in H2. rewrite len_cons in RL.
  pose proof (be_val_lower 256 b t ltac:(lia) (proj1 (bytes_digits t) H3) ltac:(lia)) as LO.
  assert (zero_count bs = 0 \/ zero_count bs = 1 \/ zero_count bs = 2)%nat as [Z0|[Z0|Z0]] by lia; rewrite Z0 in RL.
  - assert (len t = 24) as LT by lia. rewrite LT in LO.
    pose proof (enc_digits_lower bs 32 H ltac:(lia) ltac:(lia)) as D. fold r in D. rewrite Er in D.
    assert (58 ^ 32 <= 256 ^ 24) by (vm_compute; congruence). specialize (D ltac:(lia)). lia.
  - assert (len t = 23) as LT by lia. rewrite LT in LO.
    pose proof (enc_digits_lower bs 31 H ltac:(lia) ltac:(lia)) as D. fold r in D. rewrite Er in D.
    assert (58 ^ 31 <= 256 ^ 23) by (vm_compute; congruence). specialize (D ltac:(lia)). lia.
  - assert (len t = 22) as LT by lia. rewrite LT in LO.
    pose proof (enc_digits_lower bs 30 H ltac:(lia) ltac:(lia)) as D. fold r in D. rewrite Er in D.
    assert (58 ^ 30 <= 256 ^ 22) by (vm_compute; congruence). specialize (D ltac:(lia)). lia.
Qed.

Lemma firstn_repeat : forall A (x : A) n m, (n <= m)%nat -> firstn n (repeat x m) = repeat x n.
Proof. induction n; intros [|m] H; cbn; auto; try lia. f_equal. apply IHn. lia. Qed.

Lemma mul_pass_length : forall b t v, length (mul_pass b v t) = length t.
Proof. induction t; intros; cbn; auto. Qed.
Lemma mul_loop_length : forall p e t, length (mul_loop p e t) = length t.
Proof.
  induction e as [|x e IHe]; intros t; cbn [mul_loop]; auto.
  destruct (strchr (bp_chars p) x) as [v|]; auto. rewrite IHe. apply mul_pass_length.
Qed.
(** Base58Check *)
Section Check.
Variable dsha : list Z -> list Z.
Hypothesis dsha_len : forall m, length (dsha m) = 32%nat.
Hypothesis dsha_ok : forall m, bytes_ok (dsha m).

Definition with_check (bs : list Z) : list Z := bs ++ firstn 4 (dsha bs).
Lemma with_check_len : forall bs, len (with_check bs) = len bs + 4.
Proof. intros. unfold with_check. rewrite len_app. unfold len at 2. rewrite firstn_length, dsha_len. reflexivity. Qed.
Lemma with_check_ok : forall bs, bytes_ok bs -> bytes_ok (with_check bs).
Proof. intros. apply bytes_ok_app; split; auto. apply bytes_ok_firstn, dsha_ok. Qed.
Definition text58check (bs : list Z) : list Z := text58 (with_check bs).

Lemma toBase58Check_spec : forall bs out, bytes_ok bs -> len bs < 2^40 ->
  toBaseLength p58 (with_check bs) <= len out ->
  toBase58Check dsha bs out =
    (len (text58check bs), text58check bs ++ zeros (length out - length (text58check bs))).
Proof.
  intros. apply toBase58_spec; [apply with_check_ok; auto|fold (with_check bs); rewrite with_check_len; lia|exact H1].
Qed.

Lemma fromBase58Check_of_decode : forall s bs out, bytes_ok bs -> len bs <= len out ->
  fromBase58 s (out ++ zeros 4) = (len (with_check bs), with_check bs ++ zeros (length (out ++ zeros 4) - length (with_check bs))) ->
  fromBase58Check dsha s out = (len bs, bs ++ skipn (length bs) out).
Proof.
  intros s bs out H HO E. unfold fromBase58Check. rewrite E, with_check_len.
  pose proof (len_nonneg _ bs). destruct (Z.ltb_spec (len bs + 4) 4); [lia|].
  replace (len bs + 4 - 4) with (len bs) by lia. unfold with_check.
  replace (Z.to_nat (len bs)) with (length bs) by (unfold len; lia).
  rewrite <- app_assoc. rewrite firstn_app_len, skipn_app_len by auto.
  rewrite firstn_app_len by (rewrite firstn_length, dsha_len; reflexivity).
  destruct (list_eq_dec Z.eq_dec (firstn 4 (dsha bs)) (firstn 4 (dsha bs))); [reflexivity|congruence].
Qed.

Lemma base58check_roundtrip_nozero : forall bs out, bytes_ok bs -> 0 < len bs < 2^19 -> hd 0 bs <> 0 -> len bs <= len out ->
  fromBase58Check dsha (text58check bs) out = (len bs, bs ++ skipn (length bs) out).
Proof.
  intros bs out H HL HH HO. apply fromBase58Check_of_decode; auto.
  apply base58_roundtrip_nozero.
  - apply with_check_ok; auto.
  - rewrite with_check_len; lia.
  - unfold with_check. destruct bs; [rewrite len_nil in HL; lia|exact HH].
  - rewrite with_check_len, len_app, len_zeros. lia.
Qed.
Lemma zero_count_app_le : forall a b, (zero_count a < length a)%nat -> zero_count (a ++ b) = zero_count a.
Proof.
  unfold zero_count. induction a; intros b H; cbn in *; [lia|].
  destruct (a =? 0); auto. f_equal. apply IHa. lia.
Qed.
Lemma base58check_roundtrip_21 : forall bs out, bytes_ok bs -> len bs = 21 -> (zero_count bs <= 2)%nat -> 21 <= len out ->
  fromBase58Check dsha (text58check bs) out = (21, bs ++ skipn 21 out).
Proof.
  intros bs out H HL HZ HO.
  assert (length bs = 21%nat) as L by (unfold len in HL; lia).
  pose proof (fromBase58Check_of_decode (text58check bs) bs out H ltac:(lia)) as E.
  rewrite HL, L in E. apply E. clear E.
  rewrite with_check_len, HL. change (21 + 4) with 25.
  apply base58_roundtrip_25.
  - apply with_check_ok; auto.
  - rewrite with_check_len; lia.
  - unfold with_check. rewrite zero_count_app_le by lia. auto.
  - rewrite len_app, len_zeros. lia.
Qed.

(** Whatever is accepted carries its checksum. *)
Lemma fromBase58Check_sound : forall s out l out', fromBase58Check dsha s out = (l, out') -> l <> 0 ->
  exists payload tail, length payload = Z.to_nat l /\ firstn (Z.to_nat l) out' = payload /\
    firstn 4 (dsha payload) = firstn 4 tail /\
    snd (fromBase58 s (out ++ zeros 4)) = payload ++ tail /\ fst (fromBase58 s (out ++ zeros 4)) = l + 4.
Proof.
  intros s out l out' E NZ. unfold fromBase58Check in E.
  destruct (fromBase58 s (out ++ zeros 4)) as [n arr] eqn:D.
  destruct (Z.ltb_spec n 4); [injection E as <- <-; congruence|].
  destruct (list_eq_dec Z.eq_dec (firstn 4 (skipn (Z.to_nat (n - 4)) arr)) (firstn 4 (dsha (firstn (Z.to_nat (n - 4)) arr)))) as [Q|Q];
    [|injection E as <- <-; congruence].
  injection E as <- <-.
  exists (firstn (Z.to_nat (n - 4)) arr), (skipn (Z.to_nat (n - 4)) arr). cbn [fst snd].
  assert (length (firstn (Z.to_nat (n - 4)) arr) = Z.to_nat (n - 4)) as LP.
  { rewrite firstn_length. apply Nat.min_l.
    unfold fromBase58, fromBase in D.
    match type of D with (if ?c then _ else _) = _ => destruct c end; injection D as D1 D2; [lia|].
    subst arr. rewrite app_length. match goal with |- context [length (zeros ?k)] => pose proof (Nat.le_0_l (length (zeros k))) end.
    rewrite skipn_length, rev_length.
    match goal with |- context [length (mul_loop p58 ?e ?t)] =>
      assert (length (mul_loop p58 e t) = length t) as LM end.
    { apply mul_loop_length. }
    rewrite LM. unfold zeros at 1. rewrite repeat_length.
    match type of D1 with _ - u8 ?x = _ => pose proof (u8_range x) end. lia. }
  repeat split; auto.
  - rewrite firstn_app_len; auto.
  - rewrite firstn_skipn. reflexivity.
  - lia.
Qed.
End Check.

(** Base 43 *)
Lemma dec43_upper : forall bs, bytes_ok bs -> len bs < 2^15 -> dec_size p43 bs < len bs + 256.
Proof.
  intros bs H HL. rewrite (dec_size_val p43 p43_ok) by (auto; lia).
  pose proof (enc_text_len p43 p43_ok bs H ltac:(lia)) as E.
  unfold toBaseLength in E. rewrite (proj1 (enc_size_val p43 p43_ok bs ltac:(lia))) in E. cbn [bp_enum bp_eden bp_dnum bp_dden p43] in *.
  pose proof (rest_len p58 bs). pose proof (len_nonneg _ (skipn (zero_count bs) bs)). pose proof (len_nonneg _ bs).
  dlia.
Qed.
Lemma base43_roundtrip_nozero : forall bs out, bytes_ok bs -> len bs < 2^15 -> hd 1 bs <> 0 -> len bs <= len out ->
  fromBase43 (text43 bs) out = (len bs, bs ++ zeros (length out - length bs)).
Proof.
  intros bs out H HL HH HO.
  assert (zero_count bs = O) as Z0.
  { destruct bs; auto. cbn in HH. unfold zero_count. cbn. destruct (Z.eqb_spec z 0); [congruence|auto]. }
  apply (fromBase_spec p43 p43_ok); auto; try lia.
  split; [|apply dec43_upper; auto]. apply (dec_size_nozero p43 p43_ok); auto; lia.
Qed.
