(** Proofs of the statements in Props/Conversion.v. *)
From Coq Require Import Lia.
From Verif Require Import Base.Bytes Base.BytesFacts Model.Conversion Spec.Codecs
  Proof.IntVarint Proof.HexBin Proof.BaseN Proof.Base58 Proof.Base64.
Open Scope Z_scope.

Lemma varint_write_read : forall n buf rest, 0 <= n < 2^64 -> lenVarInt n <= len buf ->
  exists enc, writeVarInt n buf = Ok (lenVarInt n, enc ++ skipn (Z.to_nat (lenVarInt n)) buf) /\
    len enc = lenVarInt n /\ enc = compact_size n /\ readVarInt (enc ++ rest) = Ok n.
Proof.
  intros n buf rest Hn HB. rewrite lenVarInt_spec in * by auto.
  exists (compact_size n). rewrite writeVarInt_spec by auto.
  repeat split; auto.
  - unfold len. rewrite Nat2Z.id. reflexivity.
  - apply readVarInt_form, compact_size_form; auto.
Qed.
Lemma varint_small_buffer : forall n buf, 0 <= n < 2^64 -> len buf < lenVarInt n ->
  writeVarInt n buf = Ok (0, buf).
Proof. intros n buf Hn HB. rewrite lenVarInt_spec in * by auto. apply writeVarInt_small; auto. Qed.

Lemma hex_roundtrip : forall bs out arr, bytes_ok bs -> 2 * len bs <= len out -> len bs <= len arr ->
  exists text, toHex bs out = (2 * len bs, text ++ zeros (Z.to_nat (len out - 2 * len bs))) /\
    text = hex_string bs /\
    fromHex text arr = Ok (len bs, bs ++ zeros (length arr - length bs)).
Proof.
  intros. exists (hex_string bs). rewrite toHex_spec, fromHex_spec by auto. auto.
Qed.
Lemma bin_roundtrip : forall bs out arr, bytes_ok bs -> len bs <= 256 -> 8 * len bs <= len out -> len bs <= len arr ->
  exists text, toBin bs out = (8 * len bs, text ++ zeros (Z.to_nat (len out - 8 * len bs))) /\
    text = bin_string bs /\
    fromBin text arr = Ok (len bs, bs ++ zeros (length arr - length bs)).
Proof.
  intros. exists (bin_string bs). rewrite toBin_spec, fromBin_spec by auto. auto.
Qed.
Lemma bin_roundtrip_bad : exists bs out arr text,
  bytes_ok bs /\ toBin bs out = (len text, text) /\ fromBin text arr = Ok (len bs, arr) /\ len arr = len bs /\ arr <> bs.
Proof.
  exists bin_witness, (zeros 2056), (zeros 256 ++ [1]), (bin_string bin_witness).
  split; [unfold bin_witness; constructor; [unfold byte_ok; lia|apply bytes_ok_zeros]|].
  split; [vm_compute; reflexivity|]. split; [vm_compute; reflexivity|].
  split; [vm_compute; reflexivity|]. discriminate.
Qed.

Lemma base58_encode : forall bs out, bytes_ok bs -> len bs < 2^50 -> toBaseLength p58 bs <= len out ->
  exists text, toBase58 bs out = (len text, text ++ zeros (length out - length text)) /\
    base_text 58 base58_alphabet bs text /\ len text <= toBaseLength p58 bs.
Proof.
  intros bs out H HL HO. exists (text58 bs). rewrite toBase58_spec by auto.
  repeat split; auto.
  - exact (enc_text_spec p58 p58_ok bs H HL).
  - apply (enc_text_len p58 p58_ok); auto.
Qed.
Lemma base58_roundtrip_exact : forall bs out arr text n, bytes_ok bs -> len bs < 2^20 ->
  Z.of_nat (zero_count bs) < 256 ->
  toBaseLength p58 bs <= len out -> len bs <= len arr ->
  toBase58 bs out = (n, text ++ zeros (length out - length text)) -> n = len text ->
  (fromBase58 text arr = (len bs, bs ++ zeros (length arr - length bs)) <-> len bs <= len text * 361 / 493 + 1).
Proof.
  intros bs out arr text n H HL HZ HO HA E EN.
  assert (text = text58 bs) as ->.
  { rewrite toBase58_spec in E by (auto; lia). injection E as E1 E2.
    assert (length text = length (text58 bs)) as L by (unfold len in *; lia).
    apply (f_equal (firstn (length text))) in E2. rewrite firstn_app_len in E2 by auto.
    rewrite firstn_app_len in E2 by auto. auto. }
  split; intros Q.
  - destruct (Z.le_gt_cases (len bs) (len (text58 bs) * 361 / 493 + 1)); auto.
    pose proof (base58_lossy bs arr H HL ltac:(lia)) as B. rewrite Q in B. cbn in B. lia.
  - apply base58_roundtrip_gen; auto.
Qed.
Definition roundtrips58 (bs : list Z) : Prop :=
  forall out arr, toBaseLength p58 bs <= len out -> len bs <= len arr ->
  exists text, toBase58 bs out = (len text, text ++ zeros (length out - length text)) /\
     fromBase58 text arr = (len bs, bs ++ zeros (length arr - length bs)).
Lemma roundtrips58_nozero : forall bs, bytes_ok bs -> len bs < 2^20 -> hd 1 bs <> 0 -> roundtrips58 bs.
Proof.
  intros bs H HL HH out arr HO HA. exists (text58 bs). rewrite toBase58_spec by (auto; lia).
  split; auto. apply base58_roundtrip_nozero; auto.
Qed.
Lemma zero_count_le2 : forall a b c t, ~ (a = 0 /\ b = 0 /\ c = 0) -> (zero_count (a :: b :: c :: t) <= 2)%nat.
Proof.
  intros. unfold zero_count. cbn.
  destruct (Z.eqb_spec a 0); [|lia]. destruct (Z.eqb_spec b 0); [|lia]. destruct (Z.eqb_spec c 0); [|lia]. tauto.
Qed.
Lemma roundtrips58_25 : forall bs, bytes_ok bs -> len bs = 25 -> firstn 3 bs <> [0; 0; 0] -> roundtrips58 bs.
Proof.
  intros bs H HL HH out arr HO HA. exists (text58 bs). rewrite toBase58_spec by (auto; lia).
  split; auto. rewrite HL. apply base58_roundtrip_25; auto; [|lia].
  destruct bs as [|a [|b [|c t]]]; try (unfold len in HL; cbn in HL; lia).
  apply zero_count_le2. intros (-> & -> & ->). apply HH. reflexivity.
Qed.
Lemma base58_roundtrip_bad : ~ (forall bs, bytes_ok bs -> roundtrips58 bs).
Proof.
  intros A. destruct (A [0;0;0;0] ltac:(repeat constructor; unfold byte_ok; lia) (zeros 5) (zeros 4)
    ltac:(vm_compute; congruence) ltac:(vm_compute; congruence)) as (text & E1 & E2).
  change (toBase58 [0;0;0;0] (zeros 5)) with (4, [49;49;49;49;0]) in E1.
  injection E1 as L E1.
  assert (text = [49;49;49;49]) as ->.
  { assert (length text = 4%nat) as L4 by (unfold len in L; lia).
    apply (f_equal (firstn 4)) in E1. rewrite firstn_app_len in E1 by auto. symmetry. exact E1. }
  vm_compute in E2. discriminate.
Qed.
Lemma base43_encode : forall bs out, bytes_ok bs -> len bs < 2^50 -> toBaseLength p43 bs <= len out ->
  exists text, toBase43 bs out = (len text, text ++ zeros (length out - length text)) /\
    base_text 43 base43_alphabet bs text.
Proof.
  intros bs out H HL HO. exists (text43 bs). split; [exact (toBase_spec p43 p43_ok bs out H HL HO)|].
  exact (enc_text_spec p43 p43_ok bs H HL).
Qed.
Lemma base43_roundtrip : forall bs out arr, bytes_ok bs -> len bs < 2^15 -> hd 1 bs <> 0 ->
  toBaseLength p43 bs <= len out -> len bs <= len arr ->
  exists text, toBase43 bs out = (len text, text ++ zeros (length out - length text)) /\
     fromBase43 text arr = (len bs, bs ++ zeros (length arr - length bs)).
Proof.
  intros bs out arr H HL HH HO HA. exists (text43 bs). split.
  - apply (toBase_spec p43 p43_ok); auto; lia.
  - apply base43_roundtrip_nozero; auto.
Qed.

Lemma base58check_roundtrip : forall dsha, (forall m, length (dsha m) = 32%nat) -> (forall m, bytes_ok (dsha m)) ->
  forall bs out arr, bytes_ok bs -> 0 < len bs < 2^19 ->
  (hd 0 bs <> 0 \/ (len bs = 21 /\ firstn 3 bs <> [0;0;0])) ->
  toBaseLength p58 (bs ++ firstn 4 (dsha bs)) <= len out -> len bs <= len arr ->
  exists text, toBase58Check dsha bs out = (len text, text ++ zeros (length out - length text)) /\
    base_text 58 base58_alphabet (bs ++ firstn 4 (dsha bs)) text /\
    fromBase58Check dsha text arr = (len bs, bs ++ skipn (length bs) arr).
Proof.
  intros dsha DL DO bs out arr H HL HC HO HA. exists (text58check dsha bs).
  split; [apply toBase58Check_spec; auto; lia|]. split.
  - apply (enc_text_spec p58 p58_ok); [apply (with_check_ok dsha DO); auto|].
    change (bs ++ firstn 4 (dsha bs)) with (with_check dsha bs). rewrite with_check_len by auto. lia.
  - destruct HC as [HC|[HC1 HC2]].
    + apply base58check_roundtrip_nozero; auto.
    + rewrite HC1. assert (length bs = 21%nat) as -> by (unfold len in HC1; lia).
      apply base58check_roundtrip_21; auto; [|lia].
      destruct bs as [|a [|b [|c t]]]; try (unfold len in HC1; cbn in HC1; lia).
      apply zero_count_le2. intros (-> & -> & ->). apply HC2. reflexivity.
Qed.

Lemma base64_roundtrip : forall fl bs out arr, bytes_ok bs -> bs <> [] ->
  toBase64Length (len bs) fl <= len out -> len bs <= len arr ->
  exists text, toBase64 fl bs out = Ok (len text, text ++ zeros (length out - length text)) /\
    text = base64_text (urlsafe fl) (negb (nopad fl)) bs /\
    len text = toBase64Length (len bs) fl /\
    fromBase64Length fl text = Ok (len bs) /\
    fromBase64 fl text arr = Ok (len bs, bs ++ zeros (length arr - length bs)).
Proof.
  intros fl bs out arr H HN HO HA. exists (base64_text (urlsafe fl) (negb (nopad fl)) bs).
  destruct (toBase64_spec fl bs out H HN HO) as [A B]. repeat split; auto.
  - apply fromBase64Length_text; auto.
  - apply fromBase64_spec; auto.
Qed.
Lemma base64_empty : forall fl out, toBase64 fl [] out = UB.
Proof.
  intros. unfold toBase64. change (toBase64Length (len []) fl) with 0.
  pose proof (len_nonneg _ out). destruct (Z.ltb_spec (len out) 0); [lia|reflexivity].
Qed.
Lemma base64_empty_dec : forall fl out, nopad fl = false -> fromBase64 fl [] out = UB.
Proof. intros fl out N. unfold fromBase64, fromBase64Length. rewrite N. reflexivity. Qed.
