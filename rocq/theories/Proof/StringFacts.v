(** String versions of the conversions (C88). *)
From Coq Require Import Lia.
From Verif Require Import Base.Bytes Base.BytesFacts Model.Conversion Model.Strings Spec.Codecs Spec.Text Spec.Address
  Proof.HexBin Proof.BaseN Proof.Base58 Proof.Base64 Proof.ConvProps Proof.TextFacts.
Open Scope Z_scope.

Lemma c_string_app : forall t k, no_nul t -> (0 < k)%nat -> c_string (t ++ zeros k) = Ok t.
Proof.
  induction t as [|c t IH]; intros k H K.
  - destruct k; [lia|]. reflexivity.
  - inversion H; subst. cbn [app c_string]. destruct (Z.eqb_spec c 0); [contradiction|]. rewrite IH by auto. reflexivity.
Qed.
Lemma c_string_of : forall (t : list Z) (n : nat), no_nul t -> (length t < n)%nat -> c_string (t ++ zeros (n - length t)) = Ok t.
Proof. intros. apply c_string_app; auto. lia. Qed.

Lemma bin_no_nul : forall bs, no_nul (bin_string bs).
Proof.
  intros bs. unfold bin_string, no_nul. apply Forall_flat_map. apply Forall_forall. intros b _.
  apply Forall_forall. intros c I. apply in_map_iff in I. destruct I as (k & <- & _).
  pose proof (Z.mod_pos_bound (b / 2^k) 2 ltac:(lia)). lia.
Qed.
Lemma nth_no_nul : forall (al : list Z) d, no_nul al -> 0 <= d < len al -> nth (Z.to_nat d) al 0 <> 0.
Proof. intros al d H D. apply (proj1 (Forall_forall _ _) H). apply nth_In. unfold len in D. lia. Qed.
Lemma base_text_no_nul : forall base al bs t, no_nul al -> 0 < base <= len al -> base_text base al bs t -> no_nul t.
Proof.
  intros base al bs t NA L (z & rest & ds & _ & _ & D & _ & _ & ->). apply Forall_app. split.
  - apply Forall_forall. intros c I. apply repeat_spec in I. subst. apply (nth_no_nul al 0); auto; lia.
  - apply Forall_forall. intros c I. apply in_map_iff in I. destruct I as (d & <- & I).
    apply nth_no_nul; auto. pose proof (proj1 (Forall_forall _ _) D d I). cbv beta in *. lia.
Qed.
Lemma alphabets_no_nul : no_nul base58_alphabet /\ no_nul base43_alphabet /\ forall u, no_nul (b64_alphabet u).
Proof.
  assert (E : forall l, forallb (fun c => negb (c =? 0)) l = true -> no_nul l).
  { intros l. rewrite forallb_forall. intros F. apply Forall_forall. intros c I. specialize (F c I).
    destruct (Z.eqb_spec c 0); [discriminate|auto]. }
  repeat split; try intros []; apply E; vm_compute; reflexivity.
Qed.
Lemma base64_no_nul : forall u p bs, bytes_ok bs -> no_nul (base64_text u p bs).
Proof.
  intros u p bs. destruct alphabets_no_nul as (_ & _ & NA). specialize (NA u).
  assert (LA : len (b64_alphabet u) = 64) by (destruct u; reflexivity).
  assert (CH : forall d, 0 <= d < 64 -> nth (Z.to_nat d) (b64_alphabet u) 0 <> 0) by (intros; apply nth_no_nul; auto; lia).
  assert (EQ : forall k, no_nul (repeat 61 k)) by (intros; apply Forall_forall; intros c I; apply repeat_spec in I; subst; lia).
  induction bs as [|a|a b|a b c t IH] using list3_ind; intros H.
  - constructor.
  - inversion H; subst. unfold byte_ok in *. cbn [base64_text]. repeat constructor; try (apply CH; dlia).
    destruct p; [exact (EQ 2%nat)|constructor].
  - inversion H; subst. inversion H3; subst. unfold byte_ok in *. cbn [base64_text]. repeat constructor; try (apply CH; dlia).
    destruct p; [exact (EQ 1%nat)|constructor].
  - inversion H; subst. inversion H3; subst. inversion H5; subst. unfold byte_ok in *. cbn [base64_text].
    apply Forall_app. split; [repeat constructor; try (apply CH; dlia)|]. apply IH. auto.
Qed.

Section S.
Variable heap : nat -> list Z.
Hypothesis heap_len : forall n, length (heap n) = n.
Lemma heap_z : forall z, 0 <= z < 2^64 -> len (heap (Z.to_nat (u64 z))) = z.
Proof. intros z H. unfold len. rewrite heap_len. unfold u64. rewrite Z.mod_small by lia. lia. Qed.

Lemma toHex_string_ok : forall bs, bytes_ok bs -> len bs < 2^50 -> toHex_string heap bs = Ok (hex_string bs).
Proof.
  intros bs H L. pose proof (len_nonneg _ bs). unfold toHex_string. rewrite toHex_spec; auto; rewrite heap_z by lia; [|lia]. cbn [snd].
  apply c_string_app; [apply hex_no_nul; auto|lia].
Qed.
Lemma toBin_string_ok : forall bs, bytes_ok bs -> len bs < 2^50 -> toBin_string heap bs = Ok (bin_string bs).
Proof.
  intros bs H L. pose proof (len_nonneg _ bs). unfold toBin_string. rewrite toBin_spec; auto; rewrite heap_z by lia; [|lia]. cbn [snd].
  apply c_string_app; [apply bin_no_nul|lia].
Qed.
Lemma toBase58_string_ok : forall bs, bytes_ok bs -> len bs < 2^40 ->
  exists text, toBase58_string heap bs = Ok text /\ base_text 58 base58_alphabet bs text.
Proof.
  intros bs H L. destruct (toBaseLength_bound p58 p58_ok bs L) as [B1 B2]. pose proof (heap_z (toBaseLength p58 bs + 1) ltac:(lia)) as HL.
  destruct (base58_encode bs (heap (Z.to_nat (u64 (toBaseLength p58 bs + 1)))) H ltac:(lia) ltac:(lia)) as (text & E & T & TL).
  exists text. split; auto. unfold toBase58_string. rewrite E. cbn [snd]. apply c_string_of.
  - eapply base_text_no_nul; [exact (proj1 alphabets_no_nul)| |exact T]. split; [lia|vm_compute; discriminate].
  - unfold len in *. lia.
Qed.
Lemma toBase43_string_ok : forall bs, bytes_ok bs -> len bs < 2^40 ->
  exists text, toBase43_string bs = Ok text /\ base_text 43 base43_alphabet bs text.
Proof.
  intros bs H L. destruct (toBaseLength_bound p43 p43_ok bs L) as [B1 B2].
  assert (ZL : len (zeros (Z.to_nat (toBaseLength p43 bs))) = toBaseLength p43 bs) by (unfold len, zeros; rewrite repeat_length; lia).
  destruct (base43_encode bs (zeros (Z.to_nat (toBaseLength p43 bs))) H ltac:(lia) ltac:(lia)) as (text & E & T).
  exists text. split; auto. unfold toBase43_string. rewrite E. cbn [snd]. rewrite <- app_assoc.
  replace (zeros (length (zeros (Z.to_nat (toBaseLength p43 bs))) - length text) ++ [0])
    with (zeros (S (length (zeros (Z.to_nat (toBaseLength p43 bs))) - length text))) by exact (repeat_cons _ 0).
  apply c_string_app; [|lia].
  eapply base_text_no_nul; [exact (proj1 (proj2 alphabets_no_nul))| |exact T]. split; [lia|vm_compute; discriminate].
Qed.
Lemma toBase64_string_ok : forall fl bs, bytes_ok bs -> bs <> [] -> len bs < 2^50 ->
  toBase64_string heap fl bs = Ok (base64_text (urlsafe fl) (negb (nopad fl)) bs).
Proof.
  intros fl bs H N L. unfold toBase64_string. pose proof (len_nonneg _ bs).
  assert (B : 0 <= toBase64Length (len bs) fl < 2^63).
  { unfold toBase64Length. destruct (len bs mod 3 =? 0); [dlia|]. destruct (nopad fl); dlia. }
  pose proof (heap_z (toBase64Length (len bs) fl + 1) ltac:(lia)) as HL.
  destruct (toBase64_spec fl bs (heap (Z.to_nat (u64 (toBase64Length (len bs) fl + 1)))) H N ltac:(lia)) as (E & TL).
  rewrite E. cbn [bind snd]. apply c_string_of; [apply base64_no_nul; auto|]. unfold len in *. lia.
Qed.
Lemma toBase64_string_empty : forall fl, toBase64_string heap fl [] = UB.
Proof.
  intros fl. unfold toBase64_string, toBase64. pose proof (heap_z (toBase64Length (len (@nil Z)) fl + 1) ltac:(vm_compute; split; [discriminate|reflexivity])) as HL.
  rewrite HL. reflexivity.
Qed.

Lemma count_while_app : forall (f : Z -> bool) l r, count_while f l <> length l -> count_while f (l ++ r) = count_while f l.
Proof.
  induction l as [|c l IH]; intros r H; [cbn in H; contradiction|]. cbn [app count_while length] in *. destruct (f c); auto. f_equal. apply IH. congruence.
Qed.
Lemma zero_count_all : forall l, zero_count l = length l <-> l = zeros (length l).
Proof.
  unfold zero_count. induction l as [|c l IH]; [cbn; tauto|]. cbn [count_while length zeros repeat]. destruct (Z.eqb_spec c 0) as [->|N].
  - fold (zeros (length l)). split; intros E.
    + injection E as E. f_equal. apply IH. exact E.
    + injection E as E. f_equal. apply IH. exact E.
  - split; intros E; [discriminate|]. injection E. intros _ Q. contradiction.
Qed.
Variable dsha : list Z -> list Z.
Hypothesis dsha_len : forall m, length (dsha m) = 32%nat.
Hypothesis dsha_ok : forall m, bytes_ok (dsha m).
Lemma same_length : forall bs r r', zero_count bs <> length bs -> length r = length r' ->
  toBaseLength p58 (bs ++ r) = toBaseLength p58 (bs ++ r').
Proof.
  intros bs r r' Z L. unfold toBaseLength, enc_size. unfold zero_count in *. rewrite !count_while_app by auto.
  replace (len (bs ++ r)) with (len (bs ++ r')); auto. unfold len. rewrite !app_length. lia.
Qed.
Lemma toBase58Check_string_ok : forall bs, bytes_ok bs -> bs <> zeros (length bs) -> len bs < 2^39 ->
  exists text, toBase58Check_string heap dsha bs = Ok text /\ base58check_text dsha bs text.
Proof.
  intros bs H N L. unfold toBase58Check_string.
  assert (Z : zero_count bs <> length bs) by (rewrite zero_count_all; auto).
  destruct (Nat.eqb_spec (zero_count bs) (length bs)); [contradiction|].
  assert (F4 : length (firstn 4 (dsha bs)) = 4%nat) by (rewrite firstn_length, dsha_len; reflexivity).
  rewrite (same_length bs (zeros 4) (firstn 4 (dsha bs)) Z) by (rewrite F4; reflexivity).
  assert (LC : len (bs ++ firstn 4 (dsha bs)) = len bs + 4) by (unfold len; rewrite app_length, F4; lia).
  assert (BC : bytes_ok (bs ++ firstn 4 (dsha bs))) by (apply Forall_app; split; [auto|apply bytes_ok_firstn; auto]).
  destruct (toBaseLength_bound p58 p58_ok (bs ++ firstn 4 (dsha bs)) ltac:(lia)) as [B1 B2].
  set (a := bs ++ firstn 4 (dsha bs)) in *.
  pose proof (heap_z (toBaseLength p58 a + 1) ltac:(lia)) as HL.
  destruct (base58_encode a (heap (Z.to_nat (u64 (toBaseLength p58 a + 1)))) BC ltac:(lia) ltac:(lia)) as (text & E & T & TL).
  exists text. split; [|exact T]. unfold toBase58Check. fold a. rewrite E. cbn [snd]. apply c_string_of.
  - eapply base_text_no_nul; [exact (proj1 alphabets_no_nul)| |exact T]. split; [lia|vm_compute; discriminate].
  - unfold len in *. lia.
Qed.
Lemma toBase58Check_string_zeros : forall n, toBase58Check_string heap dsha (zeros n) = UB.
Proof.
  intros n. unfold toBase58Check_string.
  assert (E : zero_count (zeros n) = length (zeros n)) by (apply zero_count_all; unfold zeros; now rewrite repeat_length).
  rewrite E, Nat.eqb_refl. reflexivity.
Qed.
End S.
