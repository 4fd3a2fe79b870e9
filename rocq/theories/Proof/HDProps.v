(** Extended keys: round trips, soundness, text, derivation. *)
From Coq Require Import Lia.
From Verif Require Import Base.Bytes Base.BytesFacts Model.Conversion Model.Stream Model.Networks Model.Keys Model.HD
  Spec.Codecs Spec.StreamOps Spec.Wire Spec.Objects Spec.Keys Spec.HD
  Proof.BaseN Proof.Base58 Proof.StreamFacts Proof.Chunks Proof.SigFacts Proof.IoProps Proof.BaseDec Proof.KeyFacts Proof.HDFacts Proof.PathFacts.
From Verif Require Import Model.Sign.
Open Scope Z_scope.

Lemma take : forall n (l : list Z), (n <= length l)%nat -> exists a b, l = a ++ b /\ length a = n.
Proof. intros n l H. exists (firstn n l), (skipn n l). split; [symmetry; apply firstn_skipn|apply firstn_length_le, H]. Qed.
Lemma be4 : forall x, length (be_bytes 4 x) = 4%nat /\ bytes_ok (be_bytes 4 x) /\ (0 <= x < 2^32 -> be_val 256 (be_bytes 4 x) = x).
Proof. intros x. destruct (be_bytes_spec 4 x) as (A & B & C). split; auto. Qed.
Lemma beq_spec : forall a b, beq a b = true <-> a = b.
Proof. intros a b. unfold beq. destruct (list_eq_dec Z.eq_dec a b); split; congruence. Qed.
Lemma num_zero : forall num, length num = 32%nat -> bytes_ok num -> beq num (zeros 32) = (be_val 256 num =? 0).
Proof.
  intros num L B. destruct (beq num (zeros 32)) eqn:E.
  - apply beq_spec in E. subst. rewrite be_val_zeros0. reflexivity.
  - destruct (Z.eqb_spec (be_val 256 num) 0) as [V|]; [|reflexivity]. exfalso.
    assert (num = zeros 32); [|apply beq_spec in H; congruence].
    apply (be_val_inj 256); [lia|apply bytes_digits; auto|apply bytes_digits, bytes_ok_zeros|exact L|rewrite be_val_zeros0; exact V].
Qed.

(** * Private keys *)
Lemma hk_hex_spec : forall test t v k, slip132_prv test t = Some v -> hk_net k = net_of test -> hk_type k = t ->
  hk_hex k = bip32_bytes v (hk_depth k) (hk_fp k) (hk_child k) (hk_chain k) (0 :: hk_num k).
Proof.
  intros test t v k H N T. unfold hk_hex, bip32_bytes. rewrite N, T. destruct (prv_prefix test t v H) as [-> _].
  rewrite be32_spec. reflexivity.
Qed.
Lemma hk_reads : forall test t v dp fp cn ch num k0 rest, slip132_prv test t = Some v -> hk_sized k0 -> hk_status k0 = DONE ->
  length fp = 4%nat -> length ch = 32%nat -> length num = 32%nat -> bytes_ok num -> 0 <= cn < 2^32 ->
  hk_parse k0 (bip32_bytes v dp fp cn ch (0 :: num) ++ rest) =
  (mkHk (be_bytes 32 (be_val 256 num mod group_order)) ch dp fp cn (net_of test) t (be_bytes 4 v)
     (if be_val 256 num =? 0 then FAILED else DONE) 78, 78, rest).
Proof.
  intros test t v dp fp cn ch num k0 rest H S D L1 L2 L3 B C. unfold bip32_bytes.
  destruct (be4 v) as (V1 & V2 & _). destruct (be4 cn) as (C1 & C2 & C3).
  replace ((be_bytes 4 v ++ [dp] ++ fp ++ be_bytes 4 cn ++ ch ++ 0 :: num) ++ rest) with
    (be_bytes 4 v ++ [dp] ++ fp ++ be_bytes 4 cn ++ ch ++ [0] ++ num ++ rest) by (rewrite <- !app_assoc; reflexivity).
  rewrite hk_parse_all by auto. destruct (prv_prefix test t v H) as [_ ->]. change (0 =? 0) with true. cbv iota.
  rewrite reduce_num_spec by auto. rewrite num_zero by auto. rewrite C3 by auto. reflexivity.
Qed.
Lemma hk_roundtrip : forall test t v k k0 rest, slip132_prv test t = Some v -> hk_net k = net_of test -> hk_type k = t ->
  hk_sized k -> hk_valued k -> 0 < be_val 256 (hk_num k) < group_order -> hk_sized k0 -> hk_status k0 = DONE ->
  hk_hex k = bip32_bytes v (hk_depth k) (hk_fp k) (hk_child k) (hk_chain k) (0 :: hk_num k) /\
  hk_parse k0 (hk_hex k ++ rest) =
  (mkHk (hk_num k) (hk_chain k) (hk_depth k) (hk_fp k) (hk_child k) (hk_net k) (hk_type k) (be_bytes 4 v) DONE 78, 78, rest).
Proof.
  intros test t v k k0 rest H N T (S1 & S2 & S3 & S4) (V1 & V2 & V3 & V4 & V5) R S0 D0.
  pose proof (hk_hex_spec test t v k H N T) as E. split; [exact E|]. rewrite E.
  rewrite (hk_reads test t v) by auto. rewrite Z.mod_small by lia.
  destruct (Z.eqb_spec (be_val 256 (hk_num k)) 0); [lia|].
  rewrite <- S1 at 1. rewrite be_bytes_of_val by auto. rewrite N, T. reflexivity.
Qed.
Lemma hk_sound : forall k0 st k n rest, hk_sized k0 -> hk_status k0 = DONE -> bytes_ok st -> hk_parse k0 st = (k, n, rest) ->
  hk_status k = DONE ->
  exists test v num, slip132_prv test (hk_type k) = Some v /\ hk_net k = net_of test /\ n = 78 /\
    st = bip32_bytes v (hk_depth k) (hk_fp k) (hk_child k) (hk_chain k) (0 :: num) ++ rest /\
    hk_sized k /\ hk_valued k /\ length num = 32%nat /\ 0 < be_val 256 num /\
    be_val 256 (hk_num k) = be_val 256 num mod group_order.
Proof.
  intros k0 st k n rest S0 D0 B H D.
  assert (L : 78 <= len st).
  { apply (gparse_done _ hk_store hk_status hk_parsed hk_setp hk_start (fun k p => Ok (hk_finish k p))
      hk_h1 (fun _ _ => eq_refl) (fun _ _ => eq_refl) (fun _ _ => eq_refl) hk_h9 k0 st k n rest); auto.
    rewrite <- hk_go_g. unfold hk_go. rewrite H. reflexivity. }
  unfold len in L.
  destruct (take 4 st ltac:(lia)) as (px & r1 & -> & L1). rewrite app_length in L.
  destruct (take 1 r1 ltac:(lia)) as (dp' & r2 & -> & L2). rewrite app_length in L. destruct dp' as [|dp [|]]; try discriminate.
  destruct (take 4 r2 ltac:(cbn in L; lia)) as (fp & r3 & -> & L3). rewrite app_length in L. cbn [length] in L.
  destruct (take 4 r3 ltac:(lia)) as (cn & r4 & -> & L4). rewrite app_length in L.
  destruct (take 32 r4 ltac:(lia)) as (ch & r5 & -> & L5). rewrite app_length in L.
  destruct (take 1 r5 ltac:(lia)) as (z' & r6 & -> & L6). rewrite app_length in L. destruct z' as [|z [|]]; try discriminate.
  destruct (take 32 r6 ltac:(cbn in L; lia)) as (num & r7 & -> & L7).
  rewrite !bytes_ok_app in B. destruct B as (B1 & B2 & B3 & B4 & B5 & B6 & B7 & B8).
  rewrite hk_parse_all in H by auto.
  destruct (find_net prv_type_in px networks) as [[net ty]|] eqn:E; [|injection H as <- _ _; discriminate].
  destruct (Z.eqb_spec z 0) as [->|]; [|injection H as <- _ _; discriminate].
  injection H as <- <- <-. cbn [hk_status] in D. rewrite num_zero in D by auto.
  destruct (Z.eqb_spec (be_val 256 num) 0) as [|NZ]; [discriminate|].
  destruct (prv_prefix_only px net ty E) as (test & v & -> & SL & ->).
  pose proof (be_val_bound 256 num ltac:(lia) (proj1 (bytes_digits num) B7)) as R.
  pose proof (be_val_bound 256 cn ltac:(lia) (proj1 (bytes_digits cn) B4)) as RC. unfold len in RC. rewrite L4 in RC. change (256 ^ Z.of_nat 4) with (2^32) in RC.
  rewrite reduce_num_spec by auto.
  destruct (be_bytes_spec 32 (be_val 256 num mod group_order)) as (W1 & W2 & W3).
  exists test, v, num. cbn [hk_type hk_net hk_depth hk_fp hk_child hk_chain hk_num].
  split; [exact SL|]. split; [reflexivity|]. split; [reflexivity|]. split.
  { unfold bip32_bytes. rewrite <- L4, be_bytes_of_val by auto. rewrite <- !app_assoc. rewrite L4. reflexivity. }
  split; [repeat split; auto; apply be_bytes_spec|].
  split; [split; [exact W2|split; [exact B5|split; [exact B3|split; [apply (Forall_inv B2)|exact RC]]]]|].
  split; [auto|]. split; [lia|].
  apply W3. pose proof (Z.mod_pos_bound (be_val 256 num) group_order ltac:(reflexivity)).
  assert (group_order < 256 ^ Z.of_nat 32) by reflexivity. lia.
Qed.
Lemma hk_slices : forall k, hk_sized k -> In (hk_net k) networks -> gives_slices (hk_to_stream k) (hk_hex k).
Proof.
  intros k (S1 & S2 & S3 & S4) N. apply serializes_slices.
  apply (writes_serializes _ (write_loop 78 0 78 (hk_hex k))); [|reflexivity].
  assert (L : len (hk_hex k) = 78).
  { unfold hk_hex. rewrite be32_spec, !len_app. unfold len. destruct (be4 (hk_child k)) as [C _]. rewrite S1, S2, S3, C.
    assert (P : length (prv_version (hk_net k) (hk_type k)) = 4%nat); [|rewrite P; reflexivity].
    destruct N as [<-|[<-|[<-|[<-|[]]]]]; destruct (hk_type k); reflexivity. }
  apply writes_loop_all; [lia|unfold len in L; lia].
Qed.
(** The secret n becomes 0. *)
Lemma hk_order_refuted : forall test t v dp fp cn ch k0 rest, slip132_prv test t = Some v -> hk_sized k0 -> hk_status k0 = DONE ->
  length fp = 4%nat -> length ch = 32%nat -> 0 <= cn < 2^32 ->
  hk_parse k0 (bip32_bytes v dp fp cn ch (0 :: be_bytes 32 group_order) ++ rest) =
  (mkHk (zeros 32) ch dp fp cn (net_of test) t (be_bytes 4 v) DONE 78, 78, rest).
Proof.
  intros test t v dp fp cn ch k0 rest H S D L1 L2 C. rewrite (hk_reads test t v) by (auto; vm_compute; auto; repeat constructor; discriminate).
  assert (E : be_val 256 (be_bytes 32 group_order) = group_order) by (vm_compute; reflexivity).
  rewrite E, Z.mod_same by discriminate. reflexivity.
Qed.
(** Types without a prefix of their own. *)
Lemma hk_type_lost : forall test k k0 rest, hk_net k = net_of test -> hk_sized k -> hk_valued k ->
  0 < be_val 256 (hk_num k) < group_order -> slip132_prv test (hk_type k) = None -> hk_sized k0 -> hk_status k0 = DONE ->
  exists k', hk_parse k0 (hk_hex k ++ rest) = (k', 78, rest) /\ hk_status k' = DONE /\ hk_type k' = UNKNOWN_TYPE /\ hk_type k <> UNKNOWN_TYPE.
Proof.
  intros test k k0 rest N S V R T S0 D0.
  set (k1 := mkHk (hk_num k) (hk_chain k) (hk_depth k) (hk_fp k) (hk_child k) (hk_net k) UNKNOWN_TYPE (hk_prefix k) DONE 0).
  assert (E : hk_hex k = hk_hex k1) by (unfold hk_hex, k1; cbn; destruct (hk_type k); try discriminate; reflexivity).
  rewrite E. destruct (slip132_prv test UNKNOWN_TYPE) as [v|] eqn:SL; [|discriminate].
  destruct (hk_roundtrip test UNKNOWN_TYPE v k1 k0 rest SL N eq_refl S V R S0 D0) as [_ P].
  eexists. split; [exact P|]. cbn. split; [reflexivity|]. split; [reflexivity|]. destruct (hk_type k); discriminate.
Qed.
Lemma hk_regtest_lost : forall k k0 rest, hk_net k = Regtest -> hk_sized k -> hk_valued k ->
  0 < be_val 256 (hk_num k) < group_order -> hk_sized k0 -> hk_status k0 = DONE ->
  exists k', hk_parse k0 (hk_hex k ++ rest) = (k', 78, rest) /\ hk_status k' = DONE /\ hk_net k' = Testnet /\ n_bech32 Testnet <> n_bech32 Regtest.
Proof.
  intros k k0 rest N S V R S0 D0.
  set (t := match hk_type k with P2WPKH => P2WPKH | P2SH_P2WPKH => P2SH_P2WPKH | P2WSH => P2WSH | P2SH_P2WSH => P2SH_P2WSH | _ => UNKNOWN_TYPE end).
  set (k1 := mkHk (hk_num k) (hk_chain k) (hk_depth k) (hk_fp k) (hk_child k) Testnet t (hk_prefix k) DONE 0).
  assert (E : hk_hex k = hk_hex k1) by (unfold hk_hex, k1, t; rewrite N; cbn [hk_net hk_type hk_num hk_chain hk_depth hk_fp hk_child]; destruct (hk_type k); reflexivity).
  rewrite E. destruct (slip132_prv true t) as [v|] eqn:SL; [|unfold t in SL; destruct (hk_type k); discriminate].
  destruct (hk_roundtrip true t v k1 k0 rest SL eq_refl eq_refl S V R S0 D0) as [_ P].
  eexists. split; [exact P|]. cbn. repeat split; auto. discriminate.
Qed.

(** * Text *)
Section Text.
Variable dsha : list Z -> list Z.
Hypothesis dsha_len : forall m, length (dsha m) = 32%nat.
Hypothesis dsha_ok : forall m, bytes_ok (dsha m).
Lemma text_unique : forall payload text, bytes_ok payload -> len payload < 2^19 -> base58check_text dsha payload text -> text = text58check dsha payload.
Proof.
  intros payload text B L T. apply (base_text_unique 58 base58_alphabet (payload ++ firstn 4 (dsha payload))); [lia|exact T|].
  apply (enc_text_spec p58 p58_ok); [apply (with_check_ok dsha dsha_ok); auto|].
  change (payload ++ firstn 4 (dsha payload)) with (with_check dsha payload). rewrite (with_check_len dsha dsha_len). lia.
Qed.
Lemma text_exists : forall payload, bytes_ok payload -> len payload < 2^19 -> base58check_text dsha payload (text58check dsha payload).
Proof.
  intros payload B L. apply (enc_text_spec p58 p58_ok); [apply (with_check_ok dsha dsha_ok); auto|].
  change (payload ++ firstn 4 (dsha payload)) with (with_check dsha payload). rewrite (with_check_len dsha dsha_len). lia.
Qed.
Lemma text_writes : forall payload out, bytes_ok payload -> len payload = 78 -> hd 0 payload <> 0 -> 112 <= len out ->
  exists text, toBase58Check dsha payload out = (len text, text ++ zeros (length out - length text)) /\ base58check_text dsha payload text.
Proof.
  intros payload out B L N LO. exists (text58check dsha payload). split; [|apply text_exists; auto; lia].
  apply (toBase58Check_spec dsha dsha_len dsha_ok); auto; [lia|].
  unfold toBaseLength, enc_size. rewrite (with_check_len dsha dsha_len), L.
  replace (zero_count (with_check dsha payload)) with O; [etransitivity; [|exact LO]; vm_compute; discriminate|].
  unfold with_check, zero_count. destruct payload as [|x p]; [contradiction|]. cbn [app count_while]. cbn [hd] in N.
  destruct (Z.eqb_spec x 0); [congruence|reflexivity].
Qed.
Lemma text_reads : forall payload text, base58check_text dsha payload text -> bytes_ok payload -> hd 0 payload <> 0 -> 0 < len payload <= 85 ->
  fromBase58Check dsha text (zeros 85) = (len payload, payload ++ zeros (85 - length payload)).
Proof.
  intros payload text T B N L. rewrite (text_unique payload text) by (auto; lia).
  rewrite (base58check_roundtrip_nozero dsha dsha_len dsha_ok) by (auto; try lia; rewrite len_zeros; lia).
  f_equal. f_equal. unfold len in L. assert (H : (length payload <= 85)%nat) by lia. clear -H.
  replace (zeros 85) with (zeros (length payload) ++ zeros (85 - length payload)) by (unfold zeros; rewrite <- repeat_app; f_equal; lia).
  rewrite skipn_app_len; [reflexivity|]. unfold zeros. rewrite repeat_length. reflexivity.
Qed.
Lemma hk_hex_facts : forall k, hk_sized k -> hk_valued k -> In (hk_net k) networks -> bytes_ok (hk_hex k) /\ len (hk_hex k) = 78 /\ hd 0 (hk_hex k) <> 0.
Proof.
  intros k (S1 & S2 & S3 & S4) (V1 & V2 & V3 & V4 & V5) N.
  assert (P : length (prv_version (hk_net k) (hk_type k)) = 4%nat /\ bytes_ok (prv_version (hk_net k) (hk_type k)) /\ hd 0 (prv_version (hk_net k) (hk_type k)) <> 0).
  { destruct N as [<-|[<-|[<-|[<-|[]]]]]; destruct (hk_type k); (split; [reflexivity|]; split; [repeat constructor; cbn; lia|discriminate]). }
  destruct P as (P1 & P2 & P3). unfold hk_hex. rewrite be32_spec. destruct (be4 (hk_child k)) as (C1 & C2 & _).
  split; [|split].
  - rewrite !bytes_ok_app. assert (D : bytes_ok [hk_depth k]) by (constructor; [exact V4|constructor]).
    assert (D0 : bytes_ok [0]) by (constructor; [unfold byte_ok; lia|constructor]). tauto.
  - rewrite !len_app. unfold len. rewrite S1, S2, S3, P1, C1. reflexivity.
  - destruct (prv_version (hk_net k) (hk_type k)); [discriminate|exact P3].
Qed.
Lemma hk_new_sized : hk_sized hk_new. Proof. repeat split. Qed.
Lemma net_of_in : forall test, In (net_of test) networks. Proof. intros []; cbn; auto. Qed.
Lemma xprv_roundtrip : forall test t v k out, slip132_prv test t = Some v -> hk_net k = net_of test -> hk_type k = t ->
  hk_sized k -> hk_valued k -> 0 < be_val 256 (hk_num k) < group_order -> 112 <= len out ->
  exists text, xprv dsha k out = (len text, text ++ zeros (length out - length text)) /\
    base58check_text dsha (bip32_bytes v (hk_depth k) (hk_fp k) (hk_child k) (hk_chain k) (0 :: hk_num k)) text /\
    hk_from_str dsha text =
      (len text, mkHk (hk_num k) (hk_chain k) (hk_depth k) (hk_fp k) (hk_child k) (hk_net k) (hk_type k) (be_bytes 4 v) DONE 78).
Proof.
  intros test t v k out H N T S V R O.
  destruct (hk_hex_facts k S V ltac:(rewrite N; apply net_of_in)) as (F1 & F2 & F3).
  destruct (text_writes (hk_hex k) out F1 F2 F3 O) as (text & W & X).
  exists text. split; [exact W|]. rewrite <- (hk_hex_spec test t v k H N T). split; [exact X|].
  unfold hk_from_str. rewrite (text_reads (hk_hex k) text X F1 F3) by lia. rewrite F2. change (78 =? 0) with false. cbv iota.
  destruct (hk_roundtrip test t v k hk_new (zeros (85 - length (hk_hex k))) H N T S V R hk_new_sized eq_refl) as [_ ->]. reflexivity.
Qed.
(** The length of the payload is not looked at. *)
Lemma xprv_length_refuted : forall test t v k payload text, slip132_prv test t = Some v -> hk_net k = net_of test -> hk_type k = t ->
  hk_sized k -> hk_valued k -> 0 < be_val 256 (hk_num k) < group_order ->
  (exists extra, payload = hk_hex k ++ extra /\ bytes_ok extra /\ len extra <= 7) \/
  (exists j, payload ++ zeros j = hk_hex k /\ payload <> []) ->
  base58check_text dsha payload text ->
  hk_from_str dsha text =
    (len text, mkHk (hk_num k) (hk_chain k) (hk_depth k) (hk_fp k) (hk_child k) (hk_net k) (hk_type k) (be_bytes 4 v) DONE 78).
Proof.
  intros test t v k payload text H N T S V R P X.
  destruct (hk_hex_facts k S V ltac:(rewrite N; apply net_of_in)) as (F1 & F2 & F3).
  assert (Q : bytes_ok payload /\ hd 0 payload <> 0 /\ 0 < len payload <= 85 /\ exists r, payload ++ zeros (85 - length payload) = hk_hex k ++ r).
  { destruct P as [(extra & -> & BE & LE)|(j & E & NE)].
    - split; [apply bytes_ok_app; auto|]. split; [destruct (hk_hex k); [rewrite len_nil in F2; lia|exact F3]|].
      split; [rewrite len_app; pose proof (len_nonneg _ extra); lia|]. eexists. rewrite <- app_assoc. reflexivity.
    - assert (LP : (length payload + j = 78)%nat) by (unfold len in F2; rewrite <- E, app_length in F2; unfold zeros in F2; rewrite repeat_length in F2; lia).
      rewrite <- E in F1, F3. apply bytes_ok_app in F1 as [F1 _]. split; [exact F1|].
      destruct payload as [|x p]; [congruence|]. split; [exact F3|]. split; [rewrite len_cons; unfold len; cbn [length] in LP; lia|].
      exists (zeros 7). rewrite <- E, <- app_assoc. f_equal. unfold zeros. rewrite <- repeat_app. f_equal. lia. }
  destruct Q as (Q1 & Q2 & Q3 & r & Q4).
  unfold hk_from_str. rewrite (text_reads payload text X Q1 Q2 Q3).
  destruct (Z.eqb_spec (len payload) 0); [lia|]. rewrite Q4.
  destruct (hk_roundtrip test t v k hk_new r H N T S V R hk_new_sized eq_refl) as [_ ->]. reflexivity.
Qed.
End Text.
