(** Random bytes, mnemonics and scalars from random words; what the sources of words give. *)
From Coq Require Import Lia Permutation.
From Verif Require Import Base.Bytes Base.BytesFacts Spec.Codecs Spec.Bignum Spec.Schemes Spec.Random Model.Bignum Model.EC Model.Bip39 Model.Rand
  Proof.IntVarint Proof.BnRed Proof.BipBits Proof.BipProps Proof.RandFacts.
Open Scope Z_scope.

Lemma byte_shift : forall w m, 0 <= m -> Z.land (Z.shiftr w (m * 8)) 0xFF = w / 256 ^ m mod 256.
Proof.
  intros w m H. change 0xFF with (Z.ones 8). rewrite Z.land_ones by lia. rewrite Z.shiftr_div_pow2 by lia.
  rewrite Z.mul_comm, Z.pow_mul_r by lia. reflexivity.
Qed.
Lemma le_bytes_4 : forall w, le_bytes 4 w = [w / 256 ^ 0 mod 256; w / 256 ^ 1 mod 256; w / 256 ^ 2 mod 256; w / 256 ^ 3 mod 256].
Proof.
  intros w. cbn [le_bytes]. rewrite !Z.div_div by lia. change (256 ^ 0) with 1. rewrite Z.div_1_r.
  change (256 ^ 1) with 256. change (256 ^ 2) with (256 * 256). change (256 ^ 3) with (256 * 256 * 256). reflexivity.
Qed.
Lemma mod4 : forall i k, i mod 4 = 0 -> 0 <= k < 4 -> (i + k) mod 4 = k.
Proof. intros i k H K. rewrite Z.add_mod, H by lia. cbn [Z.add]. rewrite Z.mod_mod by lia. apply Z.mod_small; auto. Qed.
Lemma buffer_part : forall m i r w ws, i mod 4 = 0 -> (0 < m < 4)%nat -> buffer_loop m i r (w :: ws) = Some (firstn m (le_bytes 4 w), ws).
Proof.
  intros m i r w ws H M. rewrite le_bytes_4.
  destruct m as [|[|[|[|m]]]]; [lia| | | |lia]; cbn [buffer_loop];
    rewrite <- ?Z.add_assoc; cbn [Z.add Pos.add Pos.succ]; rewrite ?H, ?(mod4 i 1), ?(mod4 i 2) by (auto; lia);
    cbn [Z.eqb Pos.eqb]; rewrite ?byte_shift by lia; reflexivity.
Qed.
Lemma buffer_four : forall n i r w ws, i mod 4 = 0 -> buffer_loop (4 + n) i r (w :: ws) =
  match buffer_loop n (i + 4) w ws with None => None | Some (l, rest) => Some (le_bytes 4 w ++ l, rest) end.
Proof.
  intros n i r w ws H. rewrite le_bytes_4. cbn [Nat.add buffer_loop].
  rewrite <- !Z.add_assoc. cbn [Z.add Pos.add Pos.succ]. rewrite ?H, ?(mod4 i 1), ?(mod4 i 2), ?(mod4 i 3) by (auto; lia).
  cbn [Z.eqb Pos.eqb]. rewrite ?byte_shift by lia. destruct (buffer_loop n (i + 4) w ws) as [[l rest]|]; reflexivity.
Qed.
Lemma buffer_nil : forall n i r, i mod 4 = 0 -> (0 < n)%nat -> buffer_loop n i r [] = None.
Proof. intros n i r H N. destruct n; [lia|]. cbn [buffer_loop]. rewrite H. reflexivity. Qed.
Lemma buffer_words : forall ws n i r, i mod 4 = 0 -> buffer_loop n i r ws =
  if le_lt_dec n (4 * length ws) then Some (firstn n (flat_map (le_bytes 4) ws), skipn ((n + 3) / 4) ws) else None.
Proof.
  induction ws as [|w ws IH]; intros n i r H.
  - destruct (le_lt_dec n (4 * length (@nil Z))) as [L|L].
    + assert (n = 0)%nat as -> by (cbn in L; lia). reflexivity.
    + apply buffer_nil; [auto|lia].
  - destruct n as [|[|[|[|n]]]]; [reflexivity| | | |].
    1-3: rewrite buffer_part by (auto; lia); cbn [length];
      match goal with |- context [le_lt_dec ?a ?b] => destruct (le_lt_dec a b); [|lia] end; cbn [flat_map]; rewrite le_bytes_4; reflexivity.
    change (S (S (S (S n)))) with (4 + n)%nat. rewrite buffer_four by auto.
    rewrite IH by (rewrite Z.add_mod, H by lia; reflexivity). cbn [length].
    destruct (le_lt_dec n (4 * length ws)), (le_lt_dec (4 + n) (4 * S (length ws))); try lia; [|reflexivity].
    replace ((4 + n + 3) / 4)%nat with (S ((n + 3) / 4)).
    + cbn [flat_map skipn]. rewrite le_bytes_4. reflexivity.
    + replace (4 + n + 3)%nat with (n + 3 + 1 * 4)%nat by lia. rewrite Nat.div_add by lia. lia.
Qed.
Lemma buffer_spec : forall n ws, (n <= 4 * length ws)%nat ->
  random_buffer n ws = Some (firstn n (flat_map (le_bytes 4) ws), skipn ((n + 3) / 4) ws).
Proof. intros n ws H. unfold random_buffer. rewrite buffer_words by reflexivity. destruct (le_lt_dec n (4 * length ws)); [reflexivity|lia]. Qed.
Lemma buffer_none : forall n ws, (4 * length ws < n)%nat -> random_buffer n ws = None.
Proof. intros n ws H. unfold random_buffer. rewrite buffer_words by reflexivity. destruct (le_lt_dec n (4 * length ws)); [lia|reflexivity]. Qed.
Lemma flat_len : forall ws, length (flat_map (le_bytes 4) ws) = (4 * length ws)%nat.
Proof. induction ws; [reflexivity|]. cbn [flat_map]. rewrite app_length, IHws, le_bytes_length. cbn [length]. lia. Qed.
Lemma flat_ok : forall ws, bytes_ok (flat_map (le_bytes 4) ws).
Proof. induction ws; [constructor|]. cbn [flat_map]. apply Forall_app. split; [apply le_bytes_ok|exact IHws]. Qed.
Lemma le4_inj : forall a b, word32 a -> word32 b -> le_bytes 4 a = le_bytes 4 b -> a = b.
Proof.
  intros a b [A1 A2] [B1 B2] E. apply (f_equal (le_val 256)) in E. rewrite !le_val_le_bytes in E.
  change (256 ^ Z.of_nat 4) with (2 ^ 32) in E. rewrite !Z.mod_small in E by lia. exact E.
Qed.
Lemma flat_inj : forall a b, Forall word32 a -> Forall word32 b -> flat_map (le_bytes 4) a = flat_map (le_bytes 4) b -> a = b.
Proof.
  induction a as [|x a IH]; intros b A B E.
  - destruct b; [reflexivity|]. apply (f_equal (@length Z)) in E. rewrite !flat_len in E. cbn in E. lia.
  - destruct b as [|y b]; [apply (f_equal (@length Z)) in E; rewrite !flat_len in E; cbn in E; lia|].
    cbn [flat_map] in E. inversion A. inversion B. subst. apply app_inj_len in E; [|rewrite !le_bytes_length; reflexivity].
    destruct E as [E1 E2]. f_equal; [apply le4_inj; auto|apply IH; auto].
Qed.
Lemma le4_bound : forall l, bytes_ok l -> length l = 4%nat -> word32 (le_val 256 l).
Proof.
  intros l O L. destruct l as [|a [|b [|c [|d [|]]]]]; try discriminate. unfold bytes_ok, byte_ok in O.
  inversion O as [|? ? A O1]. inversion O1 as [|? ? B O2]. inversion O2 as [|? ? C O3]. inversion O3 as [|? ? D _]. subst.
  unfold word32. cbn [le_val]. lia.
Qed.
Lemma flat_onto : forall k bs, bytes_ok bs -> length bs = (4 * k)%nat -> exists ws, length ws = k /\ Forall word32 ws /\ flat_map (le_bytes 4) ws = bs.
Proof.
  induction k as [|k IH]; intros bs O L.
  - destruct bs; [|discriminate]. exists []. auto.
  - assert (L4 : length (firstn 4 bs) = 4%nat) by (rewrite firstn_length; lia).
    assert (O4 : bytes_ok (firstn 4 bs)) by (apply bytes_ok_firstn, O).
    destruct (IH (skipn 4 bs)) as (ws & A & B & C); [apply bytes_ok_skipn, O|rewrite skipn_length; lia|].
    exists (le_val 256 (firstn 4 bs) :: ws). split; [cbn; lia|]. split.
    + constructor; [|exact B]. apply le4_bound; auto.
    + cbn [flat_map]. rewrite C. rewrite <- L4 at 1. rewrite le_bytes_val by exact O4. apply firstn_skipn.
Qed.

Lemma buffer_bijection : forall k bs, bytes_ok bs -> length bs = (4 * k)%nat ->
  exists ws, length ws = k /\ Forall word32 ws /\
    forall vs rest, length vs = k -> Forall word32 vs -> (random_buffer (4 * k) (vs ++ rest) = Some (bs, rest) <-> vs = ws).
Proof.
  intros k bs O L. destruct (flat_onto k bs O L) as (ws & A & B & C). exists ws. split; [exact A|]. split; [exact B|].
  intros vs rest Lv V. rewrite buffer_spec by (rewrite app_length; lia).
  assert (S1 : skipn ((4 * k + 3) / 4) (vs ++ rest) = rest).
  { replace ((4 * k + 3) / 4)%nat with k.
    - rewrite skipn_app, skipn_all2 by lia. rewrite Lv, Nat.sub_diag. reflexivity.
    - replace (4 * k + 3)%nat with (3 + k * 4)%nat by lia. rewrite Nat.div_add by lia. reflexivity. }
  assert (F1 : firstn (4 * k) (flat_map (le_bytes 4) (vs ++ rest)) = flat_map (le_bytes 4) vs).
  { rewrite flat_map_app, firstn_app, flat_len, Lv, Nat.sub_diag. cbn [firstn]. rewrite app_nil_r. apply firstn_all2. rewrite flat_len. lia. }
  rewrite S1, F1. split.
  - intros E. apply flat_inj; auto. rewrite C. congruence.
  - intros ->. rewrite C. reflexivity.
Qed.

(** * Mnemonics *)
Lemma firstn_flat : forall ws q, firstn (4 * q) (flat_map (le_bytes 4) ws) = flat_map (le_bytes 4) (firstn q ws).
Proof.
  induction ws as [|w ws IH]; intros q; [rewrite !firstn_nil; reflexivity|]. destruct q; [reflexivity|].
  replace (4 * S q)%nat with (4 + 4 * q)%nat by lia. cbn [flat_map firstn]. rewrite firstn_app, le_bytes_length.
  rewrite firstn_all2 by (rewrite le_bytes_length; lia). f_equal. replace (4 + 4 * q - 4)%nat with (4 * q)%nat by lia. apply IH.
Qed.
Definition word_counts (n : Z) : Prop := n = 12 \/ n = 18 \/ n = 24.
Lemma generate_is : forall junk n ws, byte_ok junk -> n = 12 \/ n = 15 \/ n = 18 \/ n = 21 \/ n = 24 -> (8 <= length ws)%nat ->
  generateMnemonic_words junk n ws = Some (mnemonicFromEntropy junk (flat_map (le_bytes 4) (firstn (Z.to_nat (n / 3)) ws))).
Proof.
  intros junk n ws J N L. unfold generateMnemonic_words. rewrite buffer_spec by lia.
  assert (B32 : bytes_ok (firstn 32 (flat_map (le_bytes 4) ws))) by (apply bytes_ok_firstn, flat_ok).
  assert (L32 : length (firstn 32 (flat_map (le_bytes 4) ws)) = 32%nat) by (rewrite firstn_length, flat_len; lia).
  assert (E : firstn (Z.to_nat (4 * n / 3)) (firstn 32 (flat_map (le_bytes 4) ws)) = flat_map (le_bytes 4) (firstn (Z.to_nat (n / 3)) ws)).
  { rewrite firstn_firstn. rewrite <- firstn_flat. f_equal.
    destruct N as [-> |[-> |[-> |[-> | ->]]]]; reflexivity. }
  rewrite (gen_random _ _ junk n _ HashInst.constants256 J B32 L32 N). f_equal. rewrite E.
  symmetry. apply from_entropy; [apply HashInst.constants256|exact J|apply flat_ok|].
  rewrite flat_len, firstn_length. destruct N as [-> |[-> |[-> |[-> | ->]]]]; [change (Z.to_nat (12 / 3)) with 4%nat|change (Z.to_nat (15 / 3)) with 5%nat|
    change (Z.to_nat (18 / 3)) with 6%nat|change (Z.to_nat (21 / 3)) with 7%nat|change (Z.to_nat (24 / 3)) with 8%nat]; lia.
Qed.
Lemma from_entropy_inj : forall junk a b, byte_ok junk -> bytes_ok a -> bytes_ok b -> (length a = 16 \/ length a = 24 \/ length a = 32)%nat ->
  length b = length a -> mnemonicFromEntropy junk a = mnemonicFromEntropy junk b -> a = b.
Proof.
  intros junk a b J A B L LB E. destruct (round_trip junk a J A L) as (s & E1 & _ & R1 & _).
  destruct (round_trip junk b J B ltac:(rewrite LB; exact L)) as (t & E2 & _ & R2 & _).
  rewrite E1, E2 in E. inversion E. subst. specialize (R1 (len a) ltac:(lia)). specialize (R2 (len a) ltac:(unfold len; lia)).
  rewrite R1 in R2. inversion R2. reflexivity.
Qed.
Lemma generate_every : forall junk n e, byte_ok junk -> word_counts n -> bytes_ok e -> len e = 4 * (n / 3) ->
  exists us, length us = Z.to_nat (n / 3) /\ Forall word32 us /\
    forall ws, length ws = 8%nat -> Forall word32 ws ->
      (generateMnemonic_words junk n ws = Some (mnemonicFromEntropy junk e) <-> firstn (Z.to_nat (n / 3)) ws = us).
Proof.
  intros junk n e J N O L.
  assert (K : exists k, Z.to_nat (n / 3) = k /\ (k = 4 \/ k = 6 \/ k = 8)%nat /\ length e = (4 * k)%nat).
  { unfold len in L. destruct N as [-> |[-> | ->]]; [exists 4%nat|exists 6%nat|exists 8%nat]; (split; [reflexivity|]; split; [lia|]).
    - change (4 * (12 / 3)) with 16 in L. lia.
    - change (4 * (18 / 3)) with 24 in L. lia.
    - change (4 * (24 / 3)) with 32 in L. lia. }
  destruct K as (k & K & KK & LE). destruct (flat_onto k e O LE) as (us & A & B & C). exists us. rewrite K. split; [exact A|]. split; [exact B|].
  intros ws LW W. rewrite generate_is; [|exact J|unfold word_counts in N; tauto|lia]. rewrite K.
  assert (FW : Forall word32 (firstn k ws)) by (apply Forall_forall; intros x X; rewrite Forall_forall in W; apply W; rewrite <- (firstn_skipn k ws); apply in_or_app; left; exact X).
  split.
  - intros E. assert (E' : mnemonicFromEntropy junk (flat_map (le_bytes 4) (firstn k ws)) = mnemonicFromEntropy junk e) by congruence.
    apply from_entropy_inj in E'; [|exact J|apply flat_ok|exact O| |].
    + apply flat_inj; auto. congruence.
    + rewrite flat_len, firstn_length. lia.
    + rewrite flat_len, firstn_length. lia.
  - intros ->. rewrite C. reflexivity.
Qed.

(** * Scalars *)
Lemma mask : forall x k, 0 <= k -> Z.land x (2 ^ k - 1) = x mod 2 ^ k.
Proof. intros x k H. rewrite <- Z.land_ones by auto. rewrite Z.ones_equiv. reflexivity. Qed.
Definition masked (w : list Z) : list Z := map (fun v => v mod 2 ^ 30) (firstn 8 w) ++ [nth 8 w 0 mod 2 ^ 16].
Lemma masked_norm : forall w, length w = 9%nat -> normalized (masked w).
Proof.
  intros w L. split.
  - unfold masked. rewrite app_length, map_length, firstn_length. cbn [length]. lia.
  - apply Forall_app. split; [|constructor; [|constructor]].
    + apply Forall_forall. intros x X. apply in_map_iff in X. destruct X as (y & <- & _). apply Z.mod_pos_bound. lia.
    + pose proof (Z.mod_pos_bound (nth 8 w 0) (2 ^ 16) ltac:(lia)). lia.
Qed.
Lemma scalar_round : forall m w t, normalized m -> length w = 9%nat ->
  generate_k_random (w :: t) m = if (0 <? bn_val (masked w)) && (bn_val (masked w) <? bn_val m) then Some (masked w) else generate_k_random t m.
Proof.
  intros m w t M L. cbn [generate_k_random]. cbv zeta.
  assert (E : map (fun x => Z.land x 1073741823) (firstn 8 w) ++ [Z.land (nth 8 w 0) 65535] = masked w).
  { unfold masked. f_equal; [|f_equal; apply (mask _ 16); lia]. apply map_ext. intros x. apply (mask _ 30). lia. }
  rewrite E. pose proof (masked_norm w L) as N. rewrite bn_is_zero_spec, bn_is_less_spec by auto.
  assert (P : 0 <= bn_val (masked w)).
  { unfold bn_val. destruct N as [_ N]. clear - N. induction N; [reflexivity|]. cbn [le_val]. lia. }
  destruct (Z.eqb_spec (bn_val (masked w)) 0) as [Z0|Z0], (Z.ltb_spec 0 (bn_val (masked w))); try lia; cbn [orb andb]; [reflexivity|].
  destruct (bn_val (masked w) <? bn_val m); reflexivity.
Qed.
Lemma scalar_range : forall m rounds k, normalized m -> Forall (fun w => length w = 9%nat) rounds ->
  generate_k_random rounds m = Some k -> random_below (bn_val m) k.
Proof.
  intros m rounds k M F. induction F as [|w t L F IH]; [discriminate|]. rewrite scalar_round by auto.
  destruct ((0 <? bn_val (masked w)) && (bn_val (masked w) <? bn_val m)) eqn:E; [|exact IH].
  intros X. inversion X. split; [apply masked_norm, L|]. apply andb_prop in E. destruct E as [E1 E2].
  apply Z.ltb_lt in E1. apply Z.ltb_lt in E2. lia.
Qed.
Lemma scalar_exact : forall m w k, normalized m -> length w = 9%nat -> random_below (bn_val m) k ->
  (generate_k_random [w] m = Some k <-> map (fun v => v mod 2 ^ 30) (firstn 8 w) ++ [nth 8 w 0 mod 2 ^ 16] = k).
Proof.
  intros m w k M L [N V]. rewrite scalar_round by auto. fold (masked w). split.
  - destruct ((0 <? bn_val (masked w)) && (bn_val (masked w) <? bn_val m)); [intros X; inversion X; reflexivity|discriminate].
  - intros E. rewrite E. rewrite (proj2 (Z.ltb_lt 0 _)) by lia. rewrite (proj2 (Z.ltb_lt (bn_val k) _)) by lia. reflexivity.
Qed.
Lemma scalar_next : forall m w t, normalized m -> length w = 9%nat ->
  let x := bn_val (map (fun v => v mod 2 ^ 30) (firstn 8 w) ++ [nth 8 w 0 mod 2 ^ 16]) in
  x = 0 \/ bn_val m <= x -> generate_k_random (w :: t) m = generate_k_random t m.
Proof.
  intros m w t M L x X. subst x. fold (masked w) in X. rewrite scalar_round by auto.
  destruct X as [X|X]; [rewrite X; reflexivity|]. rewrite (proj2 (Z.ltb_ge (bn_val (masked w)) _)) by auto. rewrite andb_false_r. reflexivity.
Qed.

(** * Sources *)
Lemma pc_high_bytes : forall RAND_MAX rs i, Forall (fun r => 0 <= r <= RAND_MAX) rs -> RAND_MAX < 2 ^ 31 -> (i < length rs)%nat ->
  nth (4 * i + 3) (flat_map (le_bytes 4) (map random32_pc rs)) 0 < 128.
Proof.
  intros RM rs i F M. revert i. induction F as [|r rs R F IH]; intros i L; [cbn in L; lia|]. cbn [map flat_map].
  destruct i.
  - rewrite app_nth1 by (rewrite le_bytes_length; lia). rewrite le_bytes_4. cbn [nth Nat.mul Nat.add].
    unfold random32_pc, u32. rewrite (Z.mod_small r) by lia. change (256 ^ 3) with (2 ^ 24).
    assert (r / 2 ^ 24 < 128) by (apply Z.div_lt_upper_bound; lia). assert (0 <= r / 2 ^ 24) by (apply Z.div_pos; lia).
    rewrite Z.mod_small by lia. auto.
  - rewrite app_nth2 by (rewrite le_bytes_length; lia). rewrite le_bytes_length. replace (4 * S i + 3 - 4)%nat with (4 * i + 3)%nat by lia.
    apply IH. cbn in L. lia.
Qed.
Lemma pc_words : forall RAND_MAX rs, Forall (fun r => 0 <= r <= RAND_MAX) rs -> RAND_MAX < 2 ^ 31 -> Forall word32 (map random32_pc rs).
Proof.
  intros RM rs F M. apply Forall_forall. intros x X. apply in_map_iff in X. destruct X as (r & <- & _). unfold word32, random32_pc, u32. apply Z.mod_pos_bound. lia.
Qed.
Lemma pc_never : forall junk n e i RAND_MAX rs, byte_ok junk -> word_counts n -> bytes_ok e -> len e = 4 * (n / 3) ->
  0 <= i < n / 3 -> 128 <= nth (Z.to_nat (4 * i + 3)) e 0 ->
  RAND_MAX < 2 ^ 31 -> length rs = 8%nat -> Forall (fun r => 0 <= r <= RAND_MAX) rs ->
  generateMnemonic_words junk n (map random32_pc rs) <> Some (mnemonicFromEntropy junk e).
Proof.
  intros junk n e i RM rs J N O L I H M LR F E.
  assert (B : n / 3 = 4 \/ n / 3 = 6 \/ n / 3 = 8) by (destruct N as [-> |[-> | ->]]; [left|right; left|right; right]; reflexivity).
  rewrite generate_is in E; [|exact J|unfold word_counts in N; tauto|rewrite map_length; lia].
  assert (E' : mnemonicFromEntropy junk (flat_map (le_bytes 4) (firstn (Z.to_nat (n / 3)) (map random32_pc rs))) = mnemonicFromEntropy junk e) by congruence.
  unfold len in L. apply from_entropy_inj in E'; [|exact J|apply flat_ok|exact O| |];
    try (rewrite flat_len, firstn_length, map_length; lia).
  rewrite <- E' in H. rewrite firstn_map in H. replace (Z.to_nat (4 * i + 3)) with (4 * Z.to_nat i + 3)%nat in H by lia.
  pose proof (pc_high_bytes RM (firstn (Z.to_nat (n / 3)) rs) (Z.to_nat i)) as P. rewrite firstn_length in P.
  assert (FF : Forall (fun r => 0 <= r <= RM) (firstn (Z.to_nat (n / 3)) rs)).
  { apply Forall_forall. intros x X. rewrite Forall_forall in F. apply F. rewrite <- (firstn_skipn (Z.to_nat (n / 3)) rs). apply in_or_app. left. exact X. }
  specialize (P FF M ltac:(lia)). lia.
Qed.
Lemma esp_bits : forall v0 v1 v2 v3 k, word32 v0 -> word32 v1 -> word32 v2 -> word32 v3 -> 0 <= k < 32 ->
  Z.testbit (random32_esp8266 v0 v1 v2 v3) k =
  Z.testbit v3 k || (8 <=? k) && Z.testbit v2 (k - 8) || (16 <=? k) && Z.testbit v1 (k - 16) || (24 <=? k) && Z.testbit v0 (k - 24).
Proof.
  intros v0 v1 v2 v3 k _ _ _ _ K. unfold random32_esp8266. cbn [fold_left].
  assert (T : forall x j, 0 <= j < 32 -> Z.testbit (u32 (Z.shiftl x 8)) j = (8 <=? j) && Z.testbit x (j - 8)).
  { intros x j J. unfold u32. rewrite Z.mod_pow2_bits_low by lia. rewrite Z.shiftl_spec by lia.
    destruct (Z.leb_spec 8 j); [reflexivity|]. apply Z.testbit_neg_r. lia. }
  rewrite Z.lor_spec, T by lia. rewrite orb_comm. rewrite <- !orb_assoc. f_equal.
  destruct (Z.leb_spec 8 k) as [A|A].
  2:{ destruct (Z.leb_spec 16 k), (Z.leb_spec 24 k); first [lia|reflexivity]. }
  cbn [andb]. rewrite Z.lor_spec, T by lia. rewrite orb_comm. f_equal. replace (k - 8 - 8) with (k - 16) by lia.
  destruct (Z.leb_spec 16 k) as [B|B]; destruct (Z.leb_spec 8 (k - 8)); [|lia|lia|].
  2:{ destruct (Z.leb_spec 24 k); first [lia|reflexivity]. }
  cbn [andb]. rewrite Z.lor_spec, T by lia. rewrite orb_comm. f_equal. replace (k - 16 - 8) with (k - 24) by lia.
  destruct (Z.leb_spec 24 k) as [D|D]; destruct (Z.leb_spec 8 (k - 16)); [|lia|lia|reflexivity].
  cbn [andb]. rewrite Z.lor_spec. rewrite T by lia.
  rewrite Z.bits_0. rewrite andb_false_r. reflexivity.
Qed.
Lemma pc_reach : forall junk n us RAND_MAX, byte_ok junk -> word_counts n -> Forall word32 us -> len us = n / 3 -> 0 <= RAND_MAX < 2 ^ 31 ->
  (exists rs, length rs = 8%nat /\ Forall (fun r => 0 <= r <= RAND_MAX) rs /\
    generateMnemonic_words junk n (map random32_pc rs) = Some (mnemonicFromEntropy junk (flat_map (le_bytes 4) us))) <->
  Forall (fun u => u <= RAND_MAX) us.
Proof.
  intros junk n us RM J N U L M.
  assert (B : n / 3 = 4 \/ n / 3 = 6 \/ n / 3 = 8) by (destruct N as [-> |[-> | ->]]; [left|right; left|right; right]; reflexivity).
  assert (PC : forall rs, Forall (fun r => 0 <= r <= RM) rs -> map random32_pc rs = rs).
  { intros rs F. induction F as [|r rs R F IH]; [reflexivity|]. cbn [map]. rewrite IH. f_equal. unfold random32_pc, u32. apply Z.mod_small. lia. }
  unfold len in L. split.
  - intros (rs & LR & F & E). rewrite (PC rs F) in E. rewrite generate_is in E; [|exact J|unfold word_counts in N; tauto|lia].
    assert (E' : mnemonicFromEntropy junk (flat_map (le_bytes 4) (firstn (Z.to_nat (n / 3)) rs)) = mnemonicFromEntropy junk (flat_map (le_bytes 4) us)) by congruence.
    apply from_entropy_inj in E'; [|exact J|apply flat_ok|apply flat_ok| |]; try (rewrite ?flat_len, ?firstn_length; lia).
    assert (FF : Forall (fun r => 0 <= r <= RM) (firstn (Z.to_nat (n / 3)) rs)).
    { apply Forall_forall. intros x X. rewrite Forall_forall in F. apply F. rewrite <- (firstn_skipn (Z.to_nat (n / 3)) rs). apply in_or_app. left. exact X. }
    apply flat_inj in E'; [|eapply Forall_impl; [|exact FF]; cbv beta; intros a A; unfold word32; lia|exact U].
    rewrite <- E'. eapply Forall_impl; [|exact FF]. cbv beta. intros a A. lia.
  - intros F. exists (us ++ repeat 0 (8 - length us)).
    assert (FR : Forall (fun r => 0 <= r <= RM) (us ++ repeat 0 (8 - length us))).
    { apply Forall_app. split; [|apply Forall_forall; intros x X; apply repeat_spec in X; lia].
      apply Forall_forall. intros x X. rewrite Forall_forall in U, F. specialize (U x X). specialize (F x X). unfold word32 in U. lia. }
    split; [rewrite app_length, repeat_length; lia|]. split; [exact FR|]. rewrite (PC _ FR).
    rewrite generate_is; [|exact J|unfold word_counts in N; tauto|rewrite app_length, repeat_length; lia]. do 3 f_equal.
    rewrite firstn_app. replace (Z.to_nat (n / 3) - length us)%nat with 0%nat by lia. cbn [firstn]. rewrite app_nil_r. apply firstn_all2. lia.
Qed.
Lemma esp_top : forall v0 v1 v2 v3 i, word32 v0 -> word32 v1 -> word32 v2 -> word32 v3 -> 0 <= i < 8 ->
  (Z.testbit (random32_esp8266 v0 v1 v2 v3) (24 + i) = false <->
   Z.testbit v0 i = false /\ Z.testbit v1 (8 + i) = false /\ Z.testbit v2 (16 + i) = false /\ Z.testbit v3 (24 + i) = false).
Proof.
  intros v0 v1 v2 v3 i A B C D I. rewrite esp_bits by (auto; lia).
  replace (24 + i - 8) with (16 + i) by lia. replace (24 + i - 16) with (8 + i) by lia. replace (24 + i - 24) with i by lia.
  rewrite !(proj2 (Z.leb_le _ _)) by lia. cbn [andb]. rewrite !orb_false_iff. tauto.
Qed.
Lemma stm_timeout : forall junk n, byte_ok junk -> n = 12 \/ n = 15 \/ n = 18 \/ n = 21 \/ n = 24 ->
  generateMnemonic_words junk n (map random32_stm32 (repeat None 8)) = Some (mnemonicFromEntropy junk (zeros (Z.to_nat (4 * n / 3)))).
Proof.
  intros junk n J N. rewrite generate_is by auto. do 2 f_equal. destruct N as [-> |[-> |[-> |[-> | ->]]]]; vm_compute; reflexivity.
Qed.
Lemma prng_mnemonic : forall junk n bs, byte_ok junk -> n = 12 \/ n = 15 \/ n = 18 \/ n = 21 \/ n = 24 ->
  flat_map (le_bytes 4) (prng_words 8 prng_init) = bs ->
  generateMnemonic_words junk n (prng_words 8 prng_init) = Some (mnemonicFromEntropy junk (firstn (Z.to_nat (4 * n / 3)) bs)).
Proof.
  intros junk n bs J N <-. rewrite generate_is; [|exact J|exact N|vm_compute; auto 20]. do 2 f_equal. rewrite <- firstn_flat. f_equal.
  destruct N as [-> |[-> |[-> |[-> | ->]]]]; reflexivity.
Qed.
Lemma prng_same : forall junk n, byte_ok junk -> n = 12 \/ n = 15 \/ n = 18 \/ n = 21 \/ n = 24 ->
  generateMnemonic_words junk n (prng_words 8 prng_init) = Some (mnemonicFromEntropy junk (firstn (Z.to_nat (4 * n / 3))
    [6; 8; 91; 191; 94; 88; 52; 115; 157; 123; 12; 188; 222; 90; 236; 189;
     104; 45; 241; 165; 3; 162; 140; 151; 3; 226; 226; 140; 21; 206; 178; 55])).
Proof. intros junk n J N. apply prng_mnemonic; [exact J|exact N|]. vm_compute. reflexivity. Qed.
Lemma share_half : forall n, 1 <= n < 2 ^ 32 -> 2 ^ 31 <= n * share n + 1.
Proof.
  intros n H. pose proof (share_pos n H) as S1. unfold share in *. pose proof (Z.div_mod (2 ^ 32 - 1) n ltac:(lia)).
  pose proof (Z.mod_pos_bound (2 ^ 32 - 1) n ltac:(lia)). nia.
Qed.
Lemma uniform_all : forall n, 1 <= n < 2 ^ 32 ->
  1 <= share n /\
  (forall w r, 0 <= r < n -> word32 w -> (random_uniform n [w] = Ok (Some (r, [])) <-> r * share n <= w < (r + 1) * share n)) /\
  (forall w ws r rest, 0 <= r < n -> 0 <= w < n * share n ->
     (random_uniform n (w :: ws) = Ok (Some (r, rest)) <-> r * share n <= w < (r + 1) * share n /\ rest = ws)) /\
  (forall w ws, n * share n <= w -> random_uniform n (w :: ws) = random_uniform n ws) /\
  2 ^ 31 <= n * share n + 1.
Proof.
  intros n H. split; [apply share_pos, H|]. split; [intros; apply uniform_exact; auto|].
  split; [intros w ws r rest R W; apply uniform_one; auto; lia|]. split; [intros; apply uniform_reject; auto|apply share_half, H].
Qed.
Lemma uniform_zero : forall ws, random_uniform 0 ws = UB.
Proof. reflexivity. Qed.
Lemma permute_rearranges : forall l ws p rest, len l < 2 ^ 31 -> Forall word32 ws ->
  random_permute l ws = Ok (Some (p, rest)) -> Permutation l p.
Proof. intros l ws p rest L F E. unfold random_permute in E. apply permute_some in E; [tauto| |exact L|exact F]. destruct l; cbn; lia. Qed.
Lemma permute_defined : forall l ws, len l < 2 ^ 31 -> Forall word32 ws -> random_permute l ws <> UB.
Proof. intros l ws L F. apply permute_no_ub; [|exact L|exact F]. destruct l; cbn; lia. Qed.
Lemma permute_fair : forall l p, l <> [] -> len l < 2 ^ 31 -> NoDup l -> Permutation l p ->
  exists js, picks_ok (length l - 1) js /\ forall ws, Forall word32 ws -> length ws = (length l - 1)%nat ->
    (random_permute l ws = Ok (Some (p, [])) <-> words_pick (length l - 1) js ws).
Proof.
  intros l p NE L ND P. assert (0 < length l)%nat by (destruct l; [contradiction|cbn; lia]).
  apply permute_exact; auto; [lia|]. intros k K. pose proof (Permutation_length P). rewrite !nth_overflow by lia. reflexivity.
Qed.
