(** The nonces, the rounds of signing, and key recovery. *)
From Coq Require Import Lia Znumtheory Setoid Morphisms.
From Verif Require Import Base.Bytes Base.BytesFacts Spec.Bignum Spec.Codecs Spec.Keys Spec.Scalar Spec.Point Spec.Curve Spec.Hash Spec.Schemes
  Model.Bignum Model.Scalar Model.Inverse Model.Stream Model.Point Model.EC Model.ECDSA Model.Hash
  Proof.IntVarint Proof.BnCore Proof.BnRed Proof.BnMul Proof.BnIo Proof.InvFinish Proof.ScalarProps Proof.PointFacts Proof.CurveFacts Proof.EcGroup
  Proof.EcMult Proof.EcTable Proof.EcOrder Proof.EcApi Proof.EcdsaFacts Proof.HashInst Proof.HashMac Proof.HashProps.
Open Scope Z_scope.
Local Notation "a == b" := (eqm N a b) (at level 70).
Local Existing Instances eqm_setoid Zplus_eqm Zminus_eqm Zmult_eqm Zopp_eqm.

(** ** HMAC gives 32 bytes *)
Lemma hmac_word : forall key msg, bytes_ok key -> bytes_ok msg -> word256 (sha256Hmac key msg).
Proof.
  intros key msg K M. rewrite (hmac256_once _ _ _ _ constants256 K M).
  destruct (rfc2104_len _ _ _ _ good256 (trunc32 key) (trunc32 msg)) as [L O]; [apply bytes_ok_firstn; auto..|]. split; auto.
Qed.
Definition rng_ok (st : rfc6979) : Prop := word256 (rng_v st) /\ word256 (rng_k st).
Lemma one_ok : forall b, byte_ok b -> bytes_ok [b]. Proof. intros. constructor; auto; constructor. Qed.
Lemma init_ok : forall d h, word256 d -> word256 h -> rng_ok (init_rfc6979 d h).
Proof.
  intros d h [D _] [H _]. unfold init_rfc6979. cbv zeta.
  assert (X : bytes_ok (firstn 32 d ++ firstn 32 h)) by (apply bytes_ok_app; split; apply bytes_ok_firstn; auto). set (bx := firstn 32 d ++ firstn 32 h) in *. clearbody bx.
  assert (V0 : bytes_ok (repeat 1 32)) by (apply pad_ok; unfold byte_ok; lia).
  assert (K0 : bytes_ok (zeros 32)) by apply bytes_ok_zeros.
  assert (B0 : bytes_ok [0]) by (apply one_ok; unfold byte_ok; lia). assert (B1 : bytes_ok [1]) by (apply one_ok; unfold byte_ok; lia).
  assert (K1 : word256 (sha256Hmac (zeros 32) (repeat 1 32 ++ [0] ++ bx))) by (apply hmac_word; auto; repeat (apply bytes_ok_app; split; auto)).
  set (k1 := sha256Hmac (zeros 32) _) in *. clearbody k1.
  assert (V1 : word256 (sha256Hmac k1 (repeat 1 32))) by (apply hmac_word; auto; apply K1). set (v1 := sha256Hmac k1 _) in *. clearbody v1.
  assert (K2 : word256 (sha256Hmac k1 (v1 ++ [1] ++ bx))) by (apply hmac_word; [apply K1|]; repeat (apply bytes_ok_app; split; auto); apply V1).
  set (k2 := sha256Hmac k1 _) in *. clearbody k2. split; cbn [rng_v rng_k]; auto. apply hmac_word; [apply K2|apply V1].
Qed.
Lemma gen_ok : forall st, rng_ok st -> word256 (fst (generate_rfc6979 st)) /\ rng_ok (snd (generate_rfc6979 st)).
Proof.
  intros st [V K]. unfold generate_rfc6979. cbv zeta. cbn [fst snd].
  assert (V1 : word256 (sha256Hmac (rng_k st) (rng_v st))) by (apply hmac_word; [apply K|apply V]). set (v1 := sha256Hmac _ (rng_v st)) in *. clearbody v1.
  split; [auto|]. assert (K1 : word256 (sha256Hmac (rng_k st) (v1 ++ [0]))).
  { apply hmac_word; [apply K|]. apply bytes_ok_app. split; [apply V1|apply one_ok; unfold byte_ok; lia]. }
  split; cbn [rng_v rng_k]; auto. apply hmac_word; [apply K1|apply V1].
Qed.
(** The numbers that the generator gives. *)
Definition rng_next (st : rfc6979) : rfc6979 := snd (generate_rfc6979 st).
Definition rng_num (st : rfc6979) (j : nat) : Z := number (fst (generate_rfc6979 (Nat.iter j rng_next st))).
Lemma iter_next : forall j st, Nat.iter (S j) rng_next st = Nat.iter j rng_next (rng_next st).
Proof. induction j; intros st; [reflexivity|]. change (Nat.iter (S (S j)) rng_next st) with (rng_next (Nat.iter (S j) rng_next st)). rewrite IHj. reflexivity. Qed.
Lemma num_succ : forall st j, rng_num st (S j) = rng_num (rng_next st) j.
Proof. intros. unfold rng_num. rewrite iter_next. reflexivity. Qed.

(** ** The rounds *)
Section Loop.
Variables rz randk : nat -> bn.
Hypothesis RZ : forall i, random_below P (rz i).
Hypothesis RK : forall i, random_below N (randk i).
Lemma sign_loop_ok : forall n i st z d, rng_ok st -> normalized z -> bn_val z < 2^256 -> is_scalar d ->
  exists o, sign_loop rz randk n i st z d = Ok o /\
   match o with
   | Some (sig, id) => exists j r s, (j < n)%nat /\ sig = be_bytes 32 r ++ be_bytes 32 s /\ ecdsa_signature (number d) (bn_val z) (rng_num st j) r s id /\
       forall j', (j' < j)%nat -> forall r s id, ~ ecdsa_signature (number d) (bn_val z) (rng_num st j') r s id
   | None => forall j, (j < n)%nat -> forall r s id, ~ ecdsa_signature (number d) (bn_val z) (rng_num st j) r s id
   end.
Proof.
  induction n as [|n IH]; intros i st z d R NZ LZ SD.
  - exists None. split; [reflexivity|]. intros j J. lia.
  - cbn [sign_loop]. destruct (gen_ok st R) as [W R']. assert (E0 : rng_num st 0 = number (fst (generate_rfc6979 st))) by reflexivity.
    fold (rng_next st) in R'. assert (EN : snd (generate_rfc6979 st) = rng_next st) by reflexivity. destruct (generate_rfc6979 st) as [rnd st']. cbn [fst snd] in *. subst st'.
    destruct (read_word256 rnd W) as [NK VK]. destruct (sign_try_ok (rz i) (randk i) (bn_read_be rnd) z d (RZ i) (RK i) NK NZ LZ SD) as (o & EO & HO).
    rewrite VK, <- E0 in HO. rewrite EO, bind_Ok. cbv beta. destruct o as [[sig id]|].
    + eexists. split; [reflexivity|]. destruct HO as (r & s & A & B). exists 0%nat, r, s. split; [lia|]. split; [auto|]. split; [auto|]. intros; lia.
    + destruct (IH (S i) (rng_next st) z d R' NZ LZ SD) as (o & EL & HL). exists o. split; [exact EL|]. destruct o as [[sig id]|].
      * destruct HL as (j & r & s & J & A & B & C). exists (S j), r, s. split; [lia|]. split; [auto|]. rewrite num_succ. split; [auto|].
        intros [|j'] J'; [exact HO|]. rewrite num_succ. apply C. lia.
      * intros [|j] J; [exact HO|]. rewrite num_succ. apply HL. lia.
Qed.
End Loop.

(** ** The generator is that of RFC 6979 *)
Section Rfc.
Variables K H : list Z.
Hypothesis C : fips_constants fips256 K H.
Notation hmac := (rfc2104 (fips_hash fips256 K H) 64).
Lemma word_len : forall w, word256 w -> len w = 32. Proof. intros w [_ L]. unfold len. rewrite L. reflexivity. Qed.
Lemma mac : forall key msg, word256 key -> bytes_ok msg -> len msg < 2^32 -> sha256Hmac key msg = hmac key msg.
Proof. intros key msg W M L. apply (hmac256_eq K H); auto; [apply W|rewrite word_len by auto; lia]. Qed.
Lemma macw : forall key msg, word256 key -> word256 msg -> sha256Hmac key msg = hmac key msg.
Proof. intros key msg W M. apply mac; auto; [apply M|rewrite word_len by auto; lia]. Qed.
Lemma start_same : forall d h, word256 d -> word256 h -> (rng_k (init_rfc6979 d h), rng_v (init_rfc6979 d h)) = rfc6979_start hmac d h.
Proof.
  intros d h D HH. unfold init_rfc6979, rfc6979_start. cbv zeta. cbn [rng_k rng_v].
  rewrite (firstn_all2 d) by (rewrite (proj2 D); lia). rewrite (firstn_all2 h) by (rewrite (proj2 HH); lia).
  assert (V0 : word256 (repeat 1 32)) by (split; [apply pad_ok; unfold byte_ok; lia|reflexivity]).
  assert (B0 : bytes_ok [0]) by (apply one_ok; unfold byte_ok; lia). assert (B1 : bytes_ok [1]) by (apply one_ok; unfold byte_ok; lia).
  assert (L : forall v b, word256 v -> len (v ++ [b] ++ d ++ h) < 2^32).
  { intros v b V. rewrite !len_app, (word_len v V), (word_len d D), (word_len h HH). change (len [b]) with 1. lia. }
  assert (O : forall v b, word256 v -> bytes_ok [b] -> bytes_ok (v ++ [b] ++ d ++ h)).
  { intros v b V B. repeat (apply bytes_ok_app; split); auto; [apply V|apply D|apply HH]. }
  rewrite <- (mac (zeros 32) (repeat 1 32 ++ [0] ++ d ++ h)) by auto using zeros_word.
  assert (K1 : word256 (sha256Hmac (zeros 32) (repeat 1 32 ++ [0] ++ d ++ h))) by (apply hmac_word; auto; apply zeros_word). set (k1 := sha256Hmac (zeros 32) _) in *. clearbody k1.
  rewrite <- (macw k1 (repeat 1 32)) by auto.
  assert (V1 : word256 (sha256Hmac k1 (repeat 1 32))) by (apply hmac_word; [apply K1|apply V0]). set (v1 := sha256Hmac k1 _) in *. clearbody v1.
  rewrite <- (mac k1 (v1 ++ [1] ++ d ++ h)) by auto.
  assert (K2 : word256 (sha256Hmac k1 (v1 ++ [1] ++ d ++ h))) by (apply hmac_word; [apply K1|auto]). set (k2 := sha256Hmac k1 _) in *. clearbody k2.
  rewrite <- (macw k2 v1) by auto. reflexivity.
Qed.
Lemma retry_same : forall st, rng_ok st -> (rng_k (rng_next st), rng_v (rng_next st)) = rfc6979_retry hmac (rng_k st, rng_v st) /\
  number (fst (generate_rfc6979 st)) = rfc6979_candidate hmac (rng_k st, rng_v st).
Proof.
  intros st [V KK]. unfold rng_next, generate_rfc6979, rfc6979_retry, rfc6979_candidate. cbv zeta. cbn [fst snd rng_k rng_v].
  rewrite <- (macw (rng_k st) (rng_v st)) by auto.
  assert (V1 : word256 (sha256Hmac (rng_k st) (rng_v st))) by (apply hmac_word; [apply KK|apply V]). set (v1 := sha256Hmac _ (rng_v st)) in *. clearbody v1.
  assert (O : bytes_ok (v1 ++ [0])) by (apply bytes_ok_app; split; [apply V1|apply one_ok; unfold byte_ok; lia]).
  rewrite <- (mac (rng_k st) (v1 ++ [0])) by (auto; rewrite len_app, (word_len v1 V1); change (len [0]) with 1; lia).
  assert (K1 : word256 (sha256Hmac (rng_k st) (v1 ++ [0]))) by (apply hmac_word; [apply KK|auto]). set (k1 := sha256Hmac (rng_k st) _) in *. clearbody k1.
  rewrite <- (macw k1 v1) by auto. auto.
Qed.
Lemma iter_same : forall j st, rng_ok st -> rng_ok (Nat.iter j rng_next st) /\
  (rng_k (Nat.iter j rng_next st), rng_v (Nat.iter j rng_next st)) = Nat.iter j (rfc6979_retry hmac) (rng_k st, rng_v st).
Proof.
  induction j; intros st R; [split; auto|]. destruct (IHj st R) as [R' E]. change (Nat.iter (S j) rng_next st) with (rng_next (Nat.iter j rng_next st)).
  split; [exact (proj2 (gen_ok _ R'))|]. change (Nat.iter (S j) (rfc6979_retry hmac) (rng_k st, rng_v st)) with (rfc6979_retry hmac (Nat.iter j (rfc6979_retry hmac) (rng_k st, rng_v st))).
  rewrite <- E. exact (proj1 (retry_same _ R')).
Qed.
Lemma nonce_raw : forall d h j, word256 d -> word256 h -> rng_num (init_rfc6979 d h) j = rfc6979_number hmac d h j.
Proof.
  intros d h j D HH. pose proof (init_ok d h D HH) as R. destruct (iter_same j _ R) as [R' E]. unfold rng_num, rfc6979_number. rewrite <- start_same by auto. rewrite <- E.
  exact (proj2 (retry_same _ R')).
Qed.
Lemma raw_rfc : forall d h j, word256 d -> word256 h -> number h < N -> rfc6979_number hmac d h j = rfc6979_nonce hmac (number d) h j.
Proof.
  intros d h j D HH L. pose proof (number_range h HH). unfold rfc6979_nonce, number in *. rewrite Z.mod_small by lia. rewrite !byte_be by (apply D || apply HH). reflexivity.
Qed.
End Rfc.

(** ** Recovery *)
Lemma wide_small : forall x, normalized x -> bn_val x < P -> wide x.
Proof. intros x NX L. split; auto. pose proof P_range. lia. Qed.
Lemma uncompress_point : forall odd (x : bn) X Y, on_curve X Y -> normalized x -> bn_val x = X -> odd mod 2 = Y mod 2 ->
  exists y : bn, uncompress_coords odd x = Ok y /\ validate_pubkey (x, y) = Ok true /\ crep (x, y) (Some (X, Y)).
Proof.
  intros odd x X Y O NX VX M. pose proof O as (RX & _). destruct (uncompress_ok odd x (wide_small x NX ltac:(lia))) as (y & E & NY & _ & VY). exists y. split; [exact E|].
  assert (Q : bn_val y = Y). { rewrite VY, VX. apply candidate; [auto|exact O|auto]. }
  destruct (validate_ok x y NX NY) as (b & EB & HB). assert (b = true) by (apply HB; rewrite VX, Q; exact O). subst b.
  split; [auto|]. rewrite <- VX, <- Q. apply crep_intro; auto. rewrite VX, Q. exact O.
Qed.
Lemma recover_ok : forall rz1 rz2 rz3 d digest k r s id x y, random_below P rz1 -> random_below P rz2 -> random_below P rz3 ->
  0 < d < N -> word256 digest -> ecdsa_signature d (number digest) k r s id -> ec_mul d gen = Some (x, y) ->
  recover_pub rz1 rz2 rz3 (be_bytes 32 r ++ be_bytes 32 s) digest id = Ok (Some (4 :: coords x y)).
Proof.
  intros rz1 rz2 rz3 d digest k r s id qx qy R1 R2 R3 D WD (K & X & Y & w & t & M & W & R & R0 & T & T0 & S & ID) Q.
  pose proof order_pos as OP. pose proof order_range as OR. pose proof P_range as PR. pose proof gen_point as G.
  assert (RT : 0 <= t < N) by (rewrite T; apply Z.mod_pos_bound; auto). assert (RR : 0 <= r < N) by (rewrite R; apply Z.mod_pos_bound; auto).
  assert (RS : 0 < s < N) by lia.
  unfold recover_pub. destruct (slices_rs (be_bytes 32 r) (be_bytes 32 s) (be_bytes_length _ _) (be_bytes_length _ _)) as [S1 S2]. step S1. step S2. cbv zeta.
  destruct (read_word256 _ (scalar_word r)) as [NR VR]. destruct (read_word256 _ (scalar_word s)) as [NS VS]. rewrite scalar_of_num in VR, VS by lia.
  set (br := bn_read_be (be_bytes 32 r)) in *. set (bs := bn_read_be (be_bytes 32 s)) in *. clearbody br bs.
  rewrite !bn_is_zero_spec, !less_ord, VR, VS by auto.
  assert (T1 : r <? N = true) by (apply Z.ltb_lt; lia). assert (T2 : s <? N = true) by (apply Z.ltb_lt; lia).
  assert (T3 : r =? 0 = false) by (apply Z.eqb_neq; lia). assert (T4 : s =? 0 = false) by (apply Z.eqb_neq; lia). rewrite T1, T2, T3, T4. cbn [orb negb].
  assert (OC : on_curve X Y). { pose proof (ec_mul_point k gen G) as PM. rewrite M in PM. exact PM. } pose proof OC as (RX & RY & _).
  set (low := t <=? N - t) in *. set (par := if low then Y mod 2 else 1 - Y mod 2) in *.
  assert (Y2 : Y mod 2 = 0 \/ Y mod 2 = 1) by (pose proof (Z.mod_pos_bound Y 2); lia).
  assert (PP : par = 0 \/ par = 1) by (unfold par; destruct low; lia).
  assert (HI : negb (Z.land id 2 =? 0) = negb (X <? N)). { rewrite ID. destruct (X <? N), PP as [-> | ->]; reflexivity. }
  assert (LO : Z.land id 1 = par). { rewrite ID. destruct (X <? N), PP as [-> | ->]; reflexivity. }
  rewrite HI, LO.
  assert (X1 : exists x1 : bn, (if negb (X <? N) then bn_add br order_limbs else br) = x1 /\ normalized x1 /\ bn_val x1 = X).
  { eexists. split; [reflexivity|]. destruct (Z.ltb_spec X N) as [L|L]; cbn [negb].
    - rewrite VR, R, Z.mod_small by lia. auto.
    - destruct (bn_add_spec br order_limbs NR order_norm) as [A B]. split; [auto|]. rewrite B, VR, order_val, Z.mod_small by lia.
      rewrite R. replace X with (X - N + 1 * N) at 1 by ring. rewrite Z.mod_add, Z.mod_small by lia. ring. }
  destruct X1 as (x1 & -> & NX1 & VX1). rewrite (bn_is_less_spec x1 prime_limbs) by (auto; apply prime_modulus). rewrite VX1, prime_val.
  assert (T5 : X <? P = true) by (apply Z.ltb_lt; lia). rewrite T5. cbn [negb]. rewrite andb_false_r.
  set (kk := if low then k else - k). set (Y' := if low then Y else P - Y).
  assert (YN : Y <> 0). { intros E. apply (F_odd _ _ (good_toP (Some (X, Y)) OC)). rewrite E. reflexivity. }
  assert (PK : smul kk gen = Some (X, Y')).
  { rewrite ec_mul_smul in M by lia. unfold kk, Y'. destruct low; [exact M|]. rewrite smul_opp, M by auto. cbn [ec_neg]. do 2 f_equal.
    replace (- Y) with (P - Y + (-1) * P) by ring. rewrite Z.mod_add, Z.mod_small by lia. reflexivity. }
  assert (OC' : on_curve X Y') by (pose proof (smul_point kk gen G) as PM; rewrite PK in PM; exact PM).
  destruct (uncompress_point par x1 X Y' OC' NX1 VX1) as (y1 & E1 & E2 & C1).
  { unfold par, Y'. destruct low; [rewrite Z.mod_mod by lia; reflexivity|]. pose proof P_odd. clear - H Y2. dlia. }
  step E1.
  step E2. cbn [negb]. destruct (read_word256 digest WD) as [ND VD]. pose proof (number_range digest WD) as RD.
  destruct (bn_subtractmod_spec order_limbs (bn_read_be digest) order_limbs order_norm ND order_norm) as [NE VE]. rewrite order_val, VD, Z.mod_small in VE by lia.
  set (e1 := bn_subtractmod order_limbs (bn_read_be digest) order_limbs) in *. clearbody e1.
  destruct (bn_fast_mod_spec e1 order_limbs (norm_unnorm _ NE) order_modulus) as [PE VE2]. rewrite order_val in VE2. destruct (mod_ord _ PE) as [NE3 VE3].
  set (e2 := bn_mod (bn_fast_mod e1 order_limbs) order_limbs) in *. clearbody e2. rewrite VE2, VE in VE3.
  assert (CE : bn_val e2 == - number digest). { rewrite VE3, eqm_mod. unfold eqm. replace (N + 2 * N - number digest) with (- number digest + 3 * N) by ring. apply Z.mod_add. lia. }
  assert (RE : 0 <= bn_val e2 < N) by (rewrite VE3; apply Z.mod_pos_bound; lia).
  destruct (inv_ord br NR) as (ri & E4 & N4 & B4 & V4); [rewrite VR, Z.mod_small by lia; auto|]. step E4. rewrite VR in V4. apply eqm_one in V4.
  destruct (point_multiply_all rz1 bs (x1, y1) _ R1 NS ltac:(lia) C1 ltac:(discriminate)) as (c1 & E5 & C5). step E5. rewrite VS in C5.
  destruct (scalar_multiply_all rz2 e2 R2 NE3 ltac:(lia)) as (c2 & E6 & C6). step E6.
  destruct (crep_add _ _ _ _ C6 C5) as (c3 & E7 & C7). step E7.
  assert (KT : number digest + r * d == k * t).
  { apply eqm_one in W. rewrite T, eqm_mod. transitivity (k * w * (number digest + r * d)); [rewrite W, Z.mul_1_l; reflexivity|].
    replace (k * w * (number digest + r * d)) with (k * (w * (number digest + r * d))) by ring. reflexivity. }
  assert (KS : s * kk == k * t).
  { unfold kk, low in *. destruct (Z.leb_spec t (N - t)) as [L|L].
    - assert (ES : s = t) by lia. rewrite ES, Z.mul_comm. reflexivity.
    - assert (E : s = N - t) by lia. rewrite E, eqm_neg. replace (- t * - k) with (k * t) by ring. reflexivity. }
  assert (SUM : ec_add (ec_mul (bn_val e2) gen) (ec_mul s (Some (X, Y'))) = smul (r * d) gen).
  { rewrite !ec_mul_smul by lia. rewrite <- PK, <- smul_smul, <- smul_add by auto. apply smul_eqm; auto. rewrite CE, KS, <- KT. replace (- number digest + (number digest + r * d)) with (r * d) by ring. reflexivity. }
  rewrite SUM in C7.
  assert (NE0 : smul (r * d) gen <> None).
  { apply (smul_ne gen gen_point); [discriminate|apply gen_order|]. rewrite <- eqm_zero. apply mul_ne; apply small_ne; lia. }
  destruct (point_multiply_all rz3 ri c3 _ R3 N4 ltac:(lia) C7 NE0) as (c4 & E8 & C8). step E8.
  rewrite ec_mul_smul, <- smul_smul in C8 by (auto; lia).
  rewrite (smul_eqm _ d) in C8; auto.
  - rewrite <- ec_mul_smul, Q in C8 by lia. rewrite (cp_bytes_ok _ _ C8). reflexivity.
  - replace (bn_val ri * (r * d)) with (r * bn_val ri * d) by ring. rewrite V4, Z.mul_1_l. reflexivity.
Qed.
