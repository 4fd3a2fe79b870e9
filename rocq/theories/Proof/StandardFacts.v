(** From words to addresses and extended keys, as the standards say. *)
From Coq Require Import Lia.
From Verif Require Import Base.Bytes Base.BytesFacts Spec.Bignum Spec.Codecs Spec.Bech32 Spec.Hash Spec.Wire Spec.Address Spec.HD Spec.Keys Spec.Scalar Spec.Point Spec.Curve Spec.Schemes Spec.PSBTSign Spec.Wallet Spec.Form Spec.Standard
  Model.Stream Model.Networks Model.Sign Model.HD Model.Hash Model.Bignum Model.PointOps Model.Wallet Model.KeyStrings Model.Account
  Proof.IntVarint Proof.HashProps Proof.HashShape Proof.HDFacts Proof.HDPub Proof.HDReal Proof.ScalarProps Proof.PointFacts Proof.PointProps Proof.SchemeProps Proof.WalletProps Proof.WalletReal Proof.FormFacts Proof.PsbtSignReal.
Open Scope Z_scope.

Lemma len_nat : forall (l : list Z), len l = Z.of_nat (length l). Proof. reflexivity. Qed.
Lemma some_pair : forall (a b c d : list Z), Some (a, b) = Some (c, d) -> a = c /\ b = d. Proof. intros a b c d E. injection E as -> ->. auto. Qed.

Definition keyed (k c : list Z) : Prop := is_scalar k /\ word256 c.
Section Shapes.
Variable hmac : list Z -> list Z -> list Z.
Hypothesis S64 : forall k m, length (hmac k m) = 64%nat /\ bytes_ok (hmac k m).
Lemma number_mod : forall x, number (be_bytes 32 (x mod group_order)) < group_order.
Proof.
  intros x. assert (M := Z.mod_pos_bound x group_order ltac:(reflexivity)). unfold number. rewrite be_val_be_bytes, Z.mod_small; [apply M|].
  assert (Q : group_order < 256 ^ Z.of_nat 32) by reflexivity. split; [apply M|exact (Z.lt_trans _ _ _ (proj2 M) Q)].
Qed.
Lemma ckd_shape : forall k c pub i k' c', ckd_priv hmac k c pub i = Some (k', c') -> keyed k' c'.
Proof.
  intros k c pub i k' c' E. unfold ckd_priv in E. cbv zeta in E. match type of E with context [hmac c ?m] => destruct (S64 c m) as [L O]; generalize dependent (hmac c m) end.
  intros I E L O. destruct (_ || _) eqn:B in E; [discriminate|]. apply some_pair in E as [<- <-]. split.
  - split; [split; [apply be_bytes_ok|apply be_bytes_length]|apply number_mod].
  - split; [apply bytes_ok_skipn; auto|rewrite skipn_length, L; reflexivity].
Qed.
Lemma master_shape : forall s k c, bip32_master hmac s = Some (k, c) -> keyed k c.
Proof.
  intros s k c E. unfold bip32_master in E. cbv zeta in E. destruct (S64 (chars "Bitcoin seed") s) as [L O]. generalize dependent (hmac (chars "Bitcoin seed") s). intros I E L O.
  destruct (Z.leb_spec group_order (be_val 256 (firstn 32 I))) as [X|X]; cbn [orb] in E; [discriminate|]. destruct (_ =? 0); [discriminate|]. apply some_pair in E as [<- <-].
  split; [|split; [apply bytes_ok_skipn; auto|rewrite skipn_length, L; reflexivity]].
  split; [split; [apply bytes_ok_firstn; auto|rewrite firstn_length, L; reflexivity]|exact X].
Qed.
Lemma derive_shape : forall path k c k' c', keyed k c -> bip32_derive hmac k c path = Some (k', c') -> keyed k' c'.
Proof.
  induction path as [|i t IH]; intros k c k' c' KC E; cbn [bip32_derive] in E; [apply some_pair in E as [<- <-]; exact KC|].
  destruct (ckd_priv hmac k c _ i) as [[k1 c1]|] eqn:Q; [|discriminate]. exact (IH k1 c1 k' c' (ckd_shape _ _ _ _ _ _ Q) E).
Qed.
Lemma derive_last : forall path k c i, bip32_derive hmac k c (path ++ [i]) <> None -> exists k' c', bip32_derive hmac k c path = Some (k', c').
Proof.
  induction path as [|j t IH]; intros k c i E; [exists k, c; reflexivity|]. cbn [app bip32_derive] in *. destruct (ckd_priv hmac _ _ _ _) as [[k1 c1]|]; [|congruence]. exact (IH k1 c1 i E).
Qed.
End Shapes.

Section Gen.
Variable hmac : list Z -> list Z -> list Z.
Variable hash : list Z -> list Z.
Hypothesis S64 : forall k m, length (hmac k m) = 64%nat /\ bytes_ok (hmac k m).
Variable rz : bn.
Hypothesis RZ : random_below field_prime rz.
Notation mulG := (code_mulG rz).
Notation derive := (hk_derive hmac hash mulG).
Definition seed_key (seed path : list Z) : option (list Z * list Z) :=
  match bip32_master hmac seed with Some (k, c) => bip32_derive hmac k c path | None => None end.
Lemma seed_derive : forall seed net path k c, Forall (fun w => 0 <= w < 2^32) path -> seed_key seed path = Some (k, c) ->
  hk_num (derive (from_seed hmac seed net) path) = k /\ hk_chain (derive (from_seed hmac seed net) path) = c /\ keyed k c.
Proof.
  intros seed net path k c F E. unfold seed_key in E. destruct (bip32_master hmac seed) as [[mk mc]|] eqn:M; [|discriminate].
  pose proof (master_shape hmac S64 _ _ _ M) as KM. rewrite (master_bip32 _ _ net _ _ M).
  destruct (derive_bip32 hash hmac rz S64 RZ path (mkHk mk mc 0 (zeros 4) 0 net UNKNOWN_TYPE (zeros 4) DONE 0) (proj1 KM) F k c E) as [A B].
  split; [exact A|]. split; [exact B|]. exact (derive_shape hmac S64 path mk mc k c KM E).
Qed.
Lemma public_code : forall k c, keyed k c -> compressed (mulG k) = std_public k.
Proof. intros k c KC. unfold std_public. rewrite (code_mulG_ok rz k RZ (proj1 KC)). reflexivity. Qed.
Lemma derive_depth : forall l k, Forall (fun w => 0 <= w < 2^32) l -> 0 <= hk_depth k -> hk_depth k + len l <= 255 -> hk_depth (derive k l) = hk_depth k + len l.
Proof.
  induction l as [|i l IH]; intros k F D B; [unfold hk_derive; cbn [fold_left]; change (len (@nil Z)) with 0; lia|]. apply Forall_cons_iff in F as [F1 F2]. rewrite len_cons in *. pose proof (len_nonneg _ l).
  change (derive k (i :: l)) with (derive (hk_child_of hmac hash mulG k i false) l).
  destruct (child_all hmac hash mulG (fun a b => proj1 (S64 a b)) (fun a b => proj2 (S64 a b)) k i F1) as (_ & _ & _ & _ & E & _).
  rewrite Z.mod_small in E by lia. rewrite IH; rewrite ?E; auto; lia.
Qed.
Lemma seed_depth : forall seed net path, Forall (fun w => 0 <= w < 2^32) path -> len path < 255 -> hk_depth (derive (from_seed hmac seed net) path) = len path.
Proof. intros seed net path F D. rewrite (derive_depth path _ F); unfold from_seed; cbn [hk_depth]; lia. Qed.
(** What the key at a path of one number more holds. *)
Lemma seed_last : forall seed net path i, Forall (fun w => 0 <= w < 2^32) (path ++ [i]) -> len path < 255 -> seed_key seed (path ++ [i]) <> None ->
  exists k c k' c', seed_key seed path = Some (k, c) /\ seed_key seed (path ++ [i]) = Some (k', c') /\ keyed k c /\ keyed k' c' /\
    let w := derive (from_seed hmac seed net) (path ++ [i]) in hk_num w = k' /\ hk_chain w = c' /\ hk_depth w = len path + 1 /\ hk_fp w = firstn 4 (hash (std_public k)) /\ hk_child w = i /\ hk_prefix w = zeros 4.
Proof.
  intros seed net path i F D NN. pose proof (proj1 (proj1 (Forall_app _ _ _) F)) as F1. pose proof (proj2 (proj1 (Forall_app _ _ _) F)) as F2. apply Forall_cons_iff in F2 as [FI _].
  assert (NP : exists k c, seed_key seed path = Some (k, c)).
  { unfold seed_key in *. destruct (bip32_master hmac _) as [[mk mc]|]; [|congruence]. exact (derive_last hmac path mk mc i NN). }
  destruct NP as (k & c & E). destruct (seed_key seed (path ++ [i])) as [[k' c']|] eqn:E'; [clear NN|congruence]. exists k, c, k', c'. split; [exact E|]. split; [reflexivity|].
  destruct (seed_derive seed net path k c F1 E) as (Q1 & Q2 & KC). destruct (seed_derive seed net (path ++ [i]) k' c' F E') as (Q1' & Q2' & KC'). split; [exact KC|]. split; [exact KC'|]. cbv zeta.
  split; [exact Q1'|]. split; [exact Q2'|].
  pose proof (seed_depth seed net path F1 D) as SD. rewrite derive_app. generalize dependent (derive (from_seed hmac seed net) path). intros w0 Q1 Q2 SD.
  change (derive w0 [i]) with (hk_child_of hmac hash mulG w0 i false).
  destruct (child_all hmac hash mulG (fun a b => proj1 (S64 a b)) (fun a b => proj2 (S64 a b)) w0 i FI) as (_ & _ & A3 & A4 & A5 & _).
  pose proof (len_nonneg _ path) as LN. split; [rewrite A5, SD; apply Z.mod_small; lia|].
  split; [rewrite A3, Q1, (public_code k c KC); reflexivity|]. split; [exact A4|reflexivity].
Qed.
End Gen.

Section Std.
Variables K H K5 H5 C C' : list Z.
Hypothesis C2 : fips_constants fips256 K H.
Hypothesis C5 : fips_constants fips512 K5 H5.
Hypothesis CR : rmd_constants C C'.
Notation dsha' := (std_dsha K H).
Notation hash' := (std_hash160 K H C C').
Notation hmac' := (std_hmac K5 H5).

Lemma dsha_std : forall m, bytes_ok m -> len m < 2^32 -> doubleSha m = dsha' m.
Proof. intros m O L. exact (proj2 (proj2 (proj2 (proj2 (one_shots K H K5 H5 C C' m C2 C5 CR O L))))). Qed.
Lemma hash_std : forall m, bytes_ok m -> len m < 2^32 -> hash160 m = hash' m.
Proof. intros m O L. exact (proj1 (proj2 (proj2 (proj2 (one_shots K H K5 H5 C C' m C2 C5 CR O L))))). Qed.
Lemma hmac_std : forall k m, bytes_ok k -> bytes_ok m -> len k < 2^32 -> len m < 2^32 -> sha512Hmac k m = hmac' k m.
Proof. intros k m Ok Om Lk Lm. exact (hmac512_eq K5 H5 k m C5 Ok Om Lk Lm). Qed.

(** ** The seed *)
Lemma xor_ok : forall a b, bytes_ok a -> bytes_ok b -> bytes_ok (map (fun ab => Z.lxor (fst ab) (snd ab)) (combine a b)).
Proof.
  induction a as [|x a IH]; intros [|y b] A B; try constructor; apply Forall_cons_iff in A as [A1 A2]; apply Forall_cons_iff in B as [B1 B2].
  - cbn [fst snd]. unfold byte_ok in *. split; [apply Z.lxor_nonneg; lia|].
    destruct (Z.eq_dec (Z.lxor x y) 0) as [->|NZ]; [lia|]. assert (NN : 0 <= Z.lxor x y) by (apply Z.lxor_nonneg; lia).
    assert (LG : Z.log2 (Z.lxor x y) <= Z.max (Z.log2 x) (Z.log2 y)) by (apply Z.log2_lxor; lia).
    assert (Z.log2 x <= 7) by (change 7 with (Z.log2 255); apply Z.log2_le_mono; lia). assert (Z.log2 y <= 7) by (change 7 with (Z.log2 255); apply Z.log2_le_mono; lia).
    apply Z.lt_le_trans with (2^8); [apply Z.log2_lt_pow2; lia|lia].
  - apply IH; auto.
Qed.
Lemma hmac_final_ok : forall m, bytes_ok (hmac_Final SHA_512 m) /\ length (hmac_Final SHA_512 m) = 64%nat.
Proof. intros m. unfold hmac_Final. destruct (final_shape SHA_512 (sha2_Update SHA_512 (sha2_Update SHA_512 (sha2_Init SHA_512) (hm_opad m)) (fst (sha2_Final SHA_512 (hm_ctx m))))) as [A B]; [rewrite !update_st; reflexivity|]. split; [exact B|exact A]. Qed.
Lemma rounds_ok : forall n m seed u, bytes_ok seed -> bytes_ok u -> (length seed <= 64)%nat -> bytes_ok (seed_rounds n m seed u) /\ (length (seed_rounds n m seed u) <= 64)%nat.
Proof.
  induction n as [|n IH]; intros m seed u S U L; cbn [seed_rounds]; [split; auto|]. cbv zeta. apply IH; [apply xor_ok; [auto|apply hmac_final_ok]|apply hmac_final_ok|].
  rewrite map_length, combine_length. lia.
Qed.
Lemma seed_ok : forall w p, bytes_ok (mnemonic_seed w p) /\ len (mnemonic_seed w p) <= 64.
Proof.
  intros w p. unfold mnemonic_seed. cbv zeta. match goal with |- context [seed_rounds ?n ?m ?s ?u] => destruct (rounds_ok n m s u) as [A B] end.
  1-2: apply hmac_final_ok. 1: rewrite (proj2 (hmac_final_ok _)); lia. split; [exact A|]. rewrite len_nat. lia.
Qed.
Lemma seed_std : forall w p, bytes_ok w -> bytes_ok p -> len w < 2^32 -> len p < 2^32 -> mnemonic_seed w p = std_seed K5 H5 w p.
Proof. intros w p Ow Op Lw Lp. exact (seed_eq K5 H5 w p C5 Ow Op Lw Lp). Qed.

(** ** BIP 32 *)
Lemma public_ok : forall k, bytes_ok (std_public k) /\ len (std_public k) = 33.
Proof.
  intros k. unfold std_public. assert (G : forall pt, bytes_ok (point_bytes pt) /\ length (point_bytes pt) = 64%nat).
  { intros [[x y]|]; cbn [point_bytes]; [split; [apply coords_ok|apply coords_len]|split; [apply bytes_ok_zeros|apply repeat_length]]. }
  destruct (G (ec_mul (number k) gen)) as [O L]. generalize dependent (point_bytes (ec_mul (number k) gen)). intros b O L. unfold compressed. split.
  - constructor; [destruct (Z.odd _); unfold byte_ok; lia|apply bytes_ok_firstn; auto].
  - rewrite len_nat. cbn [length]. rewrite firstn_length, L. reflexivity.
Qed.
Lemma word_len : forall a, word256 a -> len a = 32.
Proof. intros a W. rewrite len_nat, (proj2 W). reflexivity. Qed.
Lemma ckd_std : forall k c i, keyed k c -> ckd_priv sha512Hmac k c (std_public k) i = ckd_priv hmac' k c (std_public k) i.
Proof.
  intros k c i [[WK _] WC]. destruct (public_ok k) as [PO PL].
  assert (E : sha512Hmac c ((if 2^31 <=? i then 0 :: k else std_public k) ++ be_bytes 4 i) = hmac' c ((if 2^31 <=? i then 0 :: k else std_public k) ++ be_bytes 4 i)).
  { apply hmac_std; [apply WC| |rewrite word_len by auto; lia|].
    - apply bytes_ok_app. split; [|apply be_bytes_ok]. destruct (2^31 <=? i); [constructor; [unfold byte_ok; lia|apply WK]|exact PO].
    - rewrite len_app. rewrite (len_nat (be_bytes 4 i)), be_bytes_length. destruct (2^31 <=? i); [rewrite len_cons, word_len by auto; lia|lia]. }
  unfold ckd_priv. rewrite E. reflexivity.
Qed.
Lemma ckd_keyed : forall k c pub i k' c', ckd_priv sha512Hmac k c pub i = Some (k', c') -> keyed k' c'.
Proof. intros k c pub i k' c' E. exact (ckd_shape sha512Hmac hmac512_shape k c pub i k' c' E). Qed.
Lemma derive_std : forall path k c, keyed k c -> bip32_derive sha512Hmac k c path = bip32_derive hmac' k c path.
Proof.
  induction path as [|i t IH]; intros k c KC; cbn [bip32_derive]; [reflexivity|]. fold (std_public k). rewrite <- (ckd_std k c i KC).
  destruct (ckd_priv sha512Hmac k c (std_public k) i) as [[k' c']|] eqn:E; [|reflexivity]. apply IH. exact (ckd_keyed _ _ _ _ _ _ E).
Qed.
Lemma derive_keyed : forall path k c k' c', keyed k c -> bip32_derive sha512Hmac k c path = Some (k', c') -> keyed k' c'.
Proof. exact (derive_shape sha512Hmac hmac512_shape). Qed.
Lemma derive_snoc : forall path k c i, bip32_derive sha512Hmac k c (path ++ [i]) <> None -> exists k' c', bip32_derive sha512Hmac k c path = Some (k', c').
Proof. exact (derive_last sha512Hmac). Qed.
Lemma master_std : forall w p, bytes_ok w -> bytes_ok p -> len w < 2^32 -> len p < 2^32 ->
  bip32_master sha512Hmac (mnemonic_seed w p) = bip32_master hmac' (std_seed K5 H5 w p).
Proof.
  intros w p Ow Op Lw Lp. destruct (seed_ok w p) as [SO SL].
  assert (E : sha512Hmac (chars "Bitcoin seed") (mnemonic_seed w p) = hmac' (chars "Bitcoin seed") (std_seed K5 H5 w p)).
  { rewrite hmac_std; [rewrite seed_std by auto; reflexivity|apply bytes_ok_bool; reflexivity|exact SO|reflexivity|lia]. }
  unfold bip32_master. rewrite E. reflexivity.
Qed.
Lemma master_keyed : forall s k c, bip32_master sha512Hmac s = Some (k, c) -> keyed k c.
Proof. intros s k c E. exact (master_shape sha512Hmac hmac512_shape s k c E). Qed.

(** ** Keys and addresses of the code *)
Variable rz : bn.
Hypothesis RZ : random_below field_prime rz.
Notation mulG := (code_mulG rz).
Notation derive := (hk_derive sha512Hmac hash160 mulG).
Variables words pass : list Z.
Hypothesis OW : bytes_ok words.
Hypothesis OP : bytes_ok pass.
Hypothesis LW : len words < 2^32.
Hypothesis LP : len pass < 2^32.
Notation skey := (std_key K5 H5 words pass).
Notation wallet net path := (derive (from_mnemonic words pass net) path).

Lemma seed_key_std : forall path, skey path = seed_key sha512Hmac (mnemonic_seed words pass) path.
Proof.
  intros path. unfold std_key, seed_key. rewrite <- (master_std words pass OW OP LW LP). generalize (mnemonic_seed words pass). intros seed.
  destruct (bip32_master sha512Hmac seed) as [[mk mc]|] eqn:M; [|reflexivity]. symmetry. exact (derive_std path mk mc (master_keyed _ _ _ M)).
Qed.
Lemma wallet_key : forall net path k c, Forall (fun w => 0 <= w < 2^32) path -> skey path = Some (k, c) ->
  hk_num (wallet net path) = k /\ hk_chain (wallet net path) = c /\ keyed k c.
Proof. intros net path k c F E. rewrite seed_key_std in E. unfold from_mnemonic. exact (seed_derive sha512Hmac hash160 hmac512_shape rz RZ _ net path k c F E). Qed.
Lemma hash_len_std : forall k, hash160 (std_public k) = hash' (std_public k).
Proof. intros k. destruct (public_ok k) as [O L]. apply hash_std; [exact O|]. rewrite L. reflexivity. Qed.
Lemma witness_ok : forall h, bytes_ok h -> length h = 20%nat -> bytes_ok (witness_script 0 h) /\ len (witness_script 0 h) < 2^32.
Proof.
  intros h O L. unfold witness_script. change (0 =? 0) with true. cbv iota. assert (E : len h = 20) by (rewrite len_nat, L; reflexivity). rewrite E. split.
  - constructor; [unfold byte_ok; lia|constructor; [unfold byte_ok; lia|exact O]].
  - rewrite len_app, E. reflexivity.
Qed.
Lemma paid_std : forall t k, paid_script hash160 t (std_public k) = paid_script hash' t (std_public k).
Proof.
  intros t k. destruct (hash160_shape (std_public k)) as [L O]. destruct (witness_ok _ O L) as [A B].
  unfold paid_script. rewrite <- hash_len_std, (hash_std _ A B). reflexivity.
Qed.
Lemma check_std : forall payload text, bytes_ok payload -> len payload < 2^32 -> HD.base58check_text doubleSha payload text -> HD.base58check_text dsha' payload text.
Proof. intros payload text O L B. unfold HD.base58check_text in *. rewrite <- dsha_std by auto. exact B. Qed.
Lemma address_std : forall (test : bool) bs text, address_of doubleSha (if test then test_chain else main_chain) bs text -> address_of dsha' (if test then test_chain else main_chain) bs text.
Proof.
  intros test bs text A. inversion A as [h t O L B|h t O L B|h t O L B|h t O L B]; subst.
  - apply addr_pkh; auto. apply check_std; [constructor; [destruct test; unfold byte_ok; cbn; lia|exact O]|rewrite len_cons; lia|exact B].
  - apply addr_sh; auto. apply check_std; [constructor; [destruct test; unfold byte_ok; cbn; lia|exact O]|rewrite len_cons; lia|exact B].
  - apply addr_wpkh; auto.
  - apply addr_wsh; auto.
Qed.
Definition account (p : Z) (test : bool) (a : Z) : list Z := [2^31 + p; 2^31 + (if test then 1 else 0); 2^31 + a].
Lemma account_range : forall t p test a l, purpose t = Some p -> 0 <= a < 2^31 -> Forall (fun i => 0 <= i < 2^31) l -> Forall (fun w => 0 <= w < 2^32) (account p test a ++ l).
Proof.
  intros t p test a l PU A F. apply Forall_app. split.
  - unfold account. assert (0 <= p < 100) by (destruct t; try discriminate; injection PU as <-; lia). repeat constructor; try lia; destruct test; lia.
  - eapply Forall_impl; [|exact F]. intros x X. cbv beta in X. lia.
Qed.
Lemma account_address : forall net t p test a l, purpose t = Some p -> 0 <= a < 2^31 -> Forall (fun i => 0 <= i < 2^31) l ->
  skey (account p test a ++ l) <> None ->
  exists text, wallet_address rz (wallet net (account p test a ++ l)) = Ok text /\ std_address K H K5 H5 C C' words pass t test (account p test a ++ l) text.
Proof.
  intros net t p test a l PU A F NN. pose proof (account_range t p test a l PU A F) as FR. destruct (skey (account p test a ++ l)) as [[k c]|] eqn:E; [clear NN|congruence].
  destruct (wallet_key net _ k c FR E) as (Q1 & Q2 & KC).
  destruct (account_shows doubleSha hash160 sha512Hmac mulG (fun m => proj2 (doubleSha_word m)) (fun m => proj1 (doubleSha_word m)) (fun m => proj1 (hash160_shape m)) (fun m => proj2 (hash160_shape m))
    (mnemonic_seed words pass) net t p test a l PU A F) as (bs & text & PS & AD & ST).
  exists text. split; [exact ST|]. exists k, c, bs. split; [exact E|]. split; [|exact (address_std test bs text AD)].
  rewrite <- paid_std, <- (public_code rz RZ k c KC). rewrite <- PS. fold (account p test a). unfold from_mnemonic in Q1. rewrite Q1. reflexivity.
Qed.

(** ** Texts *)
Lemma prv_number_ok : forall test t v, prv_number test t = Some v -> prv_version (net_of test) t = be_bytes 4 v.
Proof. intros test t v E. unfold prv_number in E. destruct test, t; try discriminate; cbn [slip132_prv] in E; injection E as <-; reflexivity. Qed.
Lemma pub_number_ok : forall test t v, pub_number test t = Some v -> pub_version (net_of test) t = be_bytes 4 v.
Proof. intros test t v E. unfold pub_number in E. destruct test, t; try discriminate; cbn [slip132_pub] in E; injection E as <-; reflexivity. Qed.
Lemma bip32_ok : forall v d fp i c key, byte_ok d -> bytes_ok fp -> length fp = 4%nat -> word256 c -> bytes_ok key -> len key = 33 ->
  bytes_ok (bip32_bytes v d fp i c key) /\ len (bip32_bytes v d fp i c key) < 2^32.
Proof.
  intros v d fp i c key D FO FL WC KO KL. unfold bip32_bytes. split.
  - apply bytes_ok_app; split; [apply be_bytes_ok|]. apply bytes_ok_app; split; [constructor; [exact D|constructor]|]. apply bytes_ok_app; split; [exact FO|].
    apply bytes_ok_app; split; [apply be_bytes_ok|]. apply bytes_ok_app; split; [apply WC|exact KO].
  - rewrite !len_app, KL, (word_len c WC), !(len_nat (be_bytes _ _)), !be_bytes_length, (len_nat fp), FL. reflexivity.
Qed.
Lemma account_kinds : forall net t p test a l, purpose t = Some p -> 0 <= a < 2^31 -> Forall (fun i => 0 <= i < 2^31) l ->
  hk_type (wallet net (account p test a ++ l)) = t /\ hk_net (wallet net (account p test a ++ l)) = net_of test.
Proof.
  intros net t p test a l PU A F. unfold from_mnemonic. generalize (mnemonic_seed words pass). intros seed. destruct (account_kind hash160 sha512Hmac mulG seed net t p test a PU A) as [KT KN].
  rewrite derive_app. destruct (low_kind hash160 sha512Hmac mulG l (derive (from_seed sha512Hmac seed net) (account p test a)) F) as [-> ->]. split; [exact KT|exact KN].
Qed.
Lemma last_key : forall net path i, Forall (fun w => 0 <= w < 2^32) (path ++ [i]) -> len path < 255 -> skey (path ++ [i]) <> None ->
  exists k c k' c', skey path = Some (k, c) /\ skey (path ++ [i]) = Some (k', c') /\ keyed k c /\ keyed k' c' /\
    let w := wallet net (path ++ [i]) in hk_num w = k' /\ hk_chain w = c' /\ hk_depth w = len path + 1 /\ hk_fp w = firstn 4 (hash' (std_public k)) /\ hk_child w = i /\ hk_prefix w = zeros 4.
Proof. intros net path i F D NN. rewrite !seed_key_std in *. unfold from_mnemonic. destruct (seed_last sha512Hmac hash160 hmac512_shape rz RZ _ net path i F D NN) as (k & c & k' & c' & A & B & KC & KC' & W).
  rewrite hash_len_std in W. exists k, c, k', c'. split; [exact A|]. split; [exact B|]. split; [exact KC|]. split; [exact KC'|]. exact W. Qed.
Lemma sized_valued : forall w i (d : Z), word256 (hk_num w) -> word256 (hk_chain w) -> length (hk_fp w) = 4%nat -> bytes_ok (hk_fp w) -> hk_prefix w = zeros 4 -> hk_depth w = d -> 0 <= d < 256 ->
  hk_child w = i -> 0 <= i < 2^32 -> hk_sized w /\ hk_valued w.
Proof.
  intros w i d W1 W2 L O P D D' I I'. split.
  - split; [apply W1|]. split; [apply W2|]. split; [exact L|]. rewrite P. reflexivity.
  - split; [apply W1|]. split; [apply W2|]. split; [exact O|]. split; [unfold byte_ok; lia|lia].
Qed.
Lemma account_texts : forall net t p test a l path i v v', purpose t = Some p -> 0 <= a < 2^31 -> Forall (fun i => 0 <= i < 2^31) l ->
  account p test a ++ l = path ++ [i] -> len path < 255 -> prv_number test t = Some v -> pub_number test t = Some v' -> skey (path ++ [i]) <> None ->
  exists xprv xpub, wallet_xprv (wallet net (path ++ [i])) = Ok xprv /\ wallet_xpub rz (wallet net (path ++ [i])) = Ok xpub /\
    std_text K H K5 H5 C C' words pass v (fun k => 0 :: k) path i xprv /\ std_text K H K5 H5 C C' words pass v' std_public path i xpub.
Proof.
  intros net t p test a l path i v v' PU A F EP D V V' NN. pose proof (account_range t p test a l PU A F) as FR. destruct (account_kinds net t p test a l PU A F) as [KT KN]. rewrite EP in *.
  destruct (last_key net path i FR D NN) as (k & c & k' & c' & E & E' & KC & KC' & W). cbv zeta in W. set (w := wallet net (path ++ [i])) in *. clearbody w. destruct W as (Q1 & Q2 & Q3 & Q4 & Q5 & Q6).
  pose proof (proj2 (proj1 (Forall_app _ _ _) FR)) as F2. apply Forall_cons_iff in F2 as [FI _]. pose proof (len_nonneg _ path) as LN.
  assert (FP : length (firstn 4 (hash' (std_public k))) = 4%nat /\ bytes_ok (firstn 4 (hash' (std_public k)))).
  { rewrite <- hash_len_std. destruct (hash160_shape (std_public k)) as [L O]. split; [rewrite firstn_length, L; reflexivity|apply bytes_ok_firstn; exact O]. }
  destruct FP as [FL FO].
  assert (SV : hk_sized w /\ hk_valued w). { apply (sized_valued w i (len path + 1)); auto; try lia; rewrite ?Q1, ?Q2, ?Q4; auto; [apply KC'|apply KC']. }
  destruct SV as [SZ VL].
  assert (IT : is_test (net_of test) test) by (destruct test; [right; split; [left; reflexivity|reflexivity]|left; split; reflexivity]).
  destruct (xprv_form doubleSha (fun m => proj2 (doubleSha_word m)) (fun m => proj1 (doubleSha_word m)) w test SZ VL) as (xprv & X1 & _ & _ & X2); [rewrite KN; exact IT|].
  assert (PC : sec_of (mulG k') = std_public k') by (rewrite sec_compressed; exact (public_code rz RZ k' c' KC')).
  assert (PW : bytes_ok (mulG k') /\ length (mulG k') = 64%nat).
  { rewrite (code_mulG_ok rz k' RZ (proj1 KC')). destruct (ec_mul (number k') gen) as [[x y]|]; cbn [point_bytes]; [split; [apply coords_ok|apply coords_len]|split; [apply bytes_ok_zeros|apply repeat_length]]. }
  assert (SP : hp_sized (to_pub mulG w) /\ hp_valued (to_pub mulG w)).
  { destruct SZ as (S1 & S2 & S3 & S4). destruct VL as (V1 & V2 & V3 & V4 & V5). unfold to_pub. split; [split; [|split; [|split]]|split; [|split; [|split; [|split]]]]; cbn [hp_point hp_chain hp_fp hp_prefix hp_depth hp_child]; auto; rewrite Q1; apply PW. }
  destruct (xpub_form doubleSha (fun m => proj2 (doubleSha_word m)) (fun m => proj1 (doubleSha_word m)) (to_pub mulG w) test (proj1 SP) (proj2 SP)) as (xpub & Y1 & _ & _ & Y2); [unfold to_pub; cbn [hp_net]; rewrite KN; exact IT|].
  exists xprv, xpub. split; [exact X1|]. split; [exact Y1|].
  assert (BD : byte_ok (len path + 1)) by (unfold byte_ok; lia).
  split; exists k, c, k', c'; (split; [exact E|]; split; [exact E'|]).
  - assert (HX : hk_hex w = bip32_bytes v (len path + 1) (firstn 4 (hash' (std_public k))) i c' (0 :: k')).
    { unfold hk_hex, bip32_bytes. rewrite KT, KN, Q1, Q2, Q3, Q4, Q5, be32_spec, (prv_number_ok test t v V). reflexivity. }
    rewrite HX in X2. destruct (bip32_ok v (len path + 1) (firstn 4 (hash' (std_public k))) i c' (0 :: k') BD FO FL (proj2 KC')) as [B1 B2].
    + constructor; [unfold byte_ok; lia|apply KC'].
    + rewrite len_cons, (word_len k' (proj1 (proj1 KC'))). reflexivity.
    + exact (check_std _ _ B1 B2 X2).
  - assert (HX : hp_hex (to_pub mulG w) = bip32_bytes v' (len path + 1) (firstn 4 (hash' (std_public k))) i c' (std_public k')).
    { unfold hp_hex, bip32_bytes, to_pub. cbn [hp_net hp_type hp_depth hp_fp hp_child hp_chain hp_point]. rewrite KT, KN, Q1, Q2, Q3, Q4, Q5, be32_spec, (pub_number_ok test t v' V'), <- PC. reflexivity. }
    rewrite HX in Y2. destruct (public_ok k') as [PO PL]. destruct (bip32_ok v' (len path + 1) (firstn 4 (hash' (std_public k))) i c' (std_public k') BD FO FL (proj2 KC') PO PL) as [B1 B2].
    exact (check_std _ _ B1 B2 Y2).
Qed.
End Std.
