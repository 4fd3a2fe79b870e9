(** C91: the statements. *)
From Coq Require Import Lia.
From Verif Require Import Base.Bytes Base.BytesFacts Spec.Codecs Spec.Hash Spec.Address Spec.HD Spec.Keys Spec.Scalar Spec.Curve Spec.Schemes Spec.Point Spec.Bignum Spec.Wallet Spec.Standard
  Model.Stream Model.Networks Model.Sign Model.HD Model.Hash Model.PointOps Model.Wallet Model.Account Proof.HDPub Proof.HDReal Proof.WalletFacts Proof.WalletProps Proof.StandardFacts.
Open Scope Z_scope.

Lemma path_address : forall K H K5 H5 C C', fips_constants fips256 K H -> fips_constants fips512 K5 H5 -> rmd_constants C C' ->
  forall rz, random_below field_prime rz -> forall words password, bytes_ok words -> bytes_ok password -> len words < 2^32 -> len password < 2^32 ->
  forall net t p (test : bool) a l pre cs post, purpose t = Some p -> 0 <= a < 2^31 -> Forall (fun i => 0 <= i < 2^31) l ->
  path_prefix pre -> path_suffix post -> Forall component_good cs -> len (pre ++ path_body cs ++ post) < 2^63 ->
  map child_number cs = [2^31 + p; 2^31 + (if test then 1 else 0); 2^31 + a] ++ l -> std_key K5 H5 words password (map child_number cs) <> None ->
  exists k text, wallet_derive rz (from_mnemonic words password net) (pre ++ path_body cs ++ post) = Ok k /\ wallet_address rz k = Ok text /\
    std_address K H K5 H5 C C' words password t test (map child_number cs) text.
Proof.
  intros K H K5 H5 C C' C2 C5 CR rz RZ words password OW OP LW LP net t p test a l pre cs post PU A F PP PS G L E NN.
  assert (NE : cs <> []) by (intros ->; discriminate).
  destruct (derive_path_good sha512Hmac hash160 (code_mulG rz) pre cs post (from_mnemonic words password net) PP PS NE G L) as [D _].
  rewrite E in *. destruct (account_address K H K5 H5 C C' C2 C5 CR rz RZ words password OW OP LW LP net t p test a l PU A F NN) as (text & T1 & T2).
  eexists. exists text. split; [exact D|]. split; [exact T1|exact T2].
Qed.
Lemma path_texts : forall K H K5 H5 C C', fips_constants fips256 K H -> fips_constants fips512 K5 H5 -> rmd_constants C C' ->
  forall rz, random_below field_prime rz -> forall words password, bytes_ok words -> bytes_ok password -> len words < 2^32 -> len password < 2^32 ->
  forall net t p (test : bool) a l pre cs post path i v v', purpose t = Some p -> 0 <= a < 2^31 -> Forall (fun i => 0 <= i < 2^31) l ->
  path_prefix pre -> path_suffix post -> Forall component_good cs -> len (pre ++ path_body cs ++ post) < 2^63 ->
  map child_number cs = [2^31 + p; 2^31 + (if test then 1 else 0); 2^31 + a] ++ l -> map child_number cs = path ++ [i] -> len path < 255 ->
  prv_number test t = Some v -> pub_number test t = Some v' -> std_key K5 H5 words password (path ++ [i]) <> None ->
  exists k xprv xpub, wallet_derive rz (from_mnemonic words password net) (pre ++ path_body cs ++ post) = Ok k /\
    wallet_xprv k = Ok xprv /\ wallet_xpub rz k = Ok xpub /\
    std_text K H K5 H5 C C' words password v (fun k => 0 :: k) path i xprv /\ std_text K H K5 H5 C C' words password v' std_public path i xpub.
Proof.
  intros K H K5 H5 C C' C2 C5 CR rz RZ words password OW OP LW LP net t p test a l pre cs post path i v v' PU A F PP PS G L E EP LN V V' NN.
  assert (NE : cs <> []) by (intros ->; discriminate).
  destruct (derive_path_good sha512Hmac hash160 (code_mulG rz) pre cs post (from_mnemonic words password net) PP PS NE G L) as [D _].
  assert (EA : account p test a ++ l = path ++ [i]) by (rewrite <- EP; symmetry; exact E). rewrite EP in D.
  destruct (account_texts K H K5 H5 C C' C2 C5 CR rz RZ words password OW OP LW LP net t p test a l path i v v' PU A F EA LN V V' NN) as (x & y & T).
  eexists. exists x, y. split; [exact D|exact T].
Qed.
Lemma number_of_key : forall dsha hash rz rz' k k' c, random_below field_prime rz -> random_below field_prime rz' -> keyed (hk_num k) c ->
  hk_num k' = hk_num k -> hk_type k' = hk_type k -> hk_net k' = hk_net k ->
  hk_address_string dsha hash (code_mulG rz) k = hk_address_string dsha hash (code_mulG rz') k'.
Proof.
  intros dsha hash rz rz' k k' c R R' KC N T W. rewrite !hk_kstring, N, T, W, (code_mulG_ok rz _ R (proj1 KC)), (code_mulG_ok rz' _ R' (proj1 KC)). reflexivity.
Qed.
Lemma address_same : forall K5 H5, fips_constants fips512 K5 H5 -> forall rz rz', random_below field_prime rz -> random_below field_prime rz' ->
  forall words password, bytes_ok words -> bytes_ok password -> len words < 2^32 -> len password < 2^32 ->
  forall net net' t p (test : bool) a l pre cs post, purpose t = Some p -> 0 <= a < 2^31 -> Forall (fun i => 0 <= i < 2^31) l ->
  path_prefix pre -> path_suffix post -> Forall component_good cs -> len (pre ++ path_body cs ++ post) < 2^63 ->
  map child_number cs = [2^31 + p; 2^31 + (if test then 1 else 0); 2^31 + a] ++ l -> std_key K5 H5 words password (map child_number cs) <> None ->
  exists k k', wallet_derive rz (from_mnemonic words password net) (pre ++ path_body cs ++ post) = Ok k /\
    wallet_derive rz' (from_mnemonic words password net') (pre ++ path_body cs ++ post) = Ok k' /\ wallet_address rz k = wallet_address rz' k'.
Proof.
  intros K5 H5 C5 rz rz' R R' words password OW OP LW LP net net' t p test a l pre cs post PU A F PP PS G L E NN.
  assert (NE : cs <> []) by (intros ->; discriminate).
  destruct (derive_path_good sha512Hmac hash160 (code_mulG rz) pre cs post (from_mnemonic words password net) PP PS NE G L) as [D _].
  destruct (derive_path_good sha512Hmac hash160 (code_mulG rz') pre cs post (from_mnemonic words password net') PP PS NE G L) as [D' _].
  eexists. eexists. split; [exact D|]. split; [exact D'|]. rewrite E in *.
  pose proof (account_range t p test a l PU A F) as FR. destruct (std_key K5 H5 words password _) as [[k c]|] eqn:Q; [clear NN|congruence].
  destruct (wallet_key K5 H5 C5 rz R words password OW OP LW LP net _ k c FR Q) as (Q1 & Q2 & KC).
  destruct (wallet_key K5 H5 C5 rz' R' words password OW OP LW LP net' _ k c FR Q) as (Q1' & Q2' & _).
  destruct (account_kinds rz words password net t p test a l PU A F) as [T1 T2]. destruct (account_kinds rz' words password net' t p test a l PU A F) as [T1' T2'].
  apply (number_of_key doubleSha hash160 rz rz' _ _ c R R'); unfold account in *.
  - rewrite Q1. exact KC.
  - rewrite Q1'. symmetry. exact Q1.
  - rewrite T1'. symmetry. exact T1.
  - rewrite T2'. symmetry. exact T2.
Qed.
