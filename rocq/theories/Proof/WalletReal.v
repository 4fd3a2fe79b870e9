(** Accounts, and watch-only wallets with the library's own operators and hashes. *)
From Coq Require Import Lia.
From Verif Require Import Base.Bytes Base.BytesFacts Model.Conversion Model.Networks Model.Sign Model.HD Model.Address Model.Stream Model.Hash Model.Text Model.Point Model.PointOps Model.Wallet
  Spec.Codecs Spec.Bech32 Spec.Wire Spec.Address Spec.HD Spec.Keys Spec.Text Spec.Scalar Spec.Point Spec.Curve Spec.Schemes Spec.Bignum Spec.Wallet
  Proof.HDFacts Proof.HDProps Proof.HDPub Proof.HashShape Proof.HDReal Proof.PointFacts Proof.PointProps Proof.PointHD Proof.SchemeProps Proof.WalletFacts Proof.WalletProps.
Open Scope Z_scope.

Section Accounts.
Variable dsha hash160 : list Z -> list Z.
Variable hmac512 : list Z -> list Z -> list Z.
Variable mulG : list Z -> list Z.
Notation child := (hk_child_of hmac512 hash160 mulG).
Notation derive := (hk_derive hmac512 hash160 mulG).
Lemma low_kind : forall l k, Forall (fun i => 0 <= i < 2^31) l -> hk_type (derive k l) = hk_type k /\ hk_net (derive k l) = hk_net k.
Proof.
  induction l as [|i l IH]; intros k F; [auto|]. inversion F; subst. unfold hk_derive in *. cbn [fold_left]. destruct (IH (child k i false) H2) as [-> ->].
  unfold hk_child_of. cbn [hk_type hk_net]. unfold HARDENED_INDEX, child_type, child_net. destruct (Z.leb_spec 0x80000000 i); [lia|]. auto.
Qed.
Lemma account_kind : forall seed net t p test a, purpose t = Some p -> 0 <= a < 2^31 ->
  let k := derive (from_seed hmac512 seed net) [2^31 + p; 2^31 + (if test : bool then 1 else 0); 2^31 + a] in hk_type k = t /\ hk_net k = net_of test.
Proof.
  intros seed net t p test a PU A. unfold hk_derive. cbn [fold_left]. unfold from_seed. unfold hk_child_of at 1 4. cbn [hk_type hk_net hk_depth].
  unfold hk_child_of. cbn [hk_type hk_net hk_depth]. unfold HARDENED_INDEX.
  replace (0x80000000 <=? 2^31 + a) with true by (symmetry; apply Z.leb_le; lia).
  replace (2^31 + a <? 0x80000000) with false by (symmetry; apply Z.ltb_ge; lia).
  destruct t; try discriminate; injection PU as <-; destruct test; split; reflexivity.
Qed.
Hypothesis dsha_len : forall m, length (dsha m) = 32%nat.
Hypothesis dsha_ok : forall m, bytes_ok (dsha m).
Hypothesis hash_len : forall m, length (hash160 m) = 20%nat.
Hypothesis hash_ok : forall m, bytes_ok (hash160 m).
Lemma key_shows : forall k c bs, chain_of (hk_net k) c -> paid_script hash160 (hk_type k) (compressed (mulG (hk_num k))) = Some bs ->
  (exists text, address_of dsha c bs text /\ hk_address_string dsha hash160 mulG k = Ok text) /\
  forall buffer, 76 <= len buffer -> exists text r, address_of dsha c bs text /\ hk_address dsha hash160 mulG k buffer = Ok (r, text ++ zeros (length buffer - length text)).
Proof.
  intros k c bs HC PS. rewrite <- sec_compressed in PS.
  assert (SH : shown hash160 (hk_type k) (sec_of (mulG (hk_num k))) = bs) by (unfold shown; rewrite PS; reflexivity). split.
  - destruct (kstring_text dsha hash160 dsha_len dsha_ok hash_len hash_ok (hk_type k) (hk_net k) c (sec_of (mulG (hk_num k))) HC) as (text & A & E & _).
    exists text. rewrite SH in A. split; [exact A|]. rewrite hk_kstring. exact E.
  - intros buffer LB. destruct (kaddr_text dsha hash160 dsha_len dsha_ok hash_len hash_ok (hk_type k) (hk_net k) c (sec_of (mulG (hk_num k))) buffer HC LB) as (text & r & A & E).
    exists text, r. rewrite SH in A. split; [exact A|]. rewrite hk_kaddr. exact E.
Qed.
(** Types of several keys. *)
Lemma multi_shows : forall k c, chain_of (hk_net k) c -> purpose (hk_type k) = None ->
  exists text, address_of dsha c (witness_script 0 (hash160 (compressed (mulG (hk_num k))))) text /\ hk_address_string dsha hash160 mulG k = Ok text.
Proof.
  intros k c HC PU. destruct (kstring_text dsha hash160 dsha_len dsha_ok hash_len hash_ok (hk_type k) (hk_net k) c (sec_of (mulG (hk_num k))) HC) as (text & A & E & _).
  exists text. rewrite <- sec_compressed, hk_kstring. split; [|exact E]. unfold shown, paid_script in A. destruct (hk_type k); try discriminate; exact A.
Qed.
Lemma account_shows : forall seed net t p test a l, purpose t = Some p -> 0 <= a < 2^31 -> Forall (fun i => 0 <= i < 2^31) l ->
  let k := derive (from_seed hmac512 seed net) ([2^31 + p; 2^31 + (if test : bool then 1 else 0); 2^31 + a] ++ l) in
  exists bs text, paid_script hash160 t (compressed (mulG (hk_num k))) = Some bs /\
    address_of dsha (if test then test_chain else main_chain) bs text /\ hk_address_string dsha hash160 mulG k = Ok text.
Proof.
  intros seed net t p test a l PU A F k. destruct (account_kind seed net t p test a PU A) as [KT KN]. 
  assert (TT : hk_type k = t /\ hk_net k = net_of test).
  { unfold k. rewrite derive_app. destruct (low_kind l (derive (from_seed hmac512 seed net) [2^31 + p; 2^31 + (if test then 1 else 0); 2^31 + a]) F) as [-> ->]. auto. }
  destruct TT as [T N].
  assert (PS : exists bs, paid_script hash160 t (compressed (mulG (hk_num k))) = Some bs) by (unfold paid_script; destruct t; try discriminate; eexists; reflexivity).
  destruct PS as (bs & PS). exists bs.
  assert (HC : chain_of (hk_net k) (if test then test_chain else main_chain)) by (rewrite N; destruct test; unfold chain_of; auto).
  destruct (key_shows k _ bs HC) as [(text & X & Y) _]; [rewrite T; exact PS|]. eauto.
Qed.
End Accounts.

Lemma fingerprints : forall dsha hash160 hmac512 mulG padd k i h out,
  hk_xpub dsha mulG k out = xpub_text dsha (to_pub mulG k) out /\
  hk_fingerprint hash160 mulG k = firstn 4 (hash160 (compressed (mulG (hk_num k)))) /\
  hp_fingerprint hash160 (to_pub mulG k) = hk_fingerprint hash160 mulG k /\
  hk_fp (hk_child_of hmac512 hash160 mulG k i h) = hk_fingerprint hash160 mulG k /\
  hp_fp (hp_child_of hmac512 hash160 mulG padd (to_pub mulG k) i) = hk_fingerprint hash160 mulG k.
Proof.
  intros. split; [apply to_pub_xpub|]. split; [unfold hk_fingerprint; rewrite sec_compressed; reflexivity|]. split; [symmetry; apply to_pub_fp|].
  split; [apply child_fp|]. rewrite child_fp_pub. symmetry. apply to_pub_fp.
Qed.
Lemma code_point : forall rz num, random_below field_prime rz -> word256 num -> 0 < number num < group_order ->
  exists x y, code_mulG rz num = coords x y /\ on_curve x y.
Proof.
  intros rz num R W V. destruct (mul_curve (number num) V) as (x & y & E & O). exists x, y. split; [|exact O].
  assert (SC : is_scalar num) by (split; [exact W|apply V]). rewrite (code_mulG_ok rz num R SC), E. reflexivity.
Qed.
Lemma real_imported : forall rz garbage l k k0, random_below field_prime rz -> hk_sized k -> hk_valued k -> In (hk_net k) networks -> 0 < be_val 256 (hk_num k) < group_order ->
  hp_sized k0 -> hp_status k0 = DONE -> Forall (fun i => 0 <= i < 2^31) l ->
  exists n w, hp_from_str doubleSha uncompress_pubkey pt_valid_bytes garbage k0 (hp_xpub_string doubleSha (to_pub (code_mulG rz) k)) = Ok (n, w) /\ hp_status w = DONE /\
    (hp_address_string doubleSha hash160 (hp_derive sha512Hmac hash160 (code_mulG rz) code_padd w l) =
       hk_address_string doubleSha hash160 (code_mulG rz) (hk_derive sha512Hmac hash160 (code_mulG rz) k l) <->
     hk_type k <> P2PKH /\ (hk_net k = Regtest -> hk_type k = P2SH_P2WPKH)).
Proof.
  intros rz garbage l k k0 R S V I NR S0 D0 F. pose proof S as (S1 & _). pose proof V as (V1 & _).
  destruct (code_point rz (hk_num k) R (conj V1 S1) NR) as (x & y & E & O).
  assert (DL : forall m, length (doubleSha m) = 32%nat) by (intros; apply doubleSha_word). assert (DB : forall m, bytes_ok (doubleSha m)) by (intros; apply doubleSha_word).
  assert (HL : forall m, length (hash160 m) = 20%nat) by (intros; apply hash160_shape). assert (HB : forall m, bytes_ok (hash160 m)) by (intros; apply hash160_shape).
  assert (ML : forall a m, length (sha512Hmac a m) = 64%nat) by (intros; apply hmac512_shape). assert (MB : forall a m, bytes_ok (sha512Hmac a m)) by (intros; apply hmac512_shape).
  assert (PL : length (code_mulG rz (hk_num k)) = 64%nat) by (rewrite E; apply coords_len). assert (PB : bytes_ok (code_mulG rz (hk_num k))) by (rewrite E; apply coords_ok).
  assert (U : uncompress_pubkey (sec_of (code_mulG rz (hk_num k))) garbage = Ok (code_mulG rz (hk_num k))) by (rewrite E, sec_of_coords; apply uncompress_coords_ok; exact O).
  assert (PV : pt_valid_bytes (code_mulG rz (hk_num k)) = true) by (rewrite E; apply valid_bytes_ok; exact O).
  destruct (imported doubleSha hash160 DL DB uncompress_pubkey pt_valid_bytes garbage sha512Hmac (code_mulG rz) code_padd (code_hom rz R) ML MB HL HB l k k0 S V I (proj2 NR) PL PB S0 D0 U PV F)
    as (n & w & A & B & _ & _ & _ & D).
  exists n, w. split; [exact A|]. split; [exact B|exact D].
Qed.
