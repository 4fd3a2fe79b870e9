(** Watch-only wallets. *)
From Coq Require Import Lia.
From Verif Require Import Base.Bytes Base.BytesFacts Model.Conversion Model.Networks Model.Sign Model.HD Model.Address Model.Stream Model.Text Model.Wallet
  Spec.Codecs Spec.Bech32 Spec.Wire Spec.Address Spec.HD Spec.Keys Spec.Text Spec.Wallet
  Proof.BechFacts Proof.AddrFacts Proof.AddrProps Proof.HDFacts Proof.HDProps Proof.HDPub Proof.TextFacts Proof.WalletFacts.
Open Scope Z_scope.

(** What a text keeps of the type and the network. *)
Definition kept_type (t : script_type) : script_type :=
  match t with P2WPKH => P2WPKH | P2SH_P2WPKH => P2SH_P2WPKH | P2WSH => P2WSH | P2SH_P2WSH => P2SH_P2WSH | _ => UNKNOWN_TYPE end.
Definition kept_net (n n' : network) : Prop := (n = Mainnet /\ n' = Mainnet) \/ ((n = Testnet \/ n = Regtest) /\ n' = Testnet).
Lemma kept_some : forall n, In n networks -> exists test, kept_net n (net_of test).
Proof. intros n [<-|[<-|[<-|[<-|[]]]]]; [exists false; left; auto|exists true; right; auto|exists true; right; auto|exists true; right; auto]. Qed.

Lemma script_type_eq_dec : forall a b : script_type, {a = b} + {a <> b}.
Proof. decide equality. Defined.
Section Props.
Variable dsha hash160 : list Z -> list Z.
Hypothesis dsha_len : forall m, length (dsha m) = 32%nat.
Hypothesis dsha_ok : forall m, bytes_ok (dsha m).
Variable uncompress : list Z -> list Z -> outcome (list Z).
Variable pt_valid : list Z -> bool.
Variable garbage : list Z.

Lemma hp_xpub_text : forall k, hp_sized k -> hp_valued k -> In (hp_net k) networks ->
  base58check_text dsha (hp_hex k) (hp_xpub_string dsha k).
Proof.
  intros k S V I. destruct (hp_hex_facts uncompress pt_valid garbage k S V I) as (F1 & F2 & F3).
  destruct (text_writes dsha dsha_len dsha_ok (hp_hex k) (zeros 114) F1 F2 F3 ltac:(vm_compute; discriminate)) as (text & W & X).
  unfold hp_xpub_string, xpub_text. rewrite W. cbn [snd]. rewrite cstr_text by (eapply base_text_nonzero; eauto). exact X.
Qed.
Lemma import : forall k k0 n', hp_sized k -> hp_valued k -> kept_net (hp_net k) n' -> hp_sized k0 -> hp_status k0 = DONE ->
  uncompress (sec_of (hp_point k)) garbage = Ok (hp_point k) -> pt_valid (hp_point k) = true ->
  exists px, hp_from_str dsha uncompress pt_valid garbage k0 (hp_xpub_string dsha k) =
    Ok (len (hp_xpub_string dsha k), mkHp (hp_point k) (hp_chain k) (hp_depth k) (hp_fp k) (hp_child k) n' (kept_type (hp_type k)) px DONE 78).
Proof.
  intros k k0 n' S V KN S0 D0 U PV.
  assert (TE : exists test, n' = net_of test) by (destruct KN as [[_ ->]|[_ ->]]; [exists false|exists true]; reflexivity). destruct TE as (test & ->).
  assert (I : In (hp_net k) networks) by (destruct KN as [[-> _]|[[->| ->] _]]; cbn; auto).
  set (k1 := mkHp (hp_point k) (hp_chain k) (hp_depth k) (hp_fp k) (hp_child k) (net_of test) (kept_type (hp_type k)) (hp_prefix k) DONE 0).
  assert (E : hp_hex k = hp_hex k1).
  { unfold hp_hex, k1. cbn [hp_net hp_type hp_point hp_chain hp_depth hp_fp hp_child]. f_equal.
    destruct KN as [[-> ->]|[[->| ->] ->]]; destruct (hp_type k); reflexivity. }
  pose proof (hp_xpub_text k S V I) as X. destruct (hp_hex_facts uncompress pt_valid garbage k S V I) as (F1 & F2 & F3).
  destruct (slip132_pub test (kept_type (hp_type k))) as [v|] eqn:SL; [|destruct (hp_type k); discriminate].
  exists (be_bytes 4 v).
  unfold hp_from_str. rewrite (text_reads dsha dsha_len dsha_ok (hp_hex k) _ X F1 F3) by lia. rewrite F2. change (78 =? 0) with false. cbv iota.
  rewrite E. destruct (hp_roundtrip uncompress pt_valid garbage test (kept_type (hp_type k)) v k1 k0 (zeros (85 - length (hp_hex k1))) SL eq_refl eq_refl S V S0 D0 U PV) as [_ ->].
  reflexivity.
Qed.

Variable hmac512 : list Z -> list Z -> list Z.
Variable mulG : list Z -> list Z.
Variable padd : list Z -> list Z -> list Z.
Lemma hp_derive_key : forall l a b, hp_point a = hp_point b -> hp_chain a = hp_chain b ->
  hp_point (hp_derive hmac512 hash160 mulG padd a l) = hp_point (hp_derive hmac512 hash160 mulG padd b l) /\
  hp_chain (hp_derive hmac512 hash160 mulG padd a l) = hp_chain (hp_derive hmac512 hash160 mulG padd b l).
Proof.
  induction l as [|i l IH]; intros a b P C; [auto|]. unfold hp_derive. cbn [fold_left]. apply IH; unfold hp_child_of; cbn [hp_point hp_chain]; rewrite P, C; reflexivity.
Qed.
Lemma hp_derive_kind : forall l a, hp_type (hp_derive hmac512 hash160 mulG padd a l) = hp_type a /\ hp_net (hp_derive hmac512 hash160 mulG padd a l) = hp_net a.
Proof. induction l as [|i l IH]; intros a; [auto|]. unfold hp_derive. cbn [fold_left]. destruct (IH (hp_child_of hmac512 hash160 mulG padd a i)) as [T N]. unfold hp_derive in *. rewrite T, N. auto. Qed.

Lemma to_pub_address : forall k buffer, hk_address dsha hash160 mulG k buffer = hp_address dsha hash160 (to_pub mulG k) buffer.
Proof. intros. rewrite hk_kaddr, hp_kaddr. reflexivity. Qed.
Lemma to_pub_string : forall k, hk_address_string dsha hash160 mulG k = hp_address_string dsha hash160 (to_pub mulG k).
Proof. intros. rewrite hk_kstring, hp_kstring. reflexivity. Qed.
Lemma to_pub_xpub : forall k out, hk_xpub dsha mulG k out = xpub_text dsha (to_pub mulG k) out.
Proof. reflexivity. Qed.
Lemma to_pub_fp : forall k, hk_fingerprint hash160 mulG k = hp_fingerprint hash160 (to_pub mulG k).
Proof. reflexivity. Qed.
Lemma child_fp : forall k i h, hk_fp (hk_child_of hmac512 hash160 mulG k i h) = hk_fingerprint hash160 mulG k.
Proof. reflexivity. Qed.
Lemma child_fp_pub : forall k i, hp_fp (hp_child_of hmac512 hash160 mulG padd k i) = hp_fingerprint hash160 k.
Proof. reflexivity. Qed.

Hypothesis hom : forall a b, length a = 32%nat -> bytes_ok a -> length b = 32%nat -> bytes_ok b -> be_val 256 a < group_order -> be_val 256 b < group_order ->
    padd (mulG a) (mulG b) = mulG (be_bytes 32 ((be_val 256 a + be_val 256 b) mod group_order)).
Hypothesis hmac_len : forall k m, length (hmac512 k m) = 64%nat.
Hypothesis hmac_ok : forall k m, bytes_ok (hmac512 k m).

Lemma watch_same : forall l k buffer, length (hk_num k) = 32%nat -> bytes_ok (hk_num k) -> be_val 256 (hk_num k) < group_order ->
  Forall (fun i => 0 <= i < 2^31) l ->
  hp_address dsha hash160 (hp_derive hmac512 hash160 mulG padd (to_pub mulG k) l) buffer = hk_address dsha hash160 mulG (hk_derive hmac512 hash160 mulG k l) buffer /\
  hp_address_string dsha hash160 (hp_derive hmac512 hash160 mulG padd (to_pub mulG k) l) = hk_address_string dsha hash160 mulG (hk_derive hmac512 hash160 mulG k l).
Proof.
  intros l k buffer L B R F. rewrite to_pub_address, to_pub_string.
  rewrite (derive_pub hmac512 hash160 mulG padd hom hmac_len hmac_ok l k L B R F). auto.
Qed.

Hypothesis hash_len : forall m, length (hash160 m) = 20%nat.
Hypothesis hash_ok : forall m, bytes_ok (hash160 m).
Lemma chain_exists : forall n, In n networks -> exists c, chain_of n c.
Proof. intros n [<-|[<-|[<-|[<-|[]]]]]; [exists main_chain; left|exists test_chain; right; left|exists reg_chain; right; right; left|exists test_chain; right; left]; auto. Qed.
(** Imported and derived. *)
Lemma imported : forall l k k0, hk_sized k -> hk_valued k -> In (hk_net k) networks -> be_val 256 (hk_num k) < group_order ->
  length (mulG (hk_num k)) = 64%nat -> bytes_ok (mulG (hk_num k)) ->
  hp_sized k0 -> hp_status k0 = DONE ->
  uncompress (sec_of (mulG (hk_num k))) garbage = Ok (mulG (hk_num k)) -> pt_valid (mulG (hk_num k)) = true ->
  Forall (fun i => 0 <= i < 2^31) l ->
  exists n w, hp_from_str dsha uncompress pt_valid garbage k0 (hp_xpub_string dsha (to_pub mulG k)) = Ok (n, w) /\ hp_status w = DONE /\
    hp_type w = kept_type (hk_type k) /\ kept_net (hk_net k) (hp_net w) /\
    hp_point (hp_derive hmac512 hash160 mulG padd w l) = mulG (hk_num (hk_derive hmac512 hash160 mulG k l)) /\
    (hp_address_string dsha hash160 (hp_derive hmac512 hash160 mulG padd w l) = hk_address_string dsha hash160 mulG (hk_derive hmac512 hash160 mulG k l) <->
     hk_type k <> P2PKH /\ (hk_net k = Regtest -> hk_type k = P2SH_P2WPKH)).
Proof.
  intros l k k0 S V I R LP OP S0 D0 U PV F. pose proof S as (S1 & S2 & S3 & S4). pose proof V as (V1 & V2 & V3 & V4 & V5).
  assert (KN : exists n', kept_net (hk_net k) n') by (destruct (kept_some _ I) as (t & T); eauto). destruct KN as (n' & KN).
  destruct (import (to_pub mulG k) k0 n') as (px & E); [split; auto|split; [exact OP|]; split; [exact V2|]; split; [exact V3|]; split; [exact V4|exact V5]|exact KN|exact S0|exact D0|exact U|exact PV|].
  eexists. eexists. split; [exact E|]. cbn [hp_status hp_type hp_net]. split; [reflexivity|]. split; [reflexivity|]. split; [exact KN|].
  cbn [to_pub hp_point hp_chain hp_depth hp_fp hp_child hp_type]. set (w := mkHp _ _ _ _ _ _ _ _ _ _).
  pose proof (derive_pub hmac512 hash160 mulG padd hom hmac_len hmac_ok l k S1 V1 R F) as DP.
  destruct (hp_derive_key l w (to_pub mulG k) eq_refl eq_refl) as [EP _].
  destruct (hp_derive_kind l w) as [WT WN]. destruct (hp_derive_kind l (to_pub mulG k)) as [KT KN'].
  assert (PT : hp_point (hp_derive hmac512 hash160 mulG padd w l) = mulG (hk_num (hk_derive hmac512 hash160 mulG k l))) by (rewrite EP, <- DP; reflexivity).
  split; [exact PT|].
  rewrite hp_kstring, hk_kstring, PT, WT, WN.
  assert (HT : hk_type (hk_derive hmac512 hash160 mulG k l) = hk_type k) by (change (hp_type (to_pub mulG (hk_derive hmac512 hash160 mulG k l)) = hk_type k); rewrite DP; exact KT).
  assert (HN : hk_net (hk_derive hmac512 hash160 mulG k l) = hk_net k) by (change (hp_net (to_pub mulG (hk_derive hmac512 hash160 mulG k l)) = hk_net k); rewrite DP; exact KN').
  rewrite HT, HN. subst w. cbn [hp_type hp_net]. generalize (sec_of (mulG (hk_num (hk_derive hmac512 hash160 mulG k l)))). clear - KN dsha_len dsha_ok hash_len hash_ok. intros sec.
  assert (KT : forall n, hk_type k <> P2PKH -> kstring dsha hash160 (kept_type (hk_type k)) n sec = kstring dsha hash160 (hk_type k) n sec) by (intros n T; destruct (hk_type k); congruence || reflexivity).
  assert (TX : forall t n c, chain_of n c -> exists text, kstring dsha hash160 t n sec = Ok text /\ (t = P2PKH \/ t = P2SH_P2WPKH -> len text <= 35) /\ (t <> P2PKH -> t <> P2SH_P2WPKH -> len text = len (ch_hrp c) + 40)).
  { intros t n c HC. destruct (kstring_text dsha hash160 dsha_len dsha_ok hash_len hash_ok t n c sec HC) as (text & _ & A & B & D). eauto. }
  assert (CN' : exists c', chain_of n' c' /\ len (ch_hrp c') = 2) by (destruct KN as [[_ ->]|[_ ->]]; [exists main_chain|exists test_chain]; (split; [unfold chain_of; auto|reflexivity])).
  destruct CN' as (c' & CN' & LC').
  split.
  - intros EQ. split.
    + intros T. rewrite T in EQ. cbn [kept_type] in EQ.
      assert (CN : exists c, chain_of (hk_net k) c) by (destruct KN as [[-> _]|[[->| ->] _]]; [exists main_chain|exists test_chain|exists reg_chain]; unfold chain_of; auto 6). destruct CN as (c & CN).
      destruct (TX UNKNOWN_TYPE n' c' CN') as (a & A1 & _ & A3). destruct (TX P2PKH (hk_net k) c CN) as (b & B1 & B2 & _).
      rewrite A1, B1 in EQ. injection EQ as ->. specialize (A3 ltac:(discriminate) ltac:(discriminate)). specialize (B2 ltac:(auto)). lia.
    + intros RN. assert (N' : n' = Testnet) by (destruct KN as [[E _]|[_ E]]; [rewrite RN in E; discriminate|exact E]).
      destruct (script_type_eq_dec (hk_type k) P2SH_P2WPKH) as [|T1]; [auto|exfalso].
      destruct (script_type_eq_dec (hk_type k) P2PKH) as [T|T].
      * rewrite T, RN in EQ. cbn [kept_type] in EQ.
        destruct (TX UNKNOWN_TYPE n' c' CN') as (a & A1 & _ & A3). destruct (TX P2PKH Regtest reg_chain ltac:(unfold chain_of; auto)) as (b & B1 & B2 & _).
        rewrite A1, B1 in EQ. injection EQ as ->. specialize (A3 ltac:(discriminate) ltac:(discriminate)). specialize (B2 ltac:(auto)). lia.
      * rewrite KT, RN in EQ by auto.
        destruct (TX (hk_type k) n' c' CN') as (a & A1 & _ & A3). destruct (TX (hk_type k) Regtest reg_chain ltac:(unfold chain_of; auto)) as (b & B1 & _ & B3).
        rewrite A1, B1 in EQ. injection EQ as ->. specialize (A3 T T1). specialize (B3 T T1). change (len (ch_hrp reg_chain)) with 4 in B3. lia.
  - intros [T RN]. rewrite KT by auto. destruct KN as [[-> ->]|[[->|E] ->]]; [reflexivity|reflexivity|]. rewrite E, (RN E). reflexivity.
Qed.
End Props.
