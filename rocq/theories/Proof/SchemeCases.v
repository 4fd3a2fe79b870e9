(** Concrete cases of the statements about signatures. *)
From Coq Require Import Lia Znumtheory Setoid Morphisms.
From Verif Require Import Base.Bytes Base.BytesFacts Base.Curve Spec.Bignum Spec.Codecs Spec.Wire Spec.Objects Spec.Hash Spec.Keys Spec.Scalar Spec.Point Spec.Curve Spec.Schemes
  Model.Bignum Model.Scalar Model.Stream Model.Point Model.EC Model.ECDSA Model.Hash Model.Signature Model.PointOps
  Proof.IntVarint Proof.ScalarProps Proof.PointFacts Proof.PointProps Proof.CurveFacts Proof.EcField Proof.EcGroup Proof.HashSha
  Proof.EcMult Proof.EcTable Proof.EcOrder Proof.EcApi Proof.EcdsaFacts Proof.EcdsaSign Proof.EcInf Proof.PointOpsFacts Proof.HashProps Proof.SchemeProps Proof.SchnorrProps Proof.SchemeMain Proof.SchemeMore Proof.SignHints Proof.SignExample Proof.HashInst.
Open Scope Z_scope.

Lemma key_made : forall rz d c, random_below P rz -> word256 d -> 0 < number d < N ->
  exists key, prv_make rz d c = Ok key /\ prv_num key = d /\ pt_xy (prv_pub key) = point_bytes (ec_mul (number d) gen) /\ pt_comp (prv_pub key) = c.
Proof.
  intros rz d c R W D. assert (S : is_scalar d) by (split; [auto|lia]). destruct (prv_make_ok rz d c R S) as (p & E & X & CC & _). exists (mkPrv d p). auto.
Qed.
Lemma sign_rfc : forall K H, fips_constants fips256 K H -> forall rz randk d p hash j r s id,
  (forall i, random_below P (rz i)) -> (forall i, random_below N (randk i)) -> is_scalar d -> word256 hash -> number hash < N ->
  (j < Z.to_nat 10000)%nat ->
  (forall j', (j' < j)%nat -> ~ ecdsa_usable (number d) (number hash) (rfc6979_nonce (rfc2104 (fips_hash fips256 K H) 64) (number d) hash j')) ->
  ecdsa_signature (number d) (number hash) (rfc6979_nonce (rfc2104 (fips_hash fips256 K H) 64) (number d) hash j) r s id ->
  exists g, prv_sign rz randk (mkPrv d p) hash = Ok g /\ sg_r g = be_bytes 32 r /\ sg_s g = be_bytes 32 s /\ sg_index g = id.
Proof.
  intros K H C rz randk d p hash j r s id R RK SD WH L J FI SG. apply (sign_first K H C rz randk d p hash j r s id R RK SD WH J).
  - intros j' J'. rewrite raw_rfc by (auto; apply SD). auto.
  - rewrite raw_rfc by (auto; apply SD). exact SG.
Qed.
Lemma one_scalar : is_scalar one /\ number one = 1.
Proof. assert (V : number one = 1) by reflexivity. split; [split; [apply scalar_word|rewrite V; reflexivity]|exact V]. Qed.
Lemma satoshi_word : word256 satoshi_hash. Proof. apply scalar_word. Qed.
Lemma satoshi_num : number satoshi_hash mod N <> 0 /\ number satoshi_hash < N. Proof. vm_compute. split; [discriminate|reflexivity]. Qed.
Lemma gen_1 : ec_mul 1 gen = gen.
Proof. rewrite ec_mul_smul by lia. apply smul_1. Qed.
Lemma satoshi_case : forall rz0 rz randk rz1 rz2, random_below P rz0 -> (forall i, random_below P (rz i)) -> (forall i, random_below N (randk i)) ->
  random_below P rz1 -> random_below P rz2 ->
  exists key g, prv_make rz0 (be_bytes 32 1) true = Ok key /\
    prv_sign rz randk key (fips_hash fips256 K256 H256 (chars "Satoshi Nakamoto")) = Ok g /\
    sg_r g = be_bytes 32 0x934b1ea10a4b3c1757e2b0c017d0b6143ce3c9a7e6a4a49860d7a6ab210ee3d8 /\
    sg_s g = be_bytes 32 0x2442ce9d2b916064108014783e923ec36b49743e2ffa1c4496f01a512aafd9e5 /\ sg_index g = 1 /\
    pk_verify rz1 rz2 (prv_pub key) g (fips_hash fips256 K256 H256 (chars "Satoshi Nakamoto")) = Ok true.
Proof.
  intros rz0 rz randk rz1 rz2 R0 R RK R1 R2. rewrite <- satoshi_sha. fold one. destruct one_scalar as [S1 V1]. destruct (prv_make_ok rz0 one true R0 S1) as (p & E & X & _).
  exists (mkPrv one p). pose proof satoshi_sig as SG. rewrite <- satoshi_nonce in SG. rewrite <- V1 in SG at 1.
  destruct (sign_first K256 H256 constants256 rz randk one p satoshi_hash 0 _ _ _ R RK S1 satoshi_word ltac:(lia) ltac:(intros j' J'; inversion J') SG) as (g & EG & ER & ES & EI).
  exists g. repeat (split; [assumption|]). cbn [prv_pub]. apply (signed_verifies rz1 rz2 (number one) p g satoshi_hash _ _ _ _ R1 R2 ltac:(rewrite V1; split; reflexivity) X satoshi_word (proj1 satoshi_num) ER ES SG).
Qed.
Lemma random_five : random_below P [5; 0; 0; 0; 0; 0; 0; 0; 0] /\ random_below N [5; 0; 0; 0; 0; 0; 0; 0; 0].
Proof.
  assert (NN : normalized [5; 0; 0; 0; 0; 0; 0; 0; 0]) by (apply norm_chk_ok; reflexivity). pose proof P_range as PR.
  assert (V : bn_val [5; 0; 0; 0; 0; 0; 0; 0; 0] = 5) by reflexivity. split; (split; [exact NN|]); rewrite V; [lia|split; reflexivity].
Qed.
Lemma satoshi_valid : ecdsa_valid gen (number (fips_hash fips256 K256 H256 (chars "Satoshi Nakamoto")))
  0x934b1ea10a4b3c1757e2b0c017d0b6143ce3c9a7e6a4a49860d7a6ab210ee3d8 0x2442ce9d2b916064108014783e923ec36b49743e2ffa1c4496f01a512aafd9e5 /\
  number (fips_hash fips256 K256 H256 (chars "Satoshi Nakamoto")) mod N <> 0.
Proof. rewrite <- satoshi_sha. split; [|apply satoshi_num]. rewrite <- gen_1. apply (signature_valid 1 _ satoshi_k _ _ 1); [lia|exact satoshi_sig]. Qed.
Lemma zero_case : exists r s id, ecdsa_signature 1 (number (zeros 32)) 1 r s id.
Proof.
  exists gen_x, (Z.min gen_x (N - gen_x)). eexists. split; [split; reflexivity|]. exists gen_x, gen_y, 1, gen_x. split; [exact gen_1|]. repeat split; vm_compute; try discriminate; reflexivity.
Qed.
Lemma recover_case : exists x y, ec_mul 1 gen = Some (x, y) /\ ecdsa_signature 1 (number (fips_hash fips256 K256 H256 (chars "Satoshi Nakamoto"))) satoshi_k
  0x934b1ea10a4b3c1757e2b0c017d0b6143ce3c9a7e6a4a49860d7a6ab210ee3d8 0x2442ce9d2b916064108014783e923ec36b49743e2ffa1c4496f01a512aafd9e5 1.
Proof. exists gen_x, gen_y. split; [exact gen_1|]. rewrite <- satoshi_sha. exact satoshi_sig. Qed.
Lemma satoshi_rfc : rfc6979_nonce (rfc2104 (fips_hash fips256 K256 H256) 64) 1 (fips_hash fips256 K256 H256 (chars "Satoshi Nakamoto")) 0 = satoshi_k.
Proof. rewrite <- satoshi_sha. destruct one_scalar as [S1 V1]. rewrite <- V1. rewrite <- (raw_rfc K256 H256) by first [exact satoshi_word|exact (proj1 S1)|apply satoshi_num]. exact satoshi_nonce. Qed.
Lemma wide_refuted : exists d hash, is_scalar d /\ 0 < number d /\ word256 hash /\
  ecdsa_usable (number d) (number hash) (rfc6979_number (rfc2104 (fips_hash fips256 K256 H256) 64) d hash 0) /\
  forall rz randk p, (forall i, random_below P (rz i)) -> (forall i, random_below N (randk i)) ->
  exists g, prv_sign rz randk (mkPrv d p) hash = Ok g /\ forall id,
    ~ ecdsa_signature (number d) (number hash) (rfc6979_nonce (rfc2104 (fips_hash fips256 K256 H256) 64) (number d) hash 0) (number (sg_r g)) (number (sg_s g)) id.
Proof.
  exists one, wide_hash. destruct one_scalar as [S1 V1]. split; [exact S1|]. split; [rewrite V1; reflexivity|]. assert (WH : word256 wide_hash) by apply scalar_word. split; [exact WH|].
  pose proof wide_sig as SG. rewrite <- wide_nonce in SG. rewrite <- V1 in SG at 1. split; [eexists; eexists; eexists; exact SG|]. intros rz randk p R RK.
  destruct (sign_first K256 H256 constants256 rz randk one p wide_hash 0 _ _ _ R RK S1 WH ltac:(lia) ltac:(intros j' J'; inversion J') SG) as (g & EG & ER & ES & EI).
  exists g. split; [exact EG|]. intros id SG2. rewrite ER, ES in SG2. rewrite !scalar_of_num in SG2 by (split; [discriminate|reflexivity]).
  rewrite V1 in *. rewrite wide_reduced in SG2. rewrite wide_nonce in SG. destruct (nonce_unique _ _ _ _ _ _ _ _ SG SG2) as [Q|Q]; revert Q; vm_compute; discriminate.
Qed.
