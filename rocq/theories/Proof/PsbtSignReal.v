(** PSBT::sign with the multiplication and the signatures of the code. *)
From Coq Require Import Lia Znumtheory.
From Verif Require Import Base.Bytes Base.BytesFacts Spec.Bignum Spec.Codecs Spec.Hash Spec.Wire Spec.Objects Spec.Keys Spec.HD Spec.Scalar Spec.Signature Spec.Point Spec.Sighash Spec.Curve Spec.Schemes Spec.PSBT Spec.PSBTSign
  Model.Stream Model.Script Model.Tx Model.Signature Model.Bignum Model.Point Model.Keys Model.HD Model.ECDSA Model.PointOps Model.PSBT Model.PSBTSign
  Proof.IntVarint Proof.HDPub Proof.ScalarProps Proof.PointFacts Proof.PointProps Proof.CurveFacts Proof.EcGroup Proof.EcOrder Proof.EcTable Proof.EcApi Proof.EcdsaFacts Proof.PointOpsFacts Proof.HDReal Proof.SchemeProps Proof.PsbtWrite Proof.PsbtSign.
Open Scope Z_scope.
Notation P := field_prime.
Notation N := group_order.

Lemma signatures_impl : forall (own own' : s_deriv -> Prop) (b b' : s_deriv -> s_psig -> Prop) l gs, signatures own b l gs ->
  (forall e, In e l -> (own e <-> own' e)) -> (forall e g, In e l -> own e -> b e g -> b' e g) -> signatures own' b' l gs.
Proof.
  intros own own' b b' l gs S. induction S as [|e l gs NO S IH|e g l gs O B S IH]; intros I1 I2.
  - constructor.
  - constructor 2; [rewrite <- I1; [auto|left; auto]|]. apply IH; intros; [apply I1; right; auto|apply I2; auto; right; auto].
  - constructor 3; [apply I1; [left; auto|auto]|apply I2; auto; left; auto|]. apply IH; intros; [apply I1; right; auto|apply I2; auto; right; auto].
Qed.

Section Real.
Variables K H : list Z.
Hypothesis C : fips_constants fips256 K H.
Notation hmac := (rfc2104 (fips_hash fips256 K H) 64).
Variables (dsha hash160 : list Z -> list Z) (hmac512 : list Z -> list Z -> list Z) (garbage : list Z) (rz : bn) (rzs rks : nat -> nat -> bn).
Hypothesis H20 : forall m, length (hash160 m) = 20%nat /\ bytes_ok (hash160 m).
Hypothesis H32 : forall m, word256 (dsha m).
Hypothesis H64 : forall k m, length (hmac512 k m) = 64%nat /\ bytes_ok (hmac512 k m).
Hypothesis RZ : random_below P rz.
Hypothesis RS : forall n i, random_below P (rzs n i).
Hypothesis RK : forall n i, random_below N (rks n i).
Notation mulG := (code_mulG rz).
Notation derive := (hk_derive hmac512 hash160 mulG).

Lemma child_scalar : forall k i h, is_scalar (hk_num (hk_child_of hmac512 hash160 mulG k i h)).
Proof. intros k i h. destruct (child_num_ok hmac512 hash160 mulG k i h) as (A & B & D). split; [split; auto|exact D]. Qed.
Lemma derive_scalar : forall path k, is_scalar (hk_num k) -> is_scalar (hk_num (derive k path)).
Proof. induction path as [|i t IH]; intros k S; [exact S|]. unfold hk_derive. cbn [fold_left]. apply IH, child_scalar. Qed.
Lemma derive_bip32 : forall path k, is_scalar (hk_num k) -> Forall (fun w => 0 <= w < 2^32) path -> forall d c, bip32_derive hmac512 (hk_num k) (hk_chain k) path = Some (d, c) ->
  hk_num (derive k path) = d /\ hk_chain (derive k path) = c.
Proof.
  induction path as [|i t IH]; intros k S F d c E.
  - cbn [bip32_derive] in E. injection E as <- <-. split; reflexivity.
  - apply Forall_cons_iff in F as [F1 F2]. unfold hk_derive. cbn [fold_left]. cbn [bip32_derive] in E. rewrite <- (code_mulG_ok rz) in E by auto.
    destruct (ckd_priv _ _ _ _ _) as [[k' c']|] eqn:CK; [|discriminate]. apply IH; auto; [apply child_scalar|].
    assert (Q : hk_num (hk_child_of hmac512 hash160 mulG k i false) = k' /\ hk_chain (hk_child_of hmac512 hash160 mulG k i false) = c').
    { destruct (child_all hmac512 hash160 mulG (fun a b => proj1 (H64 a b)) (fun a b => proj2 (H64 a b)) k i F1) as (A1 & A2 & _). rewrite A1, A2. unfold ckd_priv in CK. fold (child_data hmac512 mulG k i) in CK. cbv zeta in CK.
      destruct ((_ <=? _) || _); [discriminate|]. injection CK as <- <-. split; reflexivity. }
    destruct Q as [-> ->]. exact E.
Qed.
Lemma fingerprint_ok : forall k, is_scalar (hk_num k) -> hk_fingerprint hash160 mulG k = wallet_fp hash160 (hk_num k).
Proof. intros k S. unfold hk_fingerprint, wallet_fp. rewrite sec_compressed, code_mulG_ok by auto. reflexivity. Qed.
Definition made (d h : list Z) (r s : Z) : Prop :=
  (exists j id, (j < Z.to_nat 10000)%nat /\ ecdsa_signature (number d) (number h) (rfc6979_number hmac d h j) r s id /\
     (forall j', (j' < j)%nat -> ~ ecdsa_usable (number d) (number h) (rfc6979_number hmac d h j'))) \/
  (forall j, (j < Z.to_nat 10000)%nat -> ~ ecdsa_usable (number d) (number h) (rfc6979_number hmac d h j)) /\ r = 0 /\ s = 0.
Lemma rounds_eq : sign_rounds = Z.to_nat 10000.
Proof. unfold sign_rounds. reflexivity. Qed.
Lemma made_first : forall d h j r s id, (j < sign_rounds)%nat -> ecdsa_signature (number d) (number h) (rfc6979_number hmac d h j) r s id ->
  (forall j', (j' < j)%nat -> forall r s id, ~ ecdsa_signature (number d) (number h) (rfc6979_number hmac d h j') r s id) -> made d h r s.
Proof.
  intros d h j r s id J SG NU. rewrite rounds_eq in J. left. exists j, id. split; [exact J|]. split; [exact SG|]. intros j' J' (r' & s' & id' & U). apply (NU j' J' r' s' id' U).
Qed.
Lemma made_never : forall d h, (forall j, (j < sign_rounds)%nat -> forall r s id, ~ ecdsa_signature (number d) (number h) (rfc6979_number hmac d h j) r s id) -> made d h 0 0.
Proof. intros d h NU. rewrite rounds_eq in NU. right. split; [|split; reflexivity]. intros j J (r' & s' & id' & U). apply (NU j J r' s' id' U). Qed.
Lemma sig_numbers : forall g r s, 0 <= r < 2^256 -> 0 <= s < 2^256 -> sg_r g = be_bytes 32 r -> sg_s g = be_bytes 32 s -> sig_holds g r s.
Proof.
  intros g r s R S ER ES. pose proof (be_bytes_length 32 r) as LR. pose proof (be_bytes_length 32 s) as LS. pose proof (be_bytes_ok 32 r) as BR. pose proof (be_bytes_ok 32 s) as BS.
  pose proof (scalar_of_num r R) as NR. pose proof (scalar_of_num s S) as NS. rewrite <- ER in LR, BR, NR. rewrite <- ES in LS, BS, NS. unfold number in NR, NS. unfold sig_holds. auto 10.
Qed.
Lemma sig_zeros : forall g, sg_r g = zeros 32 -> sg_s g = zeros 32 -> sig_holds g 0 0.
Proof. intros g ER ES. unfold sig_holds. rewrite ER, ES. repeat split; auto using bytes_ok_zeros. Qed.
Lemma signer_ok : forall n d h, is_scalar d -> word256 h -> exists sg r s, prv_sign (rzs n) (rks n) (mkPrv d (mkPt (mulG d) true DONE 0)) h = Ok sg /\ sig_holds sg r s /\ made d h r s.
Proof.
  intros n d h S W. generalize (mkPt (mulG d) true DONE 0). intros q. destruct (sign_ok K H C (rzs n) (rks n) d q h (RS n) (RK n) S W) as (g & E & _ & [(j & r & s & J & ER & ES & SG & NU)|(NU & ER & ES)]); exists g.
  - destruct (signature_ranges _ _ _ _ _ _ SG) as (R1 & R2 & R3 & _). pose proof order_range. exists r, s. split; [exact E|]. split.
    + apply sig_numbers; [lia|lia|exact ER|exact ES].
    + exact (made_first d h j r s (sg_index g) J SG NU).
  - exists 0, 0. split; [exact E|]. split; [exact (sig_zeros g ER ES)|exact (made_never d h NU)].
Qed.

Section Wallet.
Variables (root : hdpriv) (v : s_tx).
Hypothesis SR : is_scalar (hk_num root).
Hypothesis VL : 1 + len (s_ins v) + len (s_outs v) <= 255.
Notation k := (hk_num root).
Notation c := (hk_chain root).
Notation fp := (wallet_fp hash160 k).
Lemma own_iff : forall e, on_curve (dv_x e) (dv_y e) -> Forall (fun w => 0 <= w < 2^32) (dv_path e) -> (dv_fp e = fp -> bip32_derive hmac512 k c (dv_path e) <> None) ->
  (own hmac512 hash160 mulG root e <-> exists d, has_secret hmac512 fp k c e d).
Proof.
  intros e O F B. unfold own, has_secret. rewrite fingerprint_ok by auto. pose proof (derive_scalar (dv_path e) root SR) as SD. split.
  - intros (E & M). destruct (bip32_derive hmac512 k c (dv_path e)) as [[d c']|] eqn:BD; [|exfalso; apply (B E); reflexivity].
    destruct (derive_bip32 _ root SR F d c' BD) as (ED & _). rewrite ED in *. exists d. split; [exact E|]. split; [eauto|]. rewrite code_mulG_ok in M by auto.
    pose proof (ec_mul_point (number d) gen gen_point) as PM. destruct (ec_mul (number d) gen) as [[x y]|].
    + cbn [point_bytes] in M. destruct O as (O1 & O2 & _). destruct PM as (P1 & P2 & _). destruct (coords_inj _ _ _ _ P1 P2 O1 O2 M) as (-> & ->). reflexivity.
    + exfalso. cbn [point_bytes] in M. pose proof P_range as PR. rewrite zeros_coords in M. destruct O as (O1 & O2 & O3). destruct (coords_inj 0 0 _ _ ltac:(lia) ltac:(lia) O1 O2 M) as (X0 & Y0).
      apply (no_x_zero (dv_y e)). rewrite <- X0 in O1, O3. split; [exact O1|]. split; [exact O2|exact O3].
  - intros (d & E & (c' & BD) & M). split; [exact E|]. destruct (derive_bip32 _ root SR F d c' BD) as (ED & _). rewrite ED in *. rewrite code_mulG_ok, M by auto. reflexivity.
Qed.
Lemma in_wallet : forall e l, In e l -> dv_fp e = fp -> In e (of_wallet fp l).
Proof. intros e l I E. apply filter_In. split; auto. destruct (list_eq_dec Z.eq_dec (dv_fp e) fp); [reflexivity|contradiction]. Qed.
Lemma knows_deriv : forall p us j u e, psbt_knows p v us -> nth_error us j = Some u -> In e (sp_ders u) -> on_curve (dv_x e) (dv_y e) /\ Forall (fun w => 0 <= w < 2^32) (dv_path e).
Proof.
  intros p us j u e (_ & _ & ins & _ & _ & F) NU IE. destruct (nth_F2 _ _ _ _ _ F NU) as (m & _ & (_ & _ & _ & D & _)). apply In_nth_error in IE as (q & IE).
  destruct (nth_F2 _ _ _ _ _ D IE) as (d & _ & (_ & _ & O & _ & _ & FP)). auto.
Qed.
Theorem sign_real : forall p us, psbt_knows p v us -> room_for_sigs us -> paths_reach fp (entries us) ->
  Forall (fun e => bip32_derive hmac512 k c (dv_path e) <> None) (of_wallet fp (entries us)) ->
  exists p' gss, psbt_sign_code dsha garbage hmac512 hash160 rz rzs rks p root = Ok (p', len (concat gss) mod 256) /\
    all_signed dsha hash160 hmac hmac512 k c v us gss /\ Forall (Forall psig_ok) gss /\
    psbt_knows p' v (with_sigs us gss) /\ exists ins, p' = ps_set_metas p (Some ins, ps_outs p).
Proof.
  intros p us KN RM PR BP. unfold psbt_sign_code.
  destruct (sign_generic dsha garbage hmac512 hash160 mulG _ root is_scalar made H20 H32 (fun path => derive_scalar path root SR) signer_ok v VL p us KN RM) as (p' & gss & E & L & OK & KN' & SM & SG).
  { rewrite fingerprint_ok by auto. exact PR. }
  exists p', gss. split; [exact E|]. split; [|auto]. split; [exact L|]. intros j i u gs NI NU NG. eapply signatures_impl; [exact (SG j i u gs NI NU NG)| |].
  - intros e IE. destruct (knows_deriv p us j u e KN NU IE) as (OC & FP). apply own_iff; auto. intros EF. rewrite Forall_forall in BP. apply BP, in_wallet; auto. apply in_flat_map. exists u. split; auto. apply (nth_error_In _ _ NU).
  - intros e g IE O (B1 & B2 & B3 & B4). destruct (knows_deriv p us j u e KN NU IE) as (OC & FP). split; [exact B1|]. split; [exact B2|]. split; [exact B3|].
    apply own_iff in O; auto. 2:{ intros EF. rewrite Forall_forall in BP. apply BP, in_wallet; auto. apply in_flat_map. exists u. split; auto. apply (nth_error_In _ _ NU). }
    destruct O as (d & O). exists d. split; [exact O|]. destruct O as (EF & (c' & BD) & M). destruct (derive_bip32 _ root SR FP d c' BD) as (ED & _).
    pose proof (derive_scalar (dv_path e) root SR) as SD. rewrite ED in *. destruct B4 as [(q & id & S0 & S1 & S2)|S1]; [left|right; exact S1].
    exists q, id. split; [exact S0|]. split; [exact S1|]. split; [exact S2|]. destruct (signature_ranges _ _ _ _ _ _ S1) as (R1 & R2 & R3 & _). split; [|exact R3]. rewrite <- M. eapply signature_valid; [|exact S1]. destruct (number_range d (proj1 SD)); lia.
Qed.
Theorem sign_short : forall p us, psbt_knows p v us -> room_for_sigs us -> ~ paths_reach fp (entries us) ->
  psbt_sign_code dsha garbage hmac512 hash160 rz rzs rks p root = UB.
Proof.
  intros p us KN RM PR. unfold psbt_sign_code.
  apply (sign_generic_short dsha garbage hmac512 hash160 mulG _ root is_scalar made H20 H32 (fun path => derive_scalar path root SR) signer_ok v VL p us KN RM). rewrite fingerprint_ok by auto. exact PR.
Qed.
End Wallet.
End Real.
