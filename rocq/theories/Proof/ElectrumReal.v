(** ElectrumTx::sign with the multiplication and the signatures of the code; fees. *)
From Coq Require Import Lia Znumtheory.
From Verif Require Import Base.Bytes Base.BytesFacts Spec.Bignum Spec.Codecs Spec.Hash Spec.Wire Spec.Objects Spec.Keys Spec.HD Spec.Scalar Spec.Signature Spec.Point Spec.Sighash Spec.Curve Spec.Schemes Spec.PSBTSign Spec.Electrum
  Model.Stream Model.Script Model.Tx Model.Signature Model.Bignum Model.Point Model.Keys Model.Sign Model.HD Model.ECDSA Model.PointOps Model.PSBTSign Model.Electrum
  Proof.IntVarint Proof.HDPub Proof.ScalarProps Proof.PointFacts Proof.PointProps Proof.PointHD Proof.CurveFacts Proof.EcGroup Proof.EcOrder Proof.EcMult Proof.EcMult Proof.EcTable Proof.EcApi Proof.EcdsaFacts Proof.PointOpsFacts Proof.HDReal Proof.SigProps Proof.SchemeProps Proof.PsbtSignReal Proof.ElectrumSign.
Open Scope Z_scope.
Notation P := field_prime.
Notation N := group_order.

Lemma bip32_nonzero : forall hmac path k c d c', path <> [] -> bip32_derive hmac k c path = Some (d, c') -> 0 < number d < N.
Proof.
  intros hmac path. induction path as [|i t IH]; intros k c d c' NE E; [congruence|]. cbn [bip32_derive] in E.
  destruct (ckd_priv _ _ _ _ _) as [[k1 c1]|] eqn:CK; [|discriminate E]. destruct t as [|i2 t]; [|apply (IH k1 c1 d c'); [discriminate|exact E]].
  cbn [bip32_derive] in E. injection E as <- <-. unfold ckd_priv in CK. cbv zeta in CK.
  set (ch := (_ + _) mod group_order) in CK. assert (R : 0 <= ch < N) by (apply Z.mod_pos_bound; pose proof order_range; lia).
  destruct ((N <=? _) || (ch =? 0)) eqn:Q; [discriminate CK|]. apply orb_false_elim in Q as (_ & Q). apply Z.eqb_neq in Q.
  injection CK as <- _. pose proof order_range. rewrite (scalar_of_num ch) by lia. lia.
Qed.
Lemma gen_some : forall d, 0 < d < N -> exists a b, ec_mul d gen = Some (a, b).
Proof.
  intros d R. destruct (ec_mul d gen) as [[a b]|] eqn:E; [eauto|]. exfalso. rewrite ec_mul_smul in E by lia. revert E.
  apply (smul_ne gen gen_point); [discriminate|exact gen_order|]. intros DV. apply Z.divide_pos_le in DV; lia.
Qed.
Section Real.
Variables K H : list Z.
Hypothesis C : fips_constants fips256 K H.
Notation hmac := (rfc2104 (fips_hash fips256 K H) 64).
Variables (dsha hash160 sha256 : list Z -> list Z) (hmac512 : list Z -> list Z -> list Z) (rz : bn) (rzs rks : nat -> nat -> bn).
Hypothesis H20 : forall m, length (hash160 m) = 20%nat /\ bytes_ok (hash160 m).
Hypothesis HS : forall m, length (sha256 m) = 32%nat /\ bytes_ok (sha256 m).
Hypothesis H32 : forall m, word256 (dsha m).
Hypothesis H64 : forall k m, length (hmac512 k m) = 64%nat /\ bytes_ok (hmac512 k m).
Hypothesis RZ : random_below P rz.
Hypothesis RS : forall n i, random_below P (rzs n i).
Hypothesis RK : forall n i, random_below N (rks n i).
Notation mulG := (code_mulG rz).
Notation signer := (fun n d h => der_of (prv_sign (rzs n) (rks n) (mkPrv d (mkPt (mulG d) true DONE 0)) h)).
Variable account : hdpriv.
Hypothesis SA : is_scalar (hk_num account).
Notation sec_x x := (secret hash160 hmac512 mulG account x).
Lemma secret_scalar : forall x, is_scalar (sec_x x).
Proof. intros x. unfold secret. apply child_scalar. Qed.
Lemma signer_der : forall n d h, is_scalar d -> word256 h -> exists r s, der_sig r s (signer n d h) /\ bytes_ok (signer n d h) /\ len (signer n d h) <= 72 /\ made K H d h r s.
Proof.
  intros n d h S W. destruct (signer_ok K H C rz rzs rks RS RK n d h S W) as (g & r & s & E & G & M).
  destruct (der_writes g r s G) as (der & D1 & D2 & D3 & D4 & D5). exists r, s.
  assert (Q : signer n d h = der).
  { cbv beta. rewrite E. unfold der_of. cbn [bind]. rewrite (D4 75%nat) by (unfold len in D2; lia). unfold len. rewrite Nat2Z.id. rewrite firstn_app, firstn_all, Nat.sub_diag. cbn [firstn]. apply app_nil_r. }
  rewrite Q. split; [exact D1|]. split; [|split; [lia|exact M]].
  destruct G as (G1 & G2 & G3 & G4 & G5 & G6). apply (der_sig_bytes r s); [exact D1| |].
  - rewrite <- G3. apply (number_range (sg_r g)). split; auto.
  - rewrite <- G6. apply (number_range (sg_s g)). split; auto.
Qed.
Lemma pubkey_ok : forall x, bytes_ok (pubkey hash160 hmac512 mulG account x) /\ len (pubkey hash160 hmac512 mulG account x) = 33.
Proof.
  intros x. unfold pubkey. rewrite code_mulG_ok by (auto; apply secret_scalar).
  generalize (point_bytes_len (ec_mul (number (sec_x x)) gen)), (point_bytes_ok (ec_mul (number (sec_x x)) gen)). generalize (point_bytes (ec_mul (number (sec_x x)) gen)). intros p L B.
  split; [|unfold len; rewrite HDPub.sec_len by exact L; reflexivity]. rewrite sec_compressed. unfold compressed. constructor; [unfold byte_ok; destruct (Z.odd _); lia|].
  rewrite <- (firstn_skipn 32) in B. apply Forall_app in B. tauto.
Qed.
Lemma account_point : hp_point (to_pub mulG account) = point_bytes (ec_mul (number (hk_num account)) gen).
Proof. cbn [to_pub hp_point]. apply code_mulG_ok; auto. Qed.
Lemma secret_bip32 : forall x d c', einput_ok x -> bip32_derive hmac512 (hk_num account) (hk_chain account) [e_first x; e_second x] = Some (d, c') -> sec_x x = d.
Proof.
  intros x d c' (_ & A1 & A2 & _) E. destruct (derive_bip32 hash160 hmac512 rz H64 RZ [e_first x; e_second x] account SA) with (d := d) (c := c') as (Q & _); auto.
  constructor; [lia|]. constructor; [lia|constructor].
Qed.
Notation mine := (has_key (point_bytes (ec_mul (number (hk_num account)) gen))).
Theorem sign_code : forall e v xs, electrum_holds e v xs -> amounts_hold e xs -> Forall einput_ok xs -> len (s_ins v) <= 256 -> len (s_outs v) < 2^64 ->
  Forall (fun x => mine x = true -> bip32_derive hmac512 (hk_num account) (hk_chain account) [e_first x; e_second x] <> None) xs ->
  exists e' js, el_sign_code dsha hash160 sha256 hmac512 rz rzs rks e account = Ok (e', len (filter mine xs) mod 256) /\
    el_metas e' = el_metas e /\ el_status e' = el_status e /\ tx_holds (el_tx e') (with_ins v js) /\
    electrum_all_signed dsha hash160 sha256 hmac hmac512 (hk_num account) (hk_chain account) v xs js.
Proof.
  intros e v xs EH AH OK NI NO BP. unfold el_sign_code.
  assert (DER : forall n x m, bytes_ok (signer n (sec_x x) (dsha m)) /\ len (signer n (sec_x x) (dsha m)) <= 72).
  { intros n x m. destruct (signer_der n (sec_x x) (dsha m) (secret_scalar x) (H32 m)) as (r & s & _ & B & L & _). split; assumption. }
  destruct (sign_all dsha hash160 sha256 hmac512 mulG signer account H20 HS pubkey_ok DER e v xs EH AH NI NO) as (e' & js & E & M & ST & TH & LJ & PT).
  assert (FE : filter (own mulG account) xs = filter mine xs) by (apply filter_ext; intros x; unfold own; rewrite account_point; reflexivity). rewrite FE in E.
  exists e', js. split; [exact E|]. split; [exact M|]. split; [exact ST|]. split; [exact TH|]. split; [exact LJ|].
  intros j i x N1 N2. destruct (PT j i x N1 N2) as (i' & N3 & S). exists i'. split; [exact N3|]. unfold signed_input in S. rewrite account_point in S.
  destruct (mine x) eqn:Q; [|exact S]. destruct S as (n & S).
  assert (IX : In x xs) by (apply (nth_error_In _ _ N2)). rewrite Forall_forall in OK, BP. specialize (OK x IX). specialize (BP x IX Q).
  destruct (bip32_derive hmac512 (hk_num account) (hk_chain account) [e_first x; e_second x]) as [[d c']|] eqn:BD; [|congruence].
  pose proof (secret_bip32 x d c' OK BD) as SD. pose proof (bip32_nonzero _ _ _ _ _ _ (fun Q0 : [e_first x; e_second x] = [] => nil_cons (eq_sym Q0)) BD) as DR. destruct (gen_some (number d) DR) as (a & b & AB).
  assert (PK : pubkey hash160 hmac512 mulG account x = sec_bytes true a b).
  { unfold pubkey. rewrite SD. pose proof (secret_scalar x) as SX. rewrite SD in SX. rewrite code_mulG_ok by auto. rewrite AB. apply sec_of_coords. }
  rewrite PK, SD in S. set (h := electrum_hash dsha hash160 v j i x (sec_bytes true a b)) in *.
  assert (WH : word256 h) by (unfold h, electrum_hash; destruct (spends_legacy _); apply H32).
  pose proof (secret_scalar x) as SX. rewrite SD in SX.
  destruct (signer_der n d h SX WH) as (r & s & D1 & _ & _ & MD).
  exists d, c', a, b, r, s, (signer n d h). split; [exact BD|]. split; [exact AB|]. split; [|split; [exact D1|exact S]].
  unfold signed_with. destruct MD as [(q & id & S0 & S1 & S2)|S1]; [left|right; exact S1].
  exists q, id. split; [exact S0|]. split; [exact S1|]. split; [exact S2|]. destruct (signature_ranges _ _ _ _ _ _ S1) as (R1 & R2 & R3 & _). split; [|exact R3]. rewrite <- AB. eapply signature_valid; [|exact S1]. lia.
Qed.
End Real.

(** ** Fees *)
Lemma total_nonneg : forall l, Forall (fun a => 0 <= a) l -> 0 <= total l.
Proof. intros l F. induction F as [|a l A F IH]; unfold total in *; cbn [fold_right]; lia. Qed.
Lemma fee_in : forall ms s, Forall (fun a => a <> 0) (map em_amount ms) -> 0 <= s < 2^64 -> fee_inputs ms s = Some ((s + total (map em_amount ms)) mod 2^64).
Proof.
  induction ms as [|m ms IH]; intros s F R; cbn [map fee_inputs].
  - unfold total. cbn [fold_right]. rewrite Z.add_0_r, Z.mod_small by exact R. reflexivity.
  - cbn [map] in F. apply Forall_cons_iff in F as (F1 & F2). destruct (Z.eqb_spec (em_amount m) 0); [contradiction|]. rewrite IH; auto.
    + f_equal. unfold u64, total. cbn [fold_right]. rewrite Zplus_mod_idemp_l. f_equal. lia.
    + unfold u64. apply Z.mod_pos_bound. lia.
Qed.
Lemma fee_in_zero : forall ms s, Exists (fun a => a = 0) (map em_amount ms) -> fee_inputs ms s = None.
Proof.
  induction ms as [|m ms IH]; intros s X; cbn [map] in X; inversion X as [? ? Q|? ? Q]; subst; cbn [fee_inputs]; [rewrite Q; reflexivity|].
  destruct (em_amount m =? 0); auto.
Qed.
Lemma fee_out : forall l s, 0 <= s < 2^64 -> fold_left (fun s o => u64 (s + to_amount o)) l s = (s + total (map to_amount l)) mod 2^64.
Proof.
  induction l as [|o l IH]; intros s R; cbn [map fold_left].
  - unfold total. cbn [fold_right]. rewrite Z.add_0_r, Z.mod_small by exact R. reflexivity.
  - rewrite IH by (unfold u64; apply Z.mod_pos_bound; lia). unfold u64, total. cbn [fold_right]. rewrite Zplus_mod_idemp_l. f_equal. lia.
Qed.
Lemma out_amounts : forall t v, tx_holds t v -> map to_amount (t_outs t) = map so_value (s_outs v).
Proof. intros t v (_ & _ & _ & _ & _ & F). induction F as [|o x l m (O & _) F IH]; cbn [map]; [reflexivity|]. rewrite O, IH. reflexivity. Qed.
Theorem fee_any : forall e v xs, electrum_holds e v xs -> amounts_hold e xs -> Forall (fun x => e_amount x <> 0) xs ->
  el_fee e = Ok (let i := total (map e_amount xs) mod 2^64 in let o := total (map so_value (s_outs v)) mod 2^64 in if i <? o then 0 else i - o).
Proof.
  intros e v xs (TH & _ & _) (ms & ME & AM) NZ. unfold el_fee. rewrite ME. cbn [bind].
  rewrite fee_in; [|rewrite AM; apply Forall_map; exact NZ|lia]. rewrite AM, Z.add_0_l. unfold fee_outputs. rewrite fee_out by lia. rewrite Z.add_0_l, (out_amounts _ v TH). reflexivity.
Qed.
Theorem fee_unknown : forall e v xs, electrum_holds e v xs -> amounts_hold e xs -> Exists (fun x => e_amount x = 0) xs -> el_fee e = Ok 0.
Proof.
  intros e v xs (TH & _ & _) (ms & ME & AM) X. unfold el_fee. rewrite ME. cbn [bind]. rewrite fee_in_zero; [reflexivity|]. rewrite AM. apply Exists_exists in X as (x & I & X).
  apply Exists_exists. exists 0. split; [rewrite <- X; apply in_map; exact I|reflexivity].
Qed.
Lemma amounts_nonneg : forall xs, Forall einput_ok xs -> 0 <= total (map e_amount xs).
Proof. intros xs OK. apply total_nonneg, Forall_map. eapply Forall_impl; [|exact OK]. intros x (_ & _ & _ & (A & _) & _). exact A. Qed.
Lemma outs_nonneg : forall e v xs, electrum_holds e v xs -> 0 <= total (map so_value (s_outs v)).
Proof. intros e v xs ((_ & _ & _ & _ & _ & F) & _). apply total_nonneg, Forall_map. induction F as [|o x l m (O & R & _) F IH]; constructor; [lia|exact IH]. Qed.
Theorem fee_ok : forall e v xs, electrum_holds e v xs -> amounts_hold e xs -> Forall einput_ok xs -> Forall (fun x => e_amount x <> 0) xs ->
  total (map e_amount xs) < 2^64 -> total (map so_value (s_outs v)) < 2^64 ->
  el_fee e = Ok (Z.max 0 (total (map e_amount xs) - total (map so_value (s_outs v)))).
Proof.
  intros e v xs EH AH OK NZ LI LO. rewrite (fee_any e v xs EH AH NZ). pose proof (amounts_nonneg xs OK). pose proof (outs_nonneg e v xs EH).
  cbv zeta. rewrite !Z.mod_small by lia. f_equal. destruct (Z.ltb_spec (total (map e_amount xs)) (total (map so_value (s_outs v)))); lia.
Qed.
Theorem fee_wraps : forall e v xs s, electrum_holds e v xs -> amounts_hold e xs -> Forall einput_ok xs -> Forall (fun x => e_amount x <> 0) xs ->
  total (map e_amount xs) < 2^64 -> 0 <= s <= total (map e_amount xs) -> total (map so_value (s_outs v)) = 2^64 + s -> el_fee e = Ok (total (map e_amount xs) - s).
Proof.
  intros e v xs s EH AH OK NZ LI S LO. rewrite (fee_any e v xs EH AH NZ). cbv zeta. rewrite LO. replace (2^64 + s) with (s + 1 * 2^64) by lia. rewrite Z_mod_plus_full, !Z.mod_small by lia.
  destruct (Z.ltb_spec (total (map e_amount xs)) s); [lia|reflexivity].
Qed.
