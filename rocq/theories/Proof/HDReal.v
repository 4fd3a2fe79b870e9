(** Child keys with the operators and hashes of the code in the place of parameters. *)
From Coq Require Import Lia Znumtheory.
From Verif Require Import Base.Bytes Base.BytesFacts Spec.Bignum Spec.Codecs Spec.Hash Spec.Keys Spec.HD Spec.Scalar Spec.Point Spec.Curve Spec.Schemes
  Model.Stream Model.Point Model.Hash Model.Keys Model.HD Model.PointOps
  Proof.IntVarint Proof.HashWords Proof.HDPub Proof.ScalarProps Proof.PointFacts Proof.PointProps Proof.CurveFacts Proof.EcField Proof.EcGroup Proof.EcMult Proof.EcTable Proof.EcOrder Proof.EcApi Proof.EcdsaFacts Proof.PointOpsFacts.
Open Scope Z_scope.

(** ** The HMAC of the code gives 64 bytes, whatever it is given *)
Section Shape.
Variable p : sha2.
Notation st8 c := (length (h_state c) = 8%nat).
Lemma round_len : forall k x r, length (sha2_round p k x r) = length r.
Proof. intros k x r. unfold sha2_round. destruct r as [|a [|b [|c [|d [|e [|f [|g [|h [|? ?]]]]]]]]]; reflexivity. Qed.
Lemma first_len : forall n j data W r, length (snd (sha2_first p n j data W r)) = length r.
Proof. induction n as [|n IH]; intros j data W r; cbn [sha2_first]; [reflexivity|]. rewrite IH. apply round_len. Qed.
Lemma second_len : forall n j W r, length (sha2_second p n j W r) = length r.
Proof. induction n as [|n IH]; intros j W r; cbn [sha2_second]; [reflexivity|]. rewrite IH. apply round_len. Qed.
Lemma add_len : forall l r, length l = length r -> length (add_words p l r) = length l.
Proof. induction l as [|x l IH]; intros [|y r] E; try discriminate; cbn [add_words length]; [reflexivity|]. rewrite IH; auto. Qed.
Lemma transform_len : forall st data, length (sha2_Transform p st data) = length st.
Proof.
  intros st data. unfold sha2_Transform. pose proof (first_len 16 0 data (zeros 16) st) as F. destruct (sha2_first p 16 0 data (zeros 16) st) as [W r]. cbn [snd] in F. apply add_len. rewrite second_len. auto.
Qed.
Lemma blocks_st : forall fuel c data, length (h_state (sha2_blocks p fuel c data)) = length (h_state c).
Proof.
  induction fuel as [|fuel IH]; intros c data; cbn [sha2_blocks]; [reflexivity|]. destruct (_ <=? _); [rewrite IH; cbn [sha2_count h_state sha2_block]; rewrite transform_len; reflexivity|].
  destruct (_ <? _); reflexivity.
Qed.
Lemma update_st : forall c data, length (h_state (sha2_Update p c data)) = length (h_state c).
Proof.
  intros c data. unfold sha2_Update. destruct (len data =? 0); [reflexivity|]. destruct (_ <? _); [|apply blocks_st]. destruct (_ <=? _); [|reflexivity]. rewrite blocks_st. cbn [sha2_block h_state sha2_count sha2_copy]. apply transform_len.
Qed.
Lemma final_shape : forall c, st8 c -> length (fst (sha2_Final p c)) = (8 * s_bytes p)%nat /\ bytes_ok (fst (sha2_Final p c)).
Proof.
  intros c L. unfold sha2_Final.
  assert (G : forall st ws, length st = 8%nat -> length (flat_map (mem_bytes (s_bytes p)) (map (s_rev p) (sha2_Transform p st ws))) = (8 * s_bytes p)%nat /\
    bytes_ok (flat_map (mem_bytes (s_bytes p)) (map (s_rev p) (sha2_Transform p st ws)))).
  { intros st ws E. rewrite <- (transform_len st ws) in E. generalize dependent (sha2_Transform p st ws). intros l E. rewrite <- E. clear. induction l as [|x l [IH1 IH2]]; cbn [map flat_map length]; [split; [reflexivity|constructor]|].
    rewrite app_length, IH1, mem_bytes_le, le_bytes_length. split; [lia|]. apply bytes_ok_app. split; auto. apply le_bytes_ok. }
  destruct (Nat.ltb _ _); cbn [fst]; apply G; cbn [sha2_copy sha2_block h_state]; rewrite ?transform_len; auto.
Qed.
Lemma hmac_shape : length (s_H p) = 8%nat -> forall key msg, length (hmac_once p key msg) = (8 * s_bytes p)%nat /\ bytes_ok (hmac_once p key msg).
Proof. intros E key msg. unfold hmac_once, hmac_Final. apply final_shape. rewrite !update_st. exact E. Qed.
End Shape.
Lemma hmac512_shape : forall key msg, length (sha512Hmac key msg) = 64%nat /\ bytes_ok (sha512Hmac key msg).
Proof. intros key msg. apply (hmac_shape SHA_512 eq_refl). Qed.

(** ** The operators on bytes *)
Lemma code_mulG_ok : forall rz n, random_below P rz -> is_scalar n -> code_mulG rz n = point_bytes (ec_mul (number n) gen).
Proof. intros rz n R S. unfold code_mulG. destruct (pt_mul_ok rz n GeneratorPoint gen R S gen_point ltac:(discriminate) generator_bytes) as (r & E & X & _). rewrite E. exact X. Qed.
Lemma code_padd_ok : forall a b, is_point a -> is_point b -> code_padd (point_bytes a) (point_bytes b) = point_bytes (ec_add a b).
Proof.
  intros a b A B. unfold code_padd. destruct (pt_add_ok (mkPt (point_bytes a) true DONE 0) (mkPt (point_bytes b) true DONE 0) a b A B eq_refl eq_refl) as (r & E & X). rewrite E. exact X.
Qed.
Lemma code_hom : forall rz, random_below P rz -> forall a b, length a = 32%nat -> bytes_ok a -> length b = 32%nat -> bytes_ok b -> be_val 256 a < N -> be_val 256 b < N ->
  code_padd (code_mulG rz a) (code_mulG rz b) = code_mulG rz (be_bytes 32 ((be_val 256 a + be_val 256 b) mod N)).
Proof.
  intros rz R a b LA OA LB OB VA VB. assert (WA : word256 a) by (split; auto). assert (WB : word256 b) by (split; auto). pose proof (number_range a WA) as RA. pose proof (number_range b WB) as RB. fold (number a) in *. fold (number b) in *.
  rewrite (code_mulG_ok rz a), (code_mulG_ok rz b) by (auto; split; auto). destruct (scalar_of_scalar (number a + number b)) as [SS SV]. change (be_bytes 32 ((number a + number b) mod N)) with (scalar_of (number a + number b)).
  rewrite (code_mulG_ok rz _ R SS), code_padd_ok by (apply ec_mul_point, gen_point). f_equal. rewrite SV. pose proof order_pos. pose proof (Z.mod_pos_bound (number a + number b) N). pose proof gen_point.
  rewrite !ec_mul_smul by lia. rewrite <- smul_add by auto. apply smul_eqm; auto. symmetry. apply eqm_mod.
Qed.
Theorem code_child_agree : forall rz, random_below P rz -> forall k i, word256 (hk_num k) -> number (hk_num k) < N -> 0 <= i < 2^31 ->
  to_pub (code_mulG rz) (hk_child_of sha512Hmac hash160 (code_mulG rz) k i false) = hp_child_of sha512Hmac hash160 (code_mulG rz) code_padd (to_pub (code_mulG rz) k) i.
Proof. intros rz R k i [O L] V I. apply child_pub; auto; [apply code_hom; auto|apply hmac512_shape|apply hmac512_shape]. Qed.
Theorem code_derive_agree : forall rz, random_below P rz -> forall l k, word256 (hk_num k) -> number (hk_num k) < N -> Forall (fun i => 0 <= i < 2^31) l ->
  to_pub (code_mulG rz) (hk_derive sha512Hmac hash160 (code_mulG rz) k l) = hp_derive sha512Hmac hash160 (code_mulG rz) code_padd (to_pub (code_mulG rz) k) l.
Proof. intros rz R l k [O L] V I. apply derive_pub; auto; [apply code_hom; auto|apply hmac512_shape|apply hmac512_shape]. Qed.
