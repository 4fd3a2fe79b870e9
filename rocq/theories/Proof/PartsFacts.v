(** Extended keys made from their parts. *)
From Coq Require Import Lia.
From Verif Require Import Base.Bytes Base.BytesFacts Spec.Codecs Spec.Keys Spec.Scalar Spec.Curve Spec.Schemes Spec.Point Spec.HD Spec.Form Spec.Parts
  Model.Stream Model.Networks Model.Sign Model.Bignum Model.Point Model.HD Model.PointOps Model.KeyStrings Model.Wallet Model.Parts
  Proof.BaseDec Proof.HDProps Proof.HDPub Proof.FormFacts Proof.PointFacts Proof.PointProps Proof.PointHD Proof.PointOpsFacts Proof.HDReal Proof.EcTable.
Open Scope Z_scope.

Lemma made_sized : forall secret p, word256 secret -> parts_ok p ->
  let k := mkHk secret (pa_chain p) (pa_depth p) (pa_print p) (pa_child p) (pa_net p) (pa_type p) (zeros 4) DONE 0 in hk_sized k /\ hk_valued k.
Proof.
  intros secret p [W1 W2] ((C1 & C2) & D & F1 & F2 & N). cbv zeta. unfold hk_sized, hk_valued. cbn [hk_num hk_chain hk_fp hk_prefix hk_depth hk_child].
  repeat split; auto; try apply D; apply N.
Qed.
Lemma hp_made_sized : forall pt p, bytes_ok pt -> length pt = 64%nat -> parts_ok p -> hp_sized (hp_make pt p) /\ hp_valued (hp_make pt p).
Proof.
  intros pt p W1 W2 ((C1 & C2) & D & F1 & F2 & N). unfold hp_sized, hp_valued, hp_make. cbn [hp_point hp_chain hp_fp hp_prefix hp_depth hp_child].
  repeat split; auto; try apply D; apply N.
Qed.
Lemma net_is_test : forall test, is_test (net_of test) test.
Proof. intros [|]; [right; split; [left; reflexivity|reflexivity]|left; split; reflexivity]. Qed.
Lemma make_ok : forall rz secret p, random_below field_prime rz -> is_scalar secret ->
  hk_make rz secret p = Ok (mkHk secret (pa_chain p) (pa_depth p) (pa_print p) (pa_child p) (pa_net p) (pa_type p) (zeros 4) DONE 0).
Proof.
  intros rz secret p R S. unfold hk_make. destruct (pt_mul_ok rz secret GeneratorPoint gen R S gen_point ltac:(discriminate) generator_bytes) as (r & E & _).
  rewrite E. reflexivity.
Qed.
Section Dsha.
Variable dsha : list Z -> list Z.
Hypothesis dsha_len : forall m, length (dsha m) = 32%nat.
Hypothesis dsha_ok : forall m, bytes_ok (dsha m).

Lemma private_parts : forall rz secret p test v, random_below field_prime rz -> is_scalar secret -> 0 < number secret -> parts_ok p ->
  pa_net p = net_of test -> slip132_prv test (pa_type p) = Some v ->
  exists k text, hk_make rz secret p = Ok k /\ prv_holds k secret p /\
    to_pub (code_mulG rz) k = hp_make (point_bytes (ec_mul (number secret) gen)) p /\
    xprv_string dsha k = Ok text /\ HD.base58check_text dsha (bip32_bytes v (pa_depth p) (pa_print p) (pa_child p) (pa_chain p) (0 :: secret)) text /\
    exists k', hk_from_str dsha text = (len text, k') /\ prv_holds k' secret p /\ hk_status k' = DONE.
Proof.
  intros rz secret p test v R S NZ OK N V. destruct (made_sized secret p (proj1 S) OK) as [SZ VL]. rewrite (make_ok rz secret p R S).
  set (k := mkHk secret (pa_chain p) (pa_depth p) (pa_print p) (pa_child p) (pa_net p) (pa_type p) (zeros 4) DONE 0) in *.
  assert (IT : is_test (hk_net k) test) by (cbn [k hk_net]; rewrite N; apply net_is_test).
  destruct (xprv_form dsha dsha_len dsha_ok k test SZ VL IT) as (text & E & L & _ & B).
  destruct (xprv_roundtrip dsha dsha_len dsha_ok test (pa_type p) v k (zeros 112) V N eq_refl SZ VL (conj NZ (proj2 S)) ltac:(discriminate)) as (text' & E' & B' & F).
  assert (TT : text' = text).
  { unfold xprv_string in E. rewrite E' in E. cbn [snd] in E. destruct (hk_roundtrip test (pa_type p) v k hk_new [] V N eq_refl SZ VL (conj NZ (proj2 S)) ltac:(repeat split) eq_refl) as [HX _].
    rewrite HX in B. exact (base_text_unique 58 base58_alphabet _ _ _ ltac:(lia) B' B). }
  subst text'. exists k, text. split; [reflexivity|]. split; [repeat split|]. split.
  { unfold to_pub, hp_make. cbn [k hk_num hk_chain hk_depth hk_fp hk_child hk_net hk_type]. rewrite (code_mulG_ok rz secret R S). reflexivity. }
  split; [exact E|]. split; [exact B'|]. eexists. split; [exact F|]. split; [repeat split|reflexivity].
Qed.

Lemma public_parts : forall garbage k0 x y p test v, on_curve x y -> parts_ok p -> pa_net p = net_of test -> slip132_pub test (pa_type p) = Some v ->
  hp_sized k0 -> hp_status k0 = DONE ->
  exists text, xpub_string dsha (hp_make (coords x y) p) = Ok text /\
    HD.base58check_text dsha (bip32_bytes v (pa_depth p) (pa_print p) (pa_child p) (pa_chain p) (sec_bytes true x y)) text /\
    exists k', hp_from_str dsha uncompress_pubkey pt_valid_bytes garbage k0 text = Ok (len text, k') /\ pub_holds k' (coords x y) p /\ hp_status k' = DONE.
Proof.
  intros garbage k0 x y p test v O OK N V S0 D0. destruct (hp_made_sized (coords x y) p (coords_ok x y) (coords_len x y) OK) as [SZ VL].
  set (k := hp_make (coords x y) p) in *. assert (IT : is_test (hp_net k) test) by (cbn [k hp_make hp_net]; rewrite N; apply net_is_test).
  destruct (xpub_form dsha dsha_len dsha_ok k test SZ VL IT) as (text & E & L & _ & B).
  assert (UC : uncompress_pubkey (sec_of (hp_point k)) garbage = Ok (hp_point k)) by (cbn [k hp_make hp_point]; rewrite sec_of_coords; apply uncompress_coords_ok; exact O).
  destruct (xpub_roundtrip uncompress_pubkey pt_valid_bytes garbage dsha dsha_len dsha_ok test (pa_type p) v k k0 (zeros 112) V N eq_refl SZ VL S0 D0 UC
    (valid_bytes_ok x y O) ltac:(discriminate)) as (text' & _ & B' & F).
  destruct (xpub_points garbage test (pa_type p) v k k0 [] x y V N eq_refl SZ VL S0 D0 eq_refl O) as [HX _].
  assert (TT : text' = text).
  { rewrite HX in B. cbn [k hp_make hp_point] in B'. rewrite sec_of_coords in B'. exact (base_text_unique 58 base58_alphabet _ _ _ ltac:(lia) B' B). }
  subst text'. exists text. split; [exact E|]. split; [rewrite HX in B; exact B|]. eexists. split; [exact F|]. split; [repeat split|reflexivity].
Qed.
End Dsha.

Lemma make_over : forall rz secret p, word256 secret -> group_order <= number secret -> hk_make rz secret p = UB.
Proof. intros rz secret p W L. unfold hk_make. rewrite pt_mul_over; auto. Qed.
Lemma zero_parts : forall rz p test v k0 rest, random_below field_prime rz -> parts_ok p -> pa_net p = net_of test -> slip132_prv test (pa_type p) = Some v ->
  hk_sized k0 -> hk_status k0 = DONE ->
  exists k, hk_make rz (zeros 32) p = Ok k /\ hk_status k = DONE /\ exists k', hk_parse k0 (hk_hex k ++ rest) = (k', 78, rest) /\ hk_status k' = FAILED.
Proof.
  intros rz p test v k0 rest R OK N V S0 D0. assert (W : word256 (zeros 32)) by (split; [apply bytes_ok_zeros|reflexivity]).
  assert (S : is_scalar (zeros 32)) by (split; [exact W|reflexivity]). rewrite (make_ok rz _ p R S).
  destruct (made_sized (zeros 32) p W OK) as [SZ VL]. eexists. split; [reflexivity|]. split; [reflexivity|].
  rewrite (hk_hex_spec test (pa_type p) v); auto. cbn [hk_depth hk_fp hk_child hk_chain hk_num].
  destruct OK as ((C1 & C2) & D & F1 & F2 & NN). rewrite (hk_reads test (pa_type p) v); auto using bytes_ok_zeros. eexists. split; [reflexivity|]. reflexivity.
Qed.
Lemma be_256 : forall x, 0 <= x < 2^256 -> be_val 256 (be_bytes 32 x) = x.
Proof. intros x R. rewrite IntVarint.be_val_be_bytes, Z.mod_small; [reflexivity|exact R]. Qed.
(** A point off the curve is taken as it is; its text never gives it back. *)
Lemma off_curve : forall garbage k0 x y p test v rest, 0 <= x < 2^256 -> 0 <= y < 2^256 -> ~ on_curve x y -> parts_ok p ->
  pa_net p = net_of test -> slip132_pub test (pa_type p) = Some v -> hp_sized k0 -> hp_status k0 = DONE -> length garbage = 64%nat -> bytes_ok garbage ->
  hp_status (hp_make (coords x y) p) = DONE /\
  exists k', hp_parse uncompress_pubkey pt_valid_bytes garbage k0 (hp_hex (hp_make (coords x y) p) ++ rest) = Ok (k', 78, rest) /\
    (hp_status k' = FAILED \/ hp_point k' <> coords x y).
Proof.
  intros garbage k0 x y p test v rest RX RY NC OK N V S0 D0 GL GO. split; [reflexivity|].
  rewrite (hp_hex_spec test (pa_type p) v); auto. cbn [hp_make hp_point hp_depth hp_fp hp_child hp_chain]. rewrite sec_of_coords.
  destruct OK as ((C1 & C2) & D & F1 & F2 & NN).
  rewrite (hp_reads uncompress_pubkey pt_valid_bytes garbage test (pa_type p) v); auto.
  assert (XE : be_val 256 (be_bytes 32 x) = x) by (apply be_256; exact RX).
  assert (INJ : forall y', 0 <= y' < 2^256 -> coords x y' = coords x y -> y' = y).
  { intros y' R' E. unfold coords in E. apply app_inv_head in E. rewrite <- (be_256 y' R'), <- (be_256 y RY), E. reflexivity. }
  assert (M2 : (2 + y mod 2) mod 2 = y mod 2) by (clear; dlia).
  unfold sec_bytes. destruct (uncompress_33 (2 + y mod 2) (be_bytes 32 x) garbage) as [(y' & O' & M & U)|[NO U]].
  - clear. dlia.
  - apply IntVarint.be_bytes_ok.
  - apply IntVarint.be_bytes_length.
  - rewrite U, bind_Ok. cbv beta. eexists. split; [reflexivity|]. right. cbn [hp_point]. rewrite XE in *. intros E. apply INJ in E; [subst y'; exact (NC O')|].
    destruct O' as (_ & R' & _). assert (field_prime < 2^256) by reflexivity. lia.
  - rewrite U, bind_Ok. cbv beta. eexists. split; [reflexivity|]. cbn [hp_status hp_point]. rewrite XE in NO.
    destruct (pt_valid_bytes garbage) eqn:B; [|left; reflexivity]. right. intros E. unfold pt_valid_bytes in B.
    destruct (is_valid_ok garbage true 0 GO GL) as (b & EV & IFF). rewrite EV in B. subst b. destruct (proj1 IFF eq_refl) as (y'' & O'' & M'').
    subst garbage. assert (XP : xpart (coords x y) = x) by (unfold xpart, coords; rewrite firstn_app_len by (rewrite IntVarint.be_bytes_length; reflexivity); exact XE).
    rewrite XP in O''. apply (NO y'' O''). rewrite M'', M2. unfold coords. rewrite app_nth2; rewrite IntVarint.be_bytes_length; [|lia]. change (63 - 32)%nat with 31%nat. rewrite be_last. clear. dlia.
Qed.
(** ** A key made again from its own parts *)
Lemma made_again : forall hmac hash160 mulG dsha rz k, random_below field_prime rz -> is_scalar (hk_num k) ->
  exists k', hk_make rz (hk_num k) (parts_of k) = Ok k' /\
    (forall l, l <> [] -> hk_derive hmac hash160 mulG k' l = hk_derive hmac hash160 mulG k l) /\
    hk_address_string dsha hash160 mulG k' = hk_address_string dsha hash160 mulG k /\ xprv_string dsha k' = xprv_string dsha k /\ to_pub mulG k' = to_pub mulG k.
Proof.
  intros hmac hash160 mulG dsha rz k R S. rewrite (make_ok rz (hk_num k) (parts_of k) R S). eexists. split; [reflexivity|]. split.
  - intros [|i l] NE; [congruence|]. reflexivity.
  - split; [reflexivity|]. split; reflexivity.
Qed.
