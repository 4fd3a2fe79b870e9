(** Multiples of the point at infinity, and concrete cases of the operators on points. *)
From Coq Require Import Lia.
From Verif Require Import Base.Bytes Base.BytesFacts Base.Curve Spec.Bignum Spec.Codecs Spec.Hash Spec.Keys Spec.Scalar Spec.Point Spec.Curve Spec.Schemes
  Model.Bignum Model.Scalar Model.Stream Model.Point Model.EC Model.Hash Model.PointOps
  Proof.IntVarint Proof.ScalarProps Proof.PointFacts Proof.PointProps Proof.CurveFacts Proof.EcGroup Proof.EcInf
  Proof.EcMult Proof.EcTable Proof.EcOrder Proof.EcApi Proof.EcdsaFacts Proof.PointOpsFacts Proof.SchemeProps Proof.SchemeMain Proof.SchemeMore Proof.SignHints Proof.SignExample Proof.SchemeCases Proof.SchnorrCases.
Open Scope Z_scope.

Lemma mul_infinity : forall rz num p, random_below P rz -> word256 num -> number num <> 0 -> pt_xy p = point_bytes None -> pt_mul rz num p = UB.
Proof.
  intros rz a q R W NZ E. change (point_bytes None) with (zeros 64) in E.
  unfold pt_mul. assert (G : pt_eq q GeneratorPoint = false) by (unfold pt_eq; rewrite E; vm_compute; reflexivity). rewrite G, E. destruct (slices_coords 0 0) as [S1 S2]. rewrite <- zeros_coords in S1, S2. step S1. step S2.
  destruct (read_word256 a W) as [NA VA]. change (bn_read_be (be_bytes 32 0), bn_read_be (be_bytes 32 0)) with cp_infinity. rewrite multiply_infinity; auto. lia.
Qed.
Lemma last_step : forall a, is_point a -> forall n, 0 < n -> smul n a = None -> ec_add (ec_mul (n - 1) a) a = None.
Proof. intros a A n L E. rewrite ec_mul_smul by lia. rewrite <- (smul_1 a) at 2. rewrite <- smul_add by exact A. replace (n - 1 + 1) with n by lia. exact E. Qed.
(** The order minus one times the generator, the generator, and one more addition: the point at infinity. *)
Lemma infinity_reached : forall rz1 rz2 num, random_below P rz1 -> random_below P rz2 -> word256 num -> number num <> 0 ->
  exists m s, pt_mul rz1 (be_bytes 32 (N - 1)) GeneratorPoint = Ok m /\ pt_add m GeneratorPoint = Ok s /\ pt_eq s InfinityPoint = true /\ pt_mul rz2 num s = UB.
Proof.
  intros rz1 rz2 num R1 R2 W NZ. pose proof order_pos as OP. destruct (word_of (N - 1) ltac:(lia)) as [S V].
  destruct (pt_mul_ok rz1 _ GeneratorPoint gen R1 S gen_point ltac:(discriminate) generator_bytes) as (m & E & X & _). exists m.
  destruct (pt_add_ok m GeneratorPoint _ _ (ec_mul_point _ _ gen_point) gen_point X generator_bytes) as (s & EA & XA). exists s.
  assert (Q : pt_xy s = point_bytes None).
  { rewrite XA, V, (last_step gen gen_point N ltac:(lia) gen_order). reflexivity. }
  split; [auto|]. split; [auto|]. split; [unfold pt_eq; rewrite Q; reflexivity|]. apply mul_infinity; auto.
Qed.
Lemma mul_case : forall rz, random_below P rz -> exists r, pt_mul rz (be_bytes 32 satoshi_k) GeneratorPoint = Ok r /\ pt_xy r = coords (fst satoshi_point) (snd satoshi_point) /\
  forall g, exists n, pt_neg g r = Ok n /\ pt_xy n = coords (fst satoshi_point) (P - snd satoshi_point).
Proof.
  intros rz R. assert (RK : 0 <= satoshi_k < N) by (split; [discriminate|reflexivity]). destruct (word_of satoshi_k RK) as [S V].
  destruct (pt_mul_ok rz _ GeneratorPoint gen R S gen_point ltac:(discriminate) generator_bytes) as (r & E & X & _). exists r. rewrite V in X. pose proof satoshi_mul as M. rewrite M in X.
  pose proof (ec_mul_point satoshi_k gen gen_point) as PT. rewrite M in PT. destruct satoshi_point as [sx sy]. cbn [fst snd] in *. split; [exact E|]. split; [exact X|].
  intros g. destruct (pt_neg_ok g r _ PT X) as (n & EN & XN). exists n. split; [exact EN|]. rewrite XN, (proj1 (neg_y sx sy PT)). reflexivity.
Qed.
Lemma ecdh_case : forall rz0 rz0' rz1 rz2, random_below P rz0 -> random_below P rz0' -> random_below P rz1 -> random_below P rz2 ->
  exists ka kb, prv_make rz0 (be_bytes 32 1) true = Ok ka /\ prv_make rz0' (be_bytes 32 satoshi_k) false = Ok kb /\ prv_ecdh rz1 ka (prv_pub kb) false = Ok (be_bytes 32 (fst satoshi_point)) /\ prv_ecdh rz2 kb (prv_pub ka) false = Ok (be_bytes 32 (fst satoshi_point)).
Proof.
  intros rz0 rz0' rz1 rz2 R0 R0' R1 R2. assert (RK : 0 <= satoshi_k < N) by (split; [discriminate|reflexivity]). assert (PK : 0 < satoshi_k) by reflexivity. destruct (word_of satoshi_k RK) as [S V]. fold one. destruct one_scalar as [S1 V1].
  destruct (prv_make_ok rz0 one true R0 S1) as (p & E & _). destruct (prv_make_ok rz0' _ false R0' S) as (p' & E' & _). do 2 eexists. split; [exact E|]. split; [exact E'|].
  destruct (ecdh_symmetric rz0 rz0' rz1 rz2 _ _ _ _ _ _ false R0 R0' R1 R2 (proj1 S1) (proj1 S) ltac:(rewrite V1; pose proof order_pos; pose proof order_range; lia) ltac:(rewrite V; lia) E E') as (x & y & M & _ & A & B).
  rewrite V1, V, Z.mul_1_l, satoshi_mul in M. apply (f_equal (fun o => match o with Some p => fst p | None => 0 end)) in M. cbv beta iota in M. change (fst (x, y)) with x in M. rewrite M. auto.
Qed.
Lemma less_case : let p := mkPt (coords gen_x gen_y) true DONE 0 in let q := mkPt (coords gen_x (field_prime - gen_y)) true DONE 0 in
  be_val 256 (sec_bytes true gen_x gen_y) < be_val 256 (sec_bytes true gen_x (field_prime - gen_y)) /\ pt_less p q = Ok false /\ pt_less q p = Ok true.
Proof. vm_compute. repeat split. Qed.
Lemma prv_inj : forall rz rz' d d' c c' k k', random_below P rz -> random_below P rz' -> is_scalar d -> is_scalar d' ->
  prv_make rz d c = Ok k -> prv_make rz' d' c' = Ok k' -> pt_eq (prv_pub k) (prv_pub k') = true -> d = d'.
Proof.
  intros rz rz' d d' c c' k k' R R' [W L] [W' L'] E E' Q. destruct (prv_make_ok rz d c R (conj W L)) as (p & E1 & X & _). destruct (prv_make_ok rz' d' c' R' (conj W' L')) as (p' & E1' & X' & _).
  rewrite E1 in E. injection E as <-. rewrite E1' in E'. injection E' as <-. cbn [prv_pub] in Q. unfold pt_eq in Q. destruct (list_eq_dec Z.eq_dec (pt_xy p) (pt_xy p')) as [Q'|]; [|discriminate].
  rewrite X, X' in Q'. apply point_bytes_inj in Q'; try (apply ec_mul_point; exact gen_point).
  pose proof (number_range d W) as [B _]. pose proof (number_range d' W') as [B' _]. rewrite !ec_mul_smul in Q' by assumption. apply number_inj; auto. apply smul_gen_inj; auto.
Qed.
Lemma large_case : word256 (zeros 31 ++ [1]) /\ is_scalar (zeros 31 ++ [1]) /\ word256 (repeat 255 32) /\ group_order <= number (repeat 255 32).
Proof. assert (W : word256 (zeros 31 ++ [1])) by (split; [repeat constructor; discriminate|reflexivity]). split; [exact W|]. split; [split; [exact W|reflexivity]|]. split; [split; [repeat constructor; discriminate|reflexivity]|]. vm_compute. discriminate. Qed.
Lemma less_reversed : forall p q x y x' y', pt_xy p = coords x y -> pt_xy q = coords x' y' -> pt_comp p = true -> pt_comp q = true ->
  be_val 256 (sec_bytes true x y) < be_val 256 (sec_bytes true x' y') -> pt_less p q = Ok false /\ pt_less q p = Ok true.
Proof.
  intros p q x y x' y' E E' C C' L. assert (V : forall x y, be_val 256 (sec_bytes true x y ++ zeros (65 - length (sec_bytes true x y))) = be_val 256 (sec_bytes true x y) * 256^32).
  { intros. rewrite be_val_app, sec_length. cbv iota. change (be_val 256 (zeros (65 - 33))) with 0. change (len (zeros (65 - 33))) with 32. apply Z.add_0_r. }
  rewrite (less_ok p q x y x' y' E E'), (less_ok q p x' y' x y E' E), C, C', !V. assert (Q : 0 < 256^32) by reflexivity. generalize dependent (256^32). intros z _ Q. split; f_equal; [apply Z.ltb_ge|apply Z.ltb_lt]; nia.
Qed.
