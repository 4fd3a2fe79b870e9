(** The operators of ECPoint compute in the curve group. *)
From Coq Require Import Lia Znumtheory.
From Verif Require Import Base.Bytes Base.BytesFacts Spec.Bignum Spec.Codecs Spec.Wire Spec.Objects Spec.Keys Spec.Scalar Spec.Point Spec.Curve Spec.Schemes
  Model.Bignum Model.Scalar Model.Inverse Model.Stream Model.Point Model.EC Model.ECDSA Model.PointOps
  Proof.IntVarint Proof.BnCore Proof.BnRed Proof.BnMul Proof.BnIo Proof.InvFinish Proof.ScalarProps Proof.PointFacts Proof.PointProps Proof.CurveFacts Proof.EcField Proof.EcPoint Proof.EcJac Proof.EcGroup
  Proof.EcRecode Proof.EcMult Proof.EcTable Proof.EcOrder Proof.EcApi.
Open Scope Z_scope.

(** ** 64 bytes for a point *)
Lemma point_bytes_len : forall a, length (point_bytes a) = 64%nat.
Proof. intros [[x y]|]; [apply coords_len|reflexivity]. Qed.
Lemma point_bytes_ok : forall a, bytes_ok (point_bytes a).
Proof. intros [[x y]|]; [apply coords_ok|apply bytes_ok_zeros]. Qed.
Lemma coords_inj : forall x y x' y', 0 <= x < P -> 0 <= y < P -> 0 <= x' < P -> 0 <= y' < P -> coords x y = coords x' y' -> x = x' /\ y = y'.
Proof.
  intros x y x' y' X Y X' Y' E. destruct (sec_inj false false x y x' y' [] []) as (_ & A & B); auto. cbn [sec_bytes]. rewrite E. reflexivity.
Qed.
Lemma curve_not_zero : forall x y, on_curve x y -> coords x y <> zeros 64.
Proof.
  intros x y O E. rewrite zeros_coords in E. pose proof O as (X & Y & C). pose proof P_range. destruct (coords_inj x y 0 0) as [-> ->]; auto; try lia.
  rewrite (Z.mod_small 0), (Z.mod_small (0 * 0 * 0 + 7)) in C by lia. lia.
Qed.
Lemma point_bytes_inj : forall a b, is_point a -> is_point b -> point_bytes a = point_bytes b -> a = b.
Proof.
  intros [[x y]|] [[x' y']|] A B E; cbn [point_bytes] in E; auto.
  - destruct (coords_inj x y x' y') as [-> ->]; auto; try apply A; apply B.
  - exfalso. apply (curve_not_zero x y A E).
  - exfalso. apply (curve_not_zero x' y' B). auto.
Qed.
Lemma pt_eq_point : forall p q a b, pt_xy p = point_bytes a -> pt_xy q = point_bytes b -> is_point a -> is_point b -> pt_eq p q = true <-> a = b.
Proof.
  intros p q a b E F A B. unfold pt_eq. destruct (list_eq_dec Z.eq_dec (pt_xy p) (pt_xy q)) as [D|D].
  - split; auto. intros _. apply point_bytes_inj; auto. rewrite <- E, <- F. exact D.
  - split; [discriminate|]. intros ->. destruct D. rewrite E, F. reflexivity.
Qed.
Lemma pt_eq_inf : forall p a, pt_xy p = point_bytes a -> is_point a -> pt_eq p InfinityPoint = match a with None => true | _ => false end.
Proof.
  intros p a E A. pose proof (pt_eq_point p InfinityPoint a None E eq_refl A I) as H. destruct (pt_eq p InfinityPoint).
  - rewrite (proj1 H eq_refl). reflexivity.
  - destruct a; auto. discriminate (proj2 H eq_refl).
Qed.
Lemma generator_bytes : pt_xy GeneratorPoint = point_bytes gen.
Proof. vm_compute. reflexivity. Qed.
Lemma pt_eq_gen : forall p a, pt_xy p = point_bytes a -> is_point a -> (pt_eq p GeneratorPoint = true <-> a = gen).
Proof. intros. apply pt_eq_point; auto using generator_bytes, gen_point. Qed.

(** ** Reading what [sec] wrote *)
Lemma sec_length : forall c x y, length (sec_bytes c x y) = if c then 33%nat else 65%nat.
Proof. intros [] x y; cbn [sec_bytes length]; [rewrite be_bytes_length|rewrite coords_len]; reflexivity. Qed.
Lemma sec65 : forall p x y, pt_xy p = coords x y -> pt_sec p 65 = Ok (pt_length (pt_comp p), sec_bytes (pt_comp p) x y ++ zeros (65 - length (sec_bytes (pt_comp p) x y))).
Proof.
  intros p x y E. unfold pt_sec. rewrite (pt_slices p ltac:(rewrite E; apply coords_len) 65%nat 0 ltac:(lia)). rewrite E, pt_bytes_coords.
  change (Z.to_nat 0) with 0%nat. rewrite skipn_O, firstn_all2 by (rewrite sec_length; destruct (pt_comp p); lia).
  unfold len. do 2 f_equal. rewrite sec_length. destruct (pt_comp p); reflexivity.
Qed.
Lemma read_load : forall pub q, read_pubkey pub = Ok (Some q) -> load_pubkey pub = Ok q.
Proof.
  intros pub q. unfold read_pubkey, load_pubkey. destruct (aget pub 0) as [b|]; [|discriminate]. rewrite !bind_Ok. cbv beta.
  destruct (b =? 4).
  - destruct (slice pub 1 32) as [xs|]; [|discriminate]. rewrite !bind_Ok. cbv beta. destruct (slice pub 33 32) as [ys|]; [|discriminate]. rewrite !bind_Ok. cbv beta.
    cbv zeta. destruct (validate_pubkey _) as [[]|]; [|discriminate|discriminate]. rewrite bind_Ok. cbv beta iota. intros H. injection H as <-. reflexivity.
  - destruct ((b =? 2) || (b =? 3)); [|discriminate]. destruct (slice pub 1 32) as [xs|]; [|discriminate]. rewrite !bind_Ok. cbv beta zeta.
    destruct (uncompress_coords b (bn_read_be xs)) as [y|]; [|discriminate]. rewrite !bind_Ok. cbv beta.
    destruct (validate_pubkey _) as [[]|]; [|discriminate|discriminate]. rewrite bind_Ok. cbv beta iota. intros H. injection H as <-. reflexivity.
Qed.
Lemma read_sec : forall c x y rest, on_curve x y -> bytes_ok rest -> exists q, read_pubkey (sec_bytes c x y ++ rest) = Ok (Some q) /\ crep q (Some (x, y)).
Proof.
  intros c x y rest O B. assert (L : (33 <= length (sec_bytes c x y))%nat) by (rewrite sec_length; destruct c; lia).
  destruct (read_pubkey_ok (sec_bytes c x y ++ rest)) as (r & E & R).
  - apply bytes_ok_app. split; auto. apply sec_ok.
  - rewrite app_length. lia.
  - rewrite app_length, sec_length. destruct c; [|lia]. cbn [sec_bytes app nth]. intros H. exfalso. clear - H. dlia.
  - destruct r as [[bx bY]|]; unfold reads in R.
    + destruct R as (NX & NY & O' & c' & rest' & Q). exists (bx, bY). split; auto.
      destruct (sec_inj _ _ _ _ _ _ _ _ (proj1 O) (proj1 (proj2 O)) (proj1 O') (proj1 (proj2 O')) Q) as (EC & EX & EY). subst c'. subst x.
      replace y with (bn_val bY); [apply crep_intro; auto|]. destruct c; [|auto]. apply (curve_unique (bn_val bx)); auto.
    + exfalso. apply (R c x y rest O eq_refl).
Qed.
Lemma pt_load_ok : forall p x y, pt_xy p = coords x y -> on_curve x y -> exists q, pt_load p = Ok q /\ crep q (Some (x, y)).
Proof.
  intros p x y E O. unfold pt_load. step (sec65 p x y E). cbn [snd].
  destruct (read_sec (pt_comp p) x y (zeros (65 - length (sec_bytes (pt_comp p) x y))) O (bytes_ok_zeros _)) as (q & R & C). exists q. split; auto. apply read_load. exact R.
Qed.

(** ** Operators *)
Lemma pt_add_ok : forall p q a b, is_point a -> is_point b -> pt_xy p = point_bytes a -> pt_xy q = point_bytes b ->
  exists r, pt_add p q = Ok r /\ pt_xy r = point_bytes (ec_add a b).
Proof.
  intros p q a b A B E F. unfold pt_add. rewrite (pt_eq_inf p a), (pt_eq_inf q b) by auto. destruct a as [[x y]|]; [|exists q; rewrite F; destruct b as [[]|]; auto].
  destruct b as [[x' y']|]; [|exists p; rewrite E; auto]. destruct (pt_load_ok p x y E A) as (c & E1 & C1). destruct (pt_load_ok q x' y' F B) as (d & E2 & C2).
  step E1. step E2. destruct (crep_add _ _ _ _ C1 C2) as (s & E3 & C3). step E3. eexists. split; [reflexivity|]. apply cp_bytes_ok. exact C3.
Qed.
Lemma P_odd2 : P mod 2 = 1. Proof. vm_compute. reflexivity. Qed.
Lemma y_nonzero : forall x y, on_curve x y -> y <> 0.
Proof. intros x y O E. apply (F_odd _ _ (good_toP (Some (x, y)) O)). rewrite E. reflexivity. Qed.
Lemma even_coords : forall p x y, pt_xy p = coords x y -> pt_even p = (y mod 2 =? 0).
Proof.
  intros p x y E. unfold pt_even. rewrite E. unfold coords. rewrite app_nth2; rewrite be_bytes_length; [|lia]. change (63 - 32)%nat with 31%nat. rewrite be_last, land1.
  f_equal. clear. dlia.
Qed.
Lemma x_coords : forall p x y, pt_xy p = coords x y -> pt_x p = be_bytes 32 x.
Proof. intros p x y E. unfold pt_x. rewrite E. unfold coords. apply firstn_app_len. rewrite be_bytes_length. reflexivity. Qed.
Lemma new_ready : pt_ready pt_new.
Proof. split; [reflexivity|]. split; [reflexivity|]. apply bytes_ok_zeros. Qed.
Lemma parse_sec : forall g fb c x y, on_curve x y ->
  pt_parse g (pt_new, fb) (sec_bytes c x y) = Ok ((mkPt (coords x y) c DONE (pt_length c), hd 0 (sec_bytes c x y)), pt_length c, []).
Proof. intros g fb c x y O. rewrite <- (app_nil_r (sec_bytes c x y)) at 1. apply pt_whole; auto. apply new_ready. Qed.
Lemma neg_y : forall x y, on_curve x y -> ec_neg (Some (x, y)) = Some (x, P - y) /\ on_curve x (P - y) /\ (P - y) mod 2 = 1 - y mod 2.
Proof.
  intros x y O. pose proof (y_nonzero x y O) as NZ. pose proof O as (X & Y & _).
  assert (E : ec_neg (Some (x, y)) = Some (x, P - y)).
  { cbn [ec_neg]. do 2 f_equal. replace (- y) with (P - y + (-1) * P) by ring. rewrite Z.mod_add, Z.mod_small by lia. reflexivity. }
  split; auto. split.
  - pose proof (ec_neg_point (Some (x, y)) O) as H. rewrite E in H. exact H.
  - pose proof P_odd2. clear - H. dlia.
Qed.
Lemma pt_neg_ok : forall g p a, is_point a -> pt_xy p = point_bytes a -> exists r, pt_neg g p = Ok r /\ pt_xy r = point_bytes (ec_neg a).
Proof.
  intros g p a A E. unfold pt_neg. rewrite (pt_eq_inf p a) by auto. destruct a as [[x y]|]; [|exists p; auto].
  cbn [point_bytes] in E. rewrite (even_coords p x y E), (x_coords p x y E). destruct (neg_y x y A) as (N & O & M). rewrite N.
  replace ((if y mod 2 =? 0 then 3 else 2) :: be_bytes 32 x) with (sec_bytes true x (P - y)).
  - step (parse_sec g 0 true x (P - y) O). eexists. split; reflexivity.
  - cbn [sec_bytes]. rewrite M. f_equal. destruct (Z.eqb_spec (y mod 2) 0) as [Q|Q]; clear - Q; dlia.
Qed.
Lemma pt_sub_ok : forall g p q a b, is_point a -> is_point b -> pt_xy p = point_bytes a -> pt_xy q = point_bytes b ->
  exists r, pt_sub g p q = Ok r /\ pt_xy r = point_bytes (ec_add a (ec_neg b)).
Proof.
  intros g p q a b A B E F. unfold pt_sub. destruct (pt_neg_ok g q b B F) as (n & E1 & X1). step E1. apply pt_add_ok; auto. apply ec_neg_point. auto.
Qed.
Lemma read_coords : forall x y, on_curve x y -> crep (bn_read_be (be_bytes 32 x), bn_read_be (be_bytes 32 y)) (Some (x, y)).
Proof.
  intros x y O. pose proof O as (X & Y & _). pose proof P_range. destruct (read_word256 _ (scalar_word x)) as [NX VX]. destruct (read_word256 _ (scalar_word y)) as [NY VY].
  rewrite scalar_of_num in VX, VY by lia. pose proof (crep_intro _ _ NX NY) as C. rewrite VX, VY in C. apply C. exact O.
Qed.
Lemma slices_coords : forall x y, slice (coords x y) 0 32 = Ok (be_bytes 32 x) /\ slice (coords x y) 32 32 = Ok (be_bytes 32 y).
Proof.
  intros x y. rewrite !slice_ok by (rewrite coords_len; lia). unfold coords. split; apply f_equal.
  - change (skipn 0 (be_bytes 32 x ++ be_bytes 32 y)) with (be_bytes 32 x ++ be_bytes 32 y). apply firstn_app_len. rewrite be_bytes_length. reflexivity.
  - rewrite skipn_app_len by (rewrite be_bytes_length; reflexivity). apply firstn_all2. rewrite be_bytes_length. constructor.
Qed.
Lemma pt_mul_ok : forall rz num p a, random_below P rz -> is_scalar num -> is_point a -> a <> None -> pt_xy p = point_bytes a ->
  exists r, pt_mul rz num p = Ok r /\ pt_xy r = point_bytes (ec_mul (number num) a) /\ pt_comp r = pt_comp p.
Proof.
  intros rz num p a R [W L] A NA E. destruct (read_word256 num W) as [NN VN]. unfold pt_mul. pose proof (pt_eq_gen p a E A) as G.
  destruct (pt_eq p GeneratorPoint).
  - rewrite (proj1 G eq_refl). unfold get_public_key65. destruct (scalar_multiply_all rz _ R NN) as (r & E1 & C1); [rewrite VN; auto|]. rewrite E1, !bind_Ok. cbv beta.
    rewrite (cp_bytes_ok _ _ C1). rewrite VN in C1 |- *. destruct (ec_mul (number num) gen) as [[x y]|] eqn:M.
    + cbn [point_bytes]. change (4 :: coords x y) with (sec_bytes false x y).
      step (parse_sec (zeros 64) 0 false x y (proj1 C1)). eexists. split; [reflexivity|]. split; reflexivity.
    + assert (X : exists k' fb' n rest, pt_parse (zeros 64) (pt_new, 0) (4 :: point_bytes None) = Ok ((k', fb'), n, rest) /\ pt_xy k' = zeros 64) by (do 4 eexists; split; vm_compute; reflexivity).
      destruct X as (k' & fb' & n & rest & E2 & X). step E2. eexists. split; [reflexivity|]. split; [exact X|reflexivity].
  - destruct a as [[x y]|]; [|congruence]. cbn [point_bytes] in E. rewrite E. destruct (slices_coords x y) as [S1 S2]. step S1. step S2.
    destruct (point_multiply_all rz _ _ _ R NN ltac:(lia) (read_coords x y A) NA) as (r & E1 & C1). step E1. rewrite VN in C1. eexists. split; [reflexivity|].
    split; [|reflexivity]. apply cp_bytes_ok. exact C1.
Qed.
Lemma pt_mul_over : forall rz num p, word256 num -> group_order <= number num -> length (pt_xy p) = 64%nat -> pt_mul rz num p = UB.
Proof.
  intros rz num p W L E. destruct (read_word256 num W) as [NN VN]. destruct (multiply_over (bn_read_be num) NN ltac:(lia)) as [U1 U2]. unfold pt_mul.
  destruct (pt_eq p GeneratorPoint); [unfold get_public_key65; rewrite U1; reflexivity|]. rewrite !slice_ok by lia. rewrite !bind_Ok. cbv beta. rewrite U2. reflexivity.
Qed.
Lemma prv_make_ok : forall rz d c, random_below P rz -> is_scalar d -> exists p, prv_make rz d c = Ok (mkPrv d p) /\ pt_xy p = point_bytes (ec_mul (number d) gen) /\ pt_comp p = c /\ pt_status p = DONE.
Proof.
  intros rz d c R S. unfold prv_make. destruct (pt_mul_ok rz d GeneratorPoint gen R S gen_point ltac:(discriminate) generator_bytes) as (r & E & X & _). step E.
  eexists. split; [reflexivity|]. cbn [pt_xy pt_comp pt_status]. auto.
Qed.
Lemma prv_make_over : forall rz d c, word256 d -> group_order <= number d -> prv_make rz d c = UB.
Proof. intros rz d c W L. unfold prv_make. rewrite pt_mul_over; auto. Qed.
Lemma generator_parses : forall g fb, pt_parse g (pt_new, fb) generator_sec = Ok ((GeneratorPoint, 2), 33, []).
Proof.
  intros g fb. replace generator_sec with (sec_bytes true gen_x gen_y) by (vm_compute; reflexivity). rewrite (parse_sec g fb true gen_x gen_y gen_point).
  replace (coords gen_x gen_y) with (pt_xy GeneratorPoint) by (rewrite generator_bytes; reflexivity). reflexivity.
Qed.
