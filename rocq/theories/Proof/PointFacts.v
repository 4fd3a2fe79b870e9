(** Reading and checking encoded points. *)
From Coq Require Import Lia Znumtheory Zpow_facts.
From Verif Require Import Base.Bytes Base.BytesFacts Base.Fermat Base.Primes Spec.Codecs Spec.Bignum Spec.Point Model.Bignum Model.Scalar Model.Stream Model.Point
  Proof.BnCore Proof.BnRed Proof.BnMul Proof.BnIo Proof.BnSqrt Proof.ScalarProps Proof.IntVarint Proof.KeyFacts Proof.SigProps.
Open Scope Z_scope.
Notation P := field_prime.

Lemma prime_val : bn_val prime_limbs = P.
Proof. vm_compute. reflexivity. Qed.
Lemma P_range : 2^256 - 2^224 < P < 2^256.
Proof. unfold field_prime. lia. Qed.
Lemma field_prime_prime : prime P.
Proof. exact prime_p256. Qed.
Lemma P_odd : P mod 4 = 3.
Proof. reflexivity. Qed.
Global Opaque field_prime.

(** * Square roots *)
Lemma root_pm : forall y e, ~ (P | y) -> e = (P - 1) / 2 -> (P | y ^ e - 1) \/ (P | y ^ e + 1).
Proof.
  intros y e Hy ->. pose proof P_range. pose proof P_odd.
  assert (E : (y ^ ((P - 1) / 2) - 1) * (y ^ ((P - 1) / 2) + 1) = y ^ (P - 1) - 1).
  { set (h := (P - 1) / 2). assert (Hh : P - 1 = h + h /\ 0 <= h) by (unfold h; dlia). destruct Hh as [-> Hh].
    rewrite Z.pow_add_r by auto. ring. }
  apply prime_mult; [exact field_prime_prime|]. rewrite E. apply fermat; auto. exact field_prime_prime.
Qed.
Lemma pow_mod_eq : forall a b e, 0 <= e -> a mod P = b mod P -> (a ^ e) mod P = (b ^ e) mod P.
Proof. intros. pose proof P_range. apply pow_mod_base; auto; lia. Qed.
Lemma divide_mod_eq : forall a b, (P | a - b) -> a mod P = b mod P.
Proof. intros a b [q E]. replace a with (b + q * P) by lia. apply Z.mod_add. pose proof P_range. lia. Qed.
Lemma mod_eq_divide : forall a b, a mod P = b mod P -> (P | a - b).
Proof.
  intros a b E. pose proof P_range. exists (a / P - b / P). pose proof (Z.div_mod a P). pose proof (Z.div_mod b P). lia.
Qed.
Lemma sqrt_root : forall y c, 0 <= y < P -> c mod P = (y * y) mod P ->
  c ^ ((P + 1) / 4) mod P = y \/ c ^ ((P + 1) / 4) mod P = (P - y) mod P.
Proof.
  intros y c Hy E. pose proof P_range. pose proof P_odd. set (h := (P + 1) / 4). assert (Hh : P = 4 * h - 1 /\ 0 < h) by (unfold h; dlia).
  destruct Hh as [HP Hh]. rewrite (pow_mod_eq c (y * y) h) by (auto; lia).
  assert (Z : (y * y) ^ h = y * y ^ ((P - 1) / 2)).
  { replace (y * y) with (y ^ 2) by ring. rewrite <- Z.pow_mul_r by lia. replace (2 * h) with (Z.succ ((P - 1) / 2)) by dlia.
    apply Z.pow_succ_r. dlia. }
  destruct (Z.eq_dec y 0) as [->|N].
  { left. rewrite Z.mul_0_l. rewrite Z.pow_0_l by auto. apply Z.mod_0_l. lia. }
  assert (ND : ~ (P | y)) by (intros D; apply Z.divide_pos_le in D; lia).
  rewrite Z. clear Z. destruct (root_pm y _ ND eq_refl) as [D|D]; [left|right].
  - rewrite <- (Z.mod_small y P) at 3 by lia. apply divide_mod_eq.
    replace (_ - y) with (y * (y ^ ((P - 1) / 2) - 1)) by ring. apply Z.divide_mul_r. exact D.
  - apply divide_mod_eq. replace (_ - (P - y)) with (y * (y ^ ((P - 1) / 2) + 1) + (-1) * P) by ring.
    apply Z.divide_add_r; [apply Z.divide_mul_r; exact D|apply Z.divide_mul_r, Z.divide_refl].
Qed.

(** Going on after a step of the model; the kernel must not compare its two sides by computing. *)
Lemma bind_Ok : forall (A C : Type) (a : A) (f : A -> outcome C), bind (Ok a) f = f a.
Proof. reflexivity. Qed.
Ltac step E := rewrite E, bind_Ok; cbv beta.

(** * Field operations on limbs *)
Definition wide (x : bn) : Prop := normalized x /\ bn_val x < 180 * P.
Lemma part_wide : forall x, partly_reduced x prime_limbs -> wide x.
Proof. intros x [N V]. rewrite prime_val in V. pose proof P_range. split; auto. lia. Qed.
Lemma bn_mul_ok : forall k x, wide k -> wide x -> exists r, bn_mul k x prime_limbs = Ok r /\ partly_reduced r prime_limbs /\
  bn_val r mod P = (bn_val k * bn_val x) mod P.
Proof.
  intros k x [Nk Vk] [Nx Vx]. destruct (bn_multiply_180 k x prime_limbs prime_modulus) as (A & C & D); auto; try (rewrite prime_val; auto).
  unfold bn_mul. rewrite D. rewrite prime_val in C. eauto.
Qed.
Lemma subi0 : forall x, partly_reduced x prime_limbs -> exists r, bn_subi_o x 0 prime_limbs = Ok r /\ wide r /\ bn_val r = bn_val x + P.
Proof.
  intros x [N V]. unfold bn_subi_o. assert (A : bn_subi_assert 0 prime_limbs = true) by reflexivity. rewrite A.
  destruct (bn_subi_spec x 0 prime_limbs N (proj1 prime_modulus) ltac:(lia) A) as [N2 V2].
  rewrite prime_val in *. pose proof P_range. pose proof (norm_val x N). rewrite Z.mod_small in V2 by lia.
  eexists. split; [reflexivity|]. split; [split; auto; lia|lia].
Qed.
Lemma b_val : normalized curve_b /\ bn_val curve_b = 7.
Proof. split; [split; [reflexivity|repeat (constructor; [lia|]); constructor]|reflexivity]. Qed.
(** x^3 as the code computes it. *)
Lemma cube : forall x, wide x -> exists a b c, bn_mul x x prime_limbs = Ok a /\ bn_subi_o a 0 prime_limbs = Ok b /\
  bn_mul x b prime_limbs = Ok c /\ partly_reduced c prime_limbs /\ bn_val c mod P = (bn_val x * bn_val x * bn_val x) mod P.
Proof.
  intros x W. pose proof P_range. destruct (bn_mul_ok x x W W) as (a & Ea & Pa & Va). destruct (subi0 a Pa) as (b & Eb & Wb & Vb).
  destruct (bn_mul_ok x b W Wb) as (c & Ec & Pc & Vc). exists a, b, c. repeat (split; [assumption|]).
  assert (Q : (bn_val a + P) mod P = (bn_val x * bn_val x) mod P) by (rewrite <- Va, <- (Z.mod_add (bn_val a) 1 P) by lia; f_equal; ring).
  rewrite Vc, Vb, Z.mul_mod, Q, <- Z.mul_mod by lia. f_equal. ring.
Qed.
Lemma land1 : forall x, Z.land x 1 = x mod 2.
Proof. intros. change 1 with (Z.ones 1). rewrite Z.land_ones by lia. reflexivity. Qed.
Lemma limb0_parity : forall x, normalized x -> limb x 0 mod 2 = bn_val x mod 2.
Proof.
  intros x [L _]. destruct x as [|a t]; [discriminate|]. unfold limb. cbn [nth]. rewrite bn_val_cons.
  replace (a + B * bn_val t) with (a + (2^29 * bn_val t) * 2) by ring. rewrite Z.mod_add by lia. reflexivity.
Qed.
Definition rhs (x : Z) : Z := x * x * x + 7.
(** What [uncompress_coords] gives: a candidate with the parity asked for, or the prime itself. *)
Lemma uncompress_ok : forall odd x, wide x -> exists y, uncompress_coords odd x = Ok y /\ normalized y /\ bn_val y <= P /\
  (let r := rhs (bn_val x) ^ ((P + 1) / 4) mod P in bn_val y = if odd mod 2 =? r mod 2 then r else P - r).
Proof.
  intros odd x W. pose proof P_range. destruct (cube x W) as (a & b & c & Ea & Eb & Ec & Pc & Vc).
  unfold uncompress_coords. step Ea. step Eb. step Ec.
  destruct Pc as [Nc Lc]. rewrite prime_val in Lc. destruct b_val as [Nb Vb]. destruct (bn_add_spec c curve_b Nc Nb) as [Nd Vd].
  pose proof (norm_val c Nc). rewrite Vb, Z.mod_small in Vd by lia.
  set (d := bn_add c curve_b) in *. destruct (bn_sqrt_wide d prime_limbs prime_modulus) as [[Ns Rs] Vs]; [split; auto; rewrite prime_val; lia|].
  rewrite prime_val in *. set (s := bn_sqrt d prime_limbs) in *.
  assert (E : bn_val s = rhs (bn_val x) ^ ((P + 1) / 4) mod P).
  { rewrite Vs. apply pow_mod_eq; [apply Z.div_pos; lia|]. rewrite Vd. unfold rhs. rewrite Z.add_mod, Vc, <- Z.add_mod by lia. reflexivity. }
  cbv zeta. rewrite <- E, !land1, limb0_parity by auto. pose proof (norm_val s Ns).
  destruct (Z.eqb_spec (odd mod 2) (bn_val s mod 2)) as [Q|Q].
  - exists s. repeat split; auto; try apply Ns; lia.
  - destruct (bn_subtract_spec prime_limbs s (proj1 prime_modulus) Ns) as [Nt Vt]. rewrite prime_val, Z.mod_small in Vt by lia.
    eexists. split; [reflexivity|]. split; auto. lia.
Qed.
Lemma validate_ok : forall x y : bn, normalized x -> normalized y ->
  exists b, validate_pubkey (x, y) = Ok b /\ (b = true <-> on_curve (bn_val x) (bn_val y)).
Proof.
  intros x y Nx Ny. pose proof P_range. pose proof (norm_val x Nx). pose proof (norm_val y Ny). unfold validate_pubkey, point_is_infinity. cbn [fst snd].
  rewrite !bn_is_zero_spec, !bn_is_less_spec, prime_val by (auto; apply prime_modulus).
  destruct ((bn_val x =? 0) && (bn_val y =? 0)) eqn:Z0.
  { exists false. split; auto. split; [discriminate|]. intros (_ & _ & C). apply andb_true_iff in Z0 as [A C2]. apply Z.eqb_eq in A, C2.
    rewrite A, C2 in C. cbn [Z.mul Z.add] in C. rewrite Z.mod_0_l, Z.mod_small in C by lia. discriminate. }
  destruct (Z.ltb_spec (bn_val x) P) as [Lx|Lx]; cbn [negb orb].
  2:{ exists false. split; auto. split; [discriminate|]. intros (C & _). lia. }
  destruct (Z.ltb_spec (bn_val y) P) as [Ly|Ly]; cbn [negb orb].
  2:{ exists false. split; auto. split; [discriminate|]. intros (_ & C & _). lia. }
  assert (Wx : wide x) by (split; auto; lia). assert (Wy : wide y) by (split; auto; lia).
  destruct (bn_mul_ok y y Wy Wy) as (y2 & E2 & P2 & V2). step E2.
  destruct (cube x Wx) as (a & b & c & Ea & Eb & Ec & Pc & Vc). step Ea. step Eb. step Ec.
  destruct b_val as [Nb Vb]. destruct (bn_addmod_spec c curve_b prime_limbs (proj1 Pc) Nb prime_modulus) as [Pd Vd]. rewrite prime_val, Vb in Vd.
  destruct Pd as [Nd Ld]. destruct P2 as [N2 L2].
  destruct (bn_mod_spec _ _ Nd (proj1 prime_modulus) Ld) as [Ne Ve]. destruct (bn_mod_spec _ _ N2 (proj1 prime_modulus) L2) as [Nf Vf].
  rewrite prime_val in *. rewrite bn_is_equal_spec by auto. eexists. split; [reflexivity|]. rewrite Z.eqb_eq, Ve, Vf, Vd, V2.
  unfold on_curve. rewrite Z.add_mod, Vc, <- Z.add_mod by lia. split; [intros; repeat split; try lia; auto|intros (_ & _ & C); auto].
Qed.

(** * Reading an encoded point *)
Lemma curve_unique : forall x y y', on_curve x y -> on_curve x y' -> y mod 2 = y' mod 2 -> y = y'.
Proof.
  intros x y y' (Hx & Hy & E) (_ & Hy' & E') M. pose proof P_odd.
  assert (D : (P | (y - y') * (y + y'))).
  { replace ((y - y') * (y + y')) with (y * y - y' * y') by ring. apply mod_eq_divide. congruence. }
  apply prime_mult in D; [|exact field_prime_prime]. destruct D as [[q D]|[q D]].
  - assert (q = 0) by nia. subst. lia.
  - assert (q = 0 \/ q = 1) as [->| ->] by nia; [lia|]. exfalso. dlia.
Qed.
Lemma on_curve_neg : forall x y, on_curve x y -> y <> 0 -> on_curve x (P - y).
Proof.
  intros x y (Hx & Hy & E) N. unfold on_curve. split; auto. split; [lia|]. rewrite <- E.
  apply divide_mod_eq. exists (P - 2 * y). ring.
Qed.
(** The candidate computed from x is on the curve exactly when some point has this x and parity. *)
Lemma candidate : forall b x, 0 <= x < P -> let r := rhs x ^ ((P + 1) / 4) mod P in
  let y := if b mod 2 =? r mod 2 then r else P - r in
  forall y', on_curve x y' -> y' mod 2 = b mod 2 -> y = y'.
Proof.
  intros b x Hx r y y' O M. pose proof P_range. pose proof P_odd. destruct O as (_ & Hy & E).
  destruct (sqrt_root y' (rhs x) Hy) as [S|S]; [symmetry; exact E| |].
  - fold r in S. unfold y. rewrite S, M, Z.eqb_refl. reflexivity.
  - fold r in S. unfold y. destruct (Z.eq_dec y' 0) as [->|N].
    + rewrite Z.sub_0_r, Z_mod_same_full in S. rewrite S, <- M. reflexivity.
    + rewrite Z.mod_small in S by lia. rewrite S. destruct (Z.eqb_spec (b mod 2) ((P - y') mod 2)) as [Q|Q]; [exfalso; dlia|lia].
Qed.
Lemma slice_ok : forall l off n, (off + n <= length l)%nat -> slice l off n = Ok (firstn n (skipn off l)).
Proof. intros. unfold slice. destruct (Nat.leb_spec (off + n) (length l)); auto; lia. Qed.
Lemma byte_be : forall x : list Z, bytes_ok x -> length x = 32%nat -> be_bytes 32 (be_val 256 x) = x.
Proof. intros x Hb L. rewrite <- L. apply be_bytes_of_val. auto. Qed.
Definition sec_len (c : bool) : nat := if c then 33%nat else 65%nat.
Lemma sec_bytes_len : forall c x y, length (sec_bytes c x y) = sec_len c.
Proof. intros [] x y; unfold sec_bytes, coords; cbn [length]; rewrite ?app_length, !be_bytes_length; reflexivity. Qed.
Lemma be_round : forall x, 0 <= x < P -> be_val 256 (be_bytes 32 x) = x.
Proof. intros. rewrite be_val_be_bytes. pose proof P_range. change (256 ^ Z.of_nat 32) with (2^256). apply Z.mod_small. lia. Qed.
Lemma mod2 : forall b, b = 2 \/ b = 3 -> 2 + b mod 2 = b.
Proof. intros b [->| ->]; reflexivity. Qed.

(** Everything about [read_pubkey]: it reads the points of the curve, and nothing else. *)
Definition reads (pub : list Z) (r : option cpoint) : Prop :=
  match r with
  | Some (bx, by_) => normalized bx /\ normalized by_ /\ on_curve (bn_val bx) (bn_val by_) /\
      exists c rest, pub = sec_bytes c (bn_val bx) (bn_val by_) ++ rest
  | None => forall c x y rest, on_curve x y -> pub <> sec_bytes c x y ++ rest
  end.
Lemma read_pubkey_ok : forall pub, bytes_ok pub -> (33 <= length pub)%nat -> (nth 0 pub 0 = 4 -> (65 <= length pub)%nat) ->
  exists r, read_pubkey pub = Ok r /\ reads pub r.
Proof.
  intros pub Hb L L4. destruct pub as [|b t]; [cbn in L; lia|]. cbn [nth length] in *. apply Forall_inv_tail in Hb. pose proof P_range.
  assert (A : aget (b :: t) 0 = Ok b) by reflexivity. unfold read_pubkey. step A.
  destruct (Z.eqb_spec b 4) as [->|N4].
  - specialize (L4 eq_refl). do 2 (rewrite slice_ok, bind_Ok by (cbn [length]; lia); cbv beta). cbv zeta.
    change (skipn 1 (4 :: t)) with t. change (skipn 33 (4 :: t)) with (skipn 32 t).
    set (xs := firstn 32 t). set (ys := firstn 32 (skipn 32 t)).
    assert (ET : t = xs ++ ys ++ skipn 64 t).
    { unfold xs, ys. change 64%nat with (32 + 32)%nat. rewrite <- (firstn_skipn 32 t) at 1. f_equal.
      rewrite <- (firstn_skipn 32 (skipn 32 t)) at 1. f_equal. rewrite skipn_add. reflexivity. }
    assert (Lx : length xs = 32%nat) by (unfold xs; rewrite firstn_length; lia).
    assert (Ly : length ys = 32%nat) by (unfold ys; rewrite firstn_length, skipn_length; lia).
    assert (Bx : bytes_ok xs) by (apply bytes_ok_firstn; auto). assert (By : bytes_ok ys) by (apply bytes_ok_firstn, bytes_ok_skipn; auto).
    destruct (bn_read_be_spec xs Bx Lx) as [Nx Vx]. destruct (bn_read_be_spec ys By Ly) as [Ny Vy].
    destruct (validate_ok _ _ Nx Ny) as (ok & Eo & Ho). step Eo. eexists. split; [reflexivity|]. destruct ok.
    + unfold reads. split; auto. split; auto. split; [apply Ho; auto|]. exists false, (skipn 64 t). unfold sec_bytes, coords.
      rewrite Vx, Vy, !byte_be by auto. cbn [app]. rewrite <- app_assoc. f_equal. exact ET.
    + unfold reads. intros c x y rest O E. assert (C : c = false).
      { destruct c; auto. apply (f_equal (hd 0)) in E. cbn [hd sec_bytes app] in E. dlia. }
      subst c. assert (F : false = true); [|discriminate]. apply Ho. rewrite Vx, Vy.
      unfold sec_bytes, coords in E. cbn [app] in E. apply (f_equal (@List.tl Z)) in E. cbn [List.tl] in E. rewrite <- app_assoc in E.
      assert (xs = be_bytes 32 x) as ->.
      { unfold xs. rewrite E. apply firstn_app_len. rewrite be_bytes_length. reflexivity. }
      assert (ys = be_bytes 32 y) as ->.
      { unfold ys. rewrite E. rewrite skipn_app_len by (rewrite be_bytes_length; reflexivity). apply firstn_app_len. rewrite be_bytes_length. reflexivity. }
      rewrite !be_round by apply O. exact O.
  - destruct ((b =? 2) || (b =? 3)) eqn:B23.
    2:{ eexists. split; [reflexivity|]. intros c x y rest O E. apply (f_equal (hd 0)) in E. apply orb_false_iff in B23 as [B2 B3].
        apply Z.eqb_neq in B2, B3. destruct c; cbn [hd sec_bytes app] in E; dlia. }
    assert (B2 : b = 2 \/ b = 3) by (apply orb_true_iff in B23 as [Q|Q]; apply Z.eqb_eq in Q; auto). clear B23.
    rewrite slice_ok, bind_Ok by (cbn [length]; lia). cbv beta zeta. change (skipn 1 (b :: t)) with t.
    set (xs := firstn 32 t). assert (Lx : length xs = 32%nat) by (unfold xs; rewrite firstn_length; lia).
    assert (Bx : bytes_ok xs) by (apply bytes_ok_firstn; auto). destruct (bn_read_be_spec xs Bx Lx) as [Nx Vx].
    assert (Wx : wide (bn_read_be xs)).
    { split; auto. rewrite Vx. pose proof (be_val_bound 256 xs ltac:(lia) Bx) as Q. unfold len in Q. rewrite Lx in Q. change (256 ^ Z.of_nat 32) with (2^256) in Q. lia. }
    destruct (uncompress_ok b _ Wx) as (y & Ey & Ny & Ly & Vy). step Ey. destruct (validate_ok _ _ Nx Ny) as (ok & Eo & Ho). step Eo.
    eexists. split; [reflexivity|]. cbv zeta in Vy. set (r := rhs (bn_val (bn_read_be xs)) ^ ((P + 1) / 4) mod P) in *.
    pose proof P_odd. assert (0 <= r < P) by (apply Z.mod_pos_bound; lia).
    assert (PY : bn_val y mod 2 = b mod 2 \/ bn_val y = P).
    { rewrite Vy. destruct (Z.eqb_spec (b mod 2) (r mod 2)) as [Q|Q]; [left; auto|]. clear - Q H0. left. dlia. }
    destruct ok.
    + assert (O := proj1 Ho eq_refl). unfold reads. split; auto. split; auto. split; auto. exists true, (skipn 32 t). unfold sec_bytes.
      assert (PY' : bn_val y mod 2 = b mod 2) by (destruct PY as [Q|Q]; auto; destruct O as (_ & O & _); lia).
      rewrite PY', Vx, byte_be, mod2 by auto. cbn [app]. f_equal. symmetry. apply firstn_skipn.
    + unfold reads. intros c x y' rest O E. destruct c.
      2:{ apply (f_equal (hd 0)) in E. cbn [hd sec_bytes app] in E. lia. }
      unfold sec_bytes in E. cbn [app] in E. pose proof (f_equal (hd 0) E) as E1. cbn [hd] in E1. apply (f_equal (@List.tl Z)) in E. cbn [List.tl] in E.
      assert (X : xs = be_bytes 32 x). { unfold xs. rewrite E. apply firstn_app_len. rewrite be_bytes_length. reflexivity. }
      assert (VX : bn_val (bn_read_be xs) = x) by (rewrite Vx, X; apply be_round, O).
      assert (Y : bn_val y = y').
      { rewrite Vy. unfold r. rewrite VX. apply candidate; [apply O|exact O|]. rewrite E1. clear. dlia. }
      assert (F : false = true); [|discriminate]. apply Ho. rewrite VX, Y. exact O.
Qed.
