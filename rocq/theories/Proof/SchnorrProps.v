(** Schnorr signatures of PrivateKey and PublicKey against BIP340. *)
From Coq Require Import Lia Znumtheory Setoid Morphisms.
From Verif Require Import Base.Bytes Base.BytesFacts Base.Curve Spec.Bignum Spec.Codecs Spec.Wire Spec.Objects Spec.Hash Spec.Keys Spec.Scalar Spec.Point Spec.Curve Spec.Schemes
  Model.Bignum Model.Scalar Model.Stream Model.Point Model.EC Model.ECDSA Model.Hash Model.Signature Model.PointOps
  Proof.IntVarint Proof.BnCore Proof.BnIo Proof.ScalarProps Proof.PointFacts Proof.PointProps Proof.CurveFacts Proof.EcField Proof.EcPoint Proof.EcGroup
  Proof.EcMult Proof.EcTable Proof.EcOrder Proof.EcApi Proof.EcdsaFacts Proof.PointOpsFacts Proof.SigProps Proof.HashProps Proof.SchemeProps.
Open Scope Z_scope.
Local Existing Instances eqm_setoid Zplus_eqm Zminus_eqm Zmult_eqm Zopp_eqm.

(** ** Points with the same x coordinate *)
Definition xo (a : point) : list Z := firstn 32 (point_bytes a).
Lemma xo_some : forall x y, xo (Some (x, y)) = be_bytes 32 x.
Proof. intros x y. unfold xo. cbn [point_bytes]. unfold coords. apply firstn_app_len. rewrite be_bytes_length. reflexivity. Qed.
Lemma xo_none : xo None = be_bytes 32 0. Proof. reflexivity. Qed.
Lemma be32_inj : forall x x', 0 <= x < P -> 0 <= x' < P -> be_bytes 32 x = be_bytes 32 x' -> x = x'.
Proof. intros x x' X X' E. apply (f_equal (be_val 256)) in E. rewrite !be_round in E by auto. exact E. Qed.
Lemma same_xo : forall a b, is_point a -> is_point b -> (xo a = xo b <-> a = b \/ a = ec_neg b).
Proof.
  intros a b A B. pose proof P_range as PR. destruct a as [[x y]|], b as [[x' y']|].
  - rewrite !xo_some. destruct (neg_y x' y' B) as (EN & ON & MN). rewrite EN. pose proof A as (X & Y & _). pose proof B as (X' & Y' & _). split.
    + intros E. apply be32_inj in E; auto. subst x'. destruct (Z.eq_dec (y mod 2) (y' mod 2)) as [Q|Q].
      * left. rewrite (curve_unique x y y'); auto.
      * right. rewrite (curve_unique x y (P - y')); auto. rewrite MN. clear - Q. dlia.
    + intros [E|E]; injection E; intros; subst; reflexivity.
  - rewrite xo_some, xo_none. split; [|intros [E|E]; discriminate]. intros E. exfalso. apply be32_inj in E; [|apply A|lia]. subst x. apply (no_x_zero y A).
  - rewrite xo_some, xo_none. split; [|intros [E|E]; discriminate]. intros E. exfalso. apply be32_inj in E; [|lia|apply B]. subst x'. apply (no_x_zero y' B).
  - split; auto.
Qed.
Lemma even_point : forall x y, on_curve x y -> exists y', on_curve x y' /\ y' mod 2 = 0 /\ Some (x, y') = if y mod 2 =? 0 then Some (x, y) else ec_neg (Some (x, y)).
Proof.
  intros x y O. destruct (Z.eqb_spec (y mod 2) 0) as [E|E]; [exists y; auto|]. destruct (neg_y x y O) as (EN & ON & MN). exists (P - y). rewrite EN. split; auto. split; auto.
  rewrite MN. clear - E. dlia.
Qed.
Lemma from_x_ok : forall g xs y, word256 xs -> on_curve (number xs) y -> y mod 2 = 0 -> exists r, pt_from_x g xs = Ok r /\ pt_xy r = coords (number xs) y.
Proof.
  intros g xs y W O E. unfold pt_from_x. replace (2 :: xs) with (sec_bytes true (number xs) y).
  - step (parse_sec g 0 true _ _ O). eexists. split; reflexivity.
  - cbn [sec_bytes]. rewrite E. unfold number. rewrite byte_be by apply W. reflexivity.
Qed.
(** An x that no point has: the point becomes what was on the stack. *)
Lemma from_x_bad : forall g xs, word256 xs -> ~ on_curve_x (number xs) -> bytes_ok g -> length g = 64%nat -> exists r, pt_from_x g xs = Ok r /\ pt_xy r = g /\ pt_comp r = true.
Proof.
  intros g xs W O B L. unfold pt_from_x. rewrite (parse_first g pt_new 0 2 xs eq_refl ltac:(lia)). change (negb (2 =? 4)) with true.
  rewrite <- (app_nil_r xs). rewrite data_full; [|reflexivity|cbn [length data_len]; rewrite (proj2 W); reflexivity]. cbn [app]. unfold pt_end.
  rewrite firstn_app_len by (rewrite (proj2 W); reflexivity).
  destruct (uncompress_33 2 xs g ltac:(auto) (proj1 W) (proj2 W)) as [(y & OC & _)|[_ U]]; [exfalso; apply O; exists y; exact OC|].
  rewrite U, bind_Ok. cbv beta. destruct (is_valid_ok g true 0 B L) as (b & V & _). rewrite V, !bind_Ok. cbv beta iota. eexists. split; [reflexivity|]. auto.
Qed.

(** ** Verification *)
Section Schnorr.
Variables K H : list Z.
Hypothesis C : fips_constants fips256 K H.
Notation sha := (fips_hash fips256 K H).
Definition tag_c : list Z := chars "BIP0340/challenge".
Definition tag_n : list Z := chars "BIP0340/nonce".
Lemma tag_ok : bytes_ok tag_c /\ bytes_ok tag_n /\ len tag_c < 2^61 /\ len tag_n < 2^61.
Proof. repeat split; try reflexivity; apply bytes_ok_bool; vm_compute; reflexivity. Qed.
Lemma tagged_is : forall tag m, bytes_ok tag -> len tag < 2^61 -> bytes_ok m -> len m < 2^60 -> tagged_hash tag m = bip340_hash sha tag m.
Proof.
  intros tag m T LT M LM. pose proof (tagged_any K H tag [m] C T ltac:(auto) LT) as E. cbv zeta in E. cbn [concat] in E. rewrite app_nil_r in E. specialize (E LM).
  unfold bip340_hash. rewrite <- E. reflexivity.
Qed.
Lemma sha_word : forall m, bytes_ok m -> word256 (sha m).
Proof. intros m M. pose proof C as C2. apply sha256_consts in C2 as [-> ->]. destruct (hash256_len m M) as [L O]. split; auto. unfold len in L. lia. Qed.
Lemma tagged_word : forall tag m, bytes_ok tag -> bytes_ok m -> word256 (bip340_hash sha tag m).
Proof.
  intros tag m T M. unfold bip340_hash. apply sha_word. pose proof (sha_word tag T) as [O _]. apply bytes_ok_app; split; [exact O|]. apply bytes_ok_app; split; [exact O|exact M].
Qed.
Notation chal := (bip340_hash sha tag_c).
Lemma word3 : forall x y h, word256 h -> bytes_ok (be_bytes 32 x ++ be_bytes 32 y ++ h) /\ len (be_bytes 32 x ++ be_bytes 32 y ++ h) < 2^60.
Proof.
  intros x y h W. split; [apply bytes_ok_app; split; [apply be_bytes_ok|apply bytes_ok_app; split; [apply be_bytes_ok|apply W]]|]. unfold len. rewrite !app_length, !be_bytes_length, (proj2 W). reflexivity.
Qed.
Lemma even_pub : forall g pub x y y', pt_xy pub = coords x y -> on_curve x y -> on_curve x y' -> y' mod 2 = 0 ->
  exists p, (if pt_even pub then Ok pub else let! p := pt_neg g pub in Ok (pk_of p)) = Ok p /\ pt_xy p = coords x y'.
Proof.
  intros g pub x y y' E O O' Y. rewrite (even_coords pub x y E). destruct (Z.eqb_spec (y mod 2) 0) as [Q|Q].
  - exists pub. split; auto. rewrite E, (curve_unique x y y'); auto. lia.
  - destruct (pt_neg_ok g pub (Some (x, y)) O E) as (r & E1 & X1). step E1. eexists. split; [reflexivity|]. cbn [pk_of pt_xy]. rewrite X1. destruct (neg_y x y O) as (EN & ON & MN). rewrite EN.
    cbn [point_bytes]. rewrite (curve_unique x y' (P - y)); auto. rewrite MN. clear - Y Q. dlia.
Qed.
Lemma sch_parts : forall sg, word256 (sn_r sg) -> word256 (sn_s sg) ->
  exists n, serialize (sch_to_stream sg) 64 0 = Ok (n, sn_r sg ++ sn_s sg) /\ slice (sn_r sg ++ sn_s sg) 0 32 = Ok (sn_r sg) /\ slice (sn_r sg ++ sn_s sg) 32 32 = Ok (sn_s sg).
Proof.
  intros sg [_ R] [_ S]. rewrite (sch_slices sg R S 64%nat 0 ltac:(lia)). change (Z.to_nat 0) with 0%nat. rewrite skipn_O, firstn_all2 by (rewrite app_length; lia).
  rewrite app_length, R, S. change (zeros (64 - (32 + 32))) with (@nil Z). rewrite app_nil_r. eexists. split; [reflexivity|]. apply slices_rs; auto.
Qed.
Lemma number_back : forall w, word256 w -> be_bytes 32 (number w) = w.
Proof. intros w W. unfold number. apply byte_be; apply W. Qed.
Lemma xo_of : forall p a, pt_xy p = point_bytes a -> pt_x p = xo a.
Proof. intros p a E. unfold pt_x, xo. rewrite E. reflexivity. Qed.
Lemma verify_run : forall g rz pub px py py' sg hash Rp R, (forall i, random_below P (rz i)) -> pt_xy pub = coords px py -> on_curve px py -> on_curve px py' -> py' mod 2 = 0 ->
  word256 (sn_r sg) -> is_scalar (sn_s sg) -> word256 hash -> pt_from_x g (sn_r sg) = Ok Rp -> pt_xy Rp = point_bytes R -> is_point R ->
  let e := number (chal (sn_r sg ++ be_bytes 32 px ++ hash)) in e < N ->
  exists b, schnorr_verify g rz pub sg hash = Ok b /\ (b = true <-> xo (ec_add (ec_mul e (Some (px, py'))) R) = xo (ec_mul (number (sn_s sg)) gen)).
Proof.
  intros g rz pub px py py' sg hash Rp R RZ E O O' Y WR SS WH ER XR PR e LE. unfold schnorr_verify. cbv zeta.
  destruct (even_pub g pub px py py' E O O' Y) as (pub' & E1 & X1). step E1. destruct (sch_parts sg WR (proj1 SS)) as (n & E2 & S1 & S2). step E2. cbn [snd]. step S1. step ER.
  fold tag_c. rewrite (x_coords pub' px py' X1). destruct tag_ok as (T1 & _ & T2 & _).
  pose proof (word3 (number (sn_r sg)) px hash WH) as [W3 L3]. rewrite (number_back _ WR) in W3, L3. rewrite tagged_is by auto.
  set (ch := chal (sn_r sg ++ be_bytes 32 px ++ hash)) in *. assert (CW : is_scalar ch) by (split; [apply tagged_word; auto|exact LE]).
  destruct (prv_make_ok (rz 0%nat) ch true (RZ _) CW) as (p1 & E3 & _). step E3. cbn [prv_num].
  destruct (pt_mul_ok (rz 1%nat) ch pub' (Some (px, py')) (RZ _) CW O' ltac:(discriminate) X1) as (c & E4 & X4 & _). step E4. fold e in X4.
  destruct (pt_add_ok c Rp _ R (ec_mul_point e (Some (px, py')) O') PR X4 XR) as (sum & E5 & X5). step E5. step S2.
  destruct (prv_make_ok (rz 2%nat) (sn_s sg) true (RZ _) SS) as (p2 & E6 & X6 & _). step E6. cbn [prv_pub]. rewrite (xo_of _ _ X5), (xo_of _ _ X6).
  eexists. split; [reflexivity|]. destruct (list_eq_dec Z.eq_dec _ _) as [Q|Q]; split; auto; discriminate.
Qed.
(** The equation of BIP340 solved for the other side. *)
Lemma solve_for : forall a b c, is_point a -> is_point b -> is_point c -> (ec_add a (ec_neg b) = c <-> ec_add b c = a).
Proof.
  intros a b c A B D. pose proof (ec_neg_point b B) as NB. split.
  - intros <-. rewrite (ec_add_comm a (ec_neg b)), <- ec_add_assoc, ec_add_neg by auto. destruct a as [[x y]|]; reflexivity.
  - intros <-. rewrite (ec_add_comm b c), (ec_add_assoc c b (ec_neg b)), ec_add_neg by auto. apply ec_add_0_r.
Qed.
Lemma bip340_eq : forall px py m r ry s, on_curve px py -> py mod 2 = 0 -> on_curve r ry -> ry mod 2 = 0 -> 0 <= s < N ->
  number (chal (be_bytes 32 r ++ be_bytes 32 px ++ m)) < N -> word256 m ->
  (bip340_valid chal px m r s <-> ec_add (ec_mul (number (chal (be_bytes 32 r ++ be_bytes 32 px ++ m))) (Some (px, py))) (Some (r, ry)) = ec_mul s gen).
Proof.
  intros px py m r ry s O Y OR YR S L WM. unfold bip340_valid. cbv zeta. fold (number (chal (be_bytes 32 r ++ be_bytes 32 px ++ m))).
  destruct (word3 r px m WM) as [W3 _]. pose proof (number_range _ (tagged_word tag_c _ (proj1 tag_ok) W3)) as RE. rewrite (Z.mod_small (number _)) by lia.
  set (e := number _) in *. pose proof (ec_mul_point s gen gen_point) as P1. split.
  - intros (py2 & ry2 & A & B & D & F & _ & Q). rewrite (curve_unique px py py2), (curve_unique r ry ry2) by (auto; lia). apply solve_for; auto. apply ec_mul_point; auto.
  - intros Q. exists py, ry. repeat (split; [solve [auto|apply O|apply OR]|]). apply solve_for; auto. apply ec_mul_point; auto.
Qed.
Lemma ec_mul_opp : forall s, 0 <= s < N -> ec_mul ((N - s) mod N) gen = ec_neg (ec_mul s gen).
Proof.
  intros s S. pose proof order_pos. rewrite !ec_mul_smul by (try (apply Z.mod_pos_bound; lia); lia). rewrite <- smul_opp by apply gen_point. apply smul_eqm; [apply gen_point|]. rewrite eqm_mod, eqm_neg. reflexivity.
Qed.
Theorem verify_bip340 : forall g rz pub px py sg hash, (forall i, random_below P (rz i)) -> pt_xy pub = coords px py -> on_curve px py ->
  word256 (sn_r sg) -> is_scalar (sn_s sg) -> word256 hash -> on_curve_x (number (sn_r sg)) -> number (chal (sn_r sg ++ be_bytes 32 px ++ hash)) < N ->
  exists b, schnorr_verify g rz pub sg hash = Ok b /\
    (b = true <-> bip340_valid chal px hash (number (sn_r sg)) (number (sn_s sg)) \/ bip340_valid chal px hash (number (sn_r sg)) ((N - number (sn_s sg)) mod N)).
Proof.
  intros g rz pub px py sg hash RZ E O WR SS WH [ry0 OR0] LE. destruct (even_point px py O) as (py' & O' & Y' & _). destruct (even_point _ ry0 OR0) as (ry & OR & YR & _).
  destruct (from_x_ok g (sn_r sg) ry WR OR YR) as (Rp & EF & XF). destruct (verify_run g rz pub px py py' sg hash Rp (Some (number (sn_r sg), ry)) RZ E O O' Y' WR SS WH EF XF OR LE) as (b & EB & HB).
  exists b. split; auto. rewrite HB. set (r := number (sn_r sg)) in *. set (s := number (sn_s sg)) in *.
  assert (RS : 0 <= s < N) by (pose proof (number_range _ (proj1 SS)); destruct SS; lia). pose proof order_pos.
  assert (ER : be_bytes 32 r = sn_r sg) by (apply number_back; auto).
  rewrite (bip340_eq px py' hash r ry s), (bip340_eq px py' hash r ry ((N - s) mod N)); rewrite ?ER; auto; [|apply Z.mod_pos_bound; lia].
  rewrite ec_mul_opp by auto. apply same_xo; [apply ec_add_point; [apply ec_mul_point; auto|auto]|apply ec_mul_point, gen_point].
Qed.
(** With an r that no point has, the rest of the stack takes its place. *)
Theorem verify_garbage : forall g rz pub px py sg hash gx gy, (forall i, random_below P (rz i)) -> pt_xy pub = coords px py -> on_curve px py -> py mod 2 = 0 ->
  word256 (sn_r sg) -> is_scalar (sn_s sg) -> word256 hash -> ~ on_curve_x (number (sn_r sg)) -> g = coords gx gy -> on_curve gx gy ->
  let e := number (chal (sn_r sg ++ be_bytes 32 px ++ hash)) in e < N ->
  ec_mul (number (sn_s sg)) gen = ec_add (ec_mul e (Some (px, py))) (Some (gx, gy)) ->
  schnorr_verify g rz pub sg hash = Ok true /\ forall s, ~ bip340_valid chal px hash (number (sn_r sg)) s.
Proof.
  intros g rz pub px py sg hash gx gy RZ E O Y WR SS WH NX EG OG e LE Q. split.
  - destruct (from_x_bad g (sn_r sg) WR NX) as (Rp & EF & XF & _); [rewrite EG; apply coords_ok|rewrite EG; apply coords_len|]. rewrite EG in XF.
    destruct (verify_run g rz pub px py py sg hash Rp (Some (gx, gy)) RZ E O O Y WR SS WH EF XF OG LE) as (b & EB & HB). rewrite EB. f_equal. apply HB. fold e. rewrite Q. reflexivity.
  - intros s (py2 & ry & _ & _ & OR & _). apply NX. exists ry. exact OR.
Qed.
(** Numbers that are not below the order. *)
Lemma verify_s_over : forall g rz pub sg hash, word256 (sn_r sg) -> word256 (sn_s sg) -> N <= number (sn_s sg) -> schnorr_verify g rz pub sg hash = UB.
Proof.
  intros g rz pub sg hash WR WS L. unfold schnorr_verify. cbv zeta. destruct (if pt_even pub then _ else _) as [pub'|]; [|reflexivity]. rewrite bind_Ok. cbv beta.
  destruct (sch_parts sg WR WS) as (n & E2 & S1 & S2). step E2. cbn [snd]. step S1. destruct (pt_from_x g (sn_r sg)) as [Rp|]; [|reflexivity]. rewrite bind_Ok. cbv beta.
  destruct (prv_make (rz 0%nat) _ true) as [ch|]; [|reflexivity]. rewrite bind_Ok. cbv beta. destruct (pt_mul (rz 1%nat) _ pub') as [c|]; [|reflexivity]. rewrite bind_Ok. cbv beta.
  destruct (pt_add c Rp) as [sum|]; [|reflexivity]. rewrite bind_Ok. cbv beta. step S2. rewrite prv_make_over by auto. reflexivity.
Qed.
Lemma verify_e_over : forall g rz pub px py sg hash, pt_xy pub = coords px py -> on_curve px py -> word256 (sn_r sg) -> word256 (sn_s sg) -> word256 hash ->
  N <= number (chal (sn_r sg ++ be_bytes 32 px ++ hash)) -> schnorr_verify g rz pub sg hash = UB.
Proof.
  intros g rz pub px py sg hash E O WR WS WH L. unfold schnorr_verify. cbv zeta. destruct (even_point px py O) as (py' & O' & Y' & _).
  destruct (even_pub g pub px py py' E O O' Y') as (pub' & E1 & X1). step E1. destruct (sch_parts sg WR WS) as (n & E2 & S1 & S2). step E2. cbn [snd]. step S1.
  destruct (pt_from_x g (sn_r sg)) as [Rp|]; [|reflexivity]. rewrite bind_Ok. cbv beta. fold tag_c. rewrite (x_coords pub' px py' X1). destruct tag_ok as (T1 & _ & T2 & _).
  pose proof (word3 (number (sn_r sg)) px hash WH) as [W3 L3]. rewrite (number_back _ WR) in W3, L3. rewrite tagged_is by auto.
  rewrite prv_make_over; auto. apply tagged_word; auto.
Qed.
(** ** Signing *)
Lemma flip_ok : forall g rz w p, random_below P rz -> is_scalar w -> 0 < number w -> pt_xy p = point_bytes (ec_mul (number w) gen) ->
  exists w' p' x y, (if pt_even p then Ok (w, p) else let! d := prv_make rz (sc_neg w) true in let! q := pt_neg g p in Ok (prv_num d, pk_of q)) = Ok (w', p') /\
    is_scalar w' /\ bip340_secret (number w) (number w') x /\ ec_mul (number w') gen = Some (x, y) /\ on_curve x y /\ y mod 2 = 0 /\ pt_xy p' = coords x y.
Proof.
  intros g rz w p RZ S0 L X. pose proof (number_range _ (proj1 S0)) as RG. assert (RW : 0 < number w < N) by (destruct S0; lia).
  destruct (mul_curve (number w) RW) as (x & y & E & O). rewrite E in X. cbn [point_bytes] in X. rewrite (even_coords p x y X). destruct (Z.eqb_spec (y mod 2) 0) as [Q|Q].
  - exists w, p, x, y. split; [reflexivity|]. unfold bip340_secret. repeat (split; [solve [auto|apply O]|]). split; [|auto]. split; eauto.
  - assert (SN : is_scalar (sc_neg w) /\ number (sc_neg w) = N - number w).
    { rewrite sc_neg_val by auto. assert (V : number (be_bytes 32 (N - number w)) = N - number w) by (apply scalar_of_num; pose proof order_range; lia).
      split; [split; [apply scalar_word|rewrite V; lia]|exact V]. }
    destruct SN as [SN VN]. destruct (prv_make_ok rz (sc_neg w) true RZ SN) as (q & E1 & X1 & _). step E1. destruct (pt_neg_ok g p (Some (x, y)) O X) as (r & E2 & X2). step E2. cbn [prv_num].
    destruct (neg_y x y O) as (EN & ON & MN). rewrite EN in X2. cbn [point_bytes] in X2.
    assert (EM : ec_mul (number (sc_neg w)) gen = Some (x, P - y)).
    { rewrite VN, <- (Z.mod_small (N - number w) N) by lia. rewrite ec_mul_opp by lia. rewrite E, EN. reflexivity. }
    assert (M2 : (P - y) mod 2 = 0) by (rewrite MN; clear - Q; dlia).
    exists (sc_neg w), (pk_of r), x, (P - y). split; [reflexivity|]. split; [exact SN|]. split; [|auto]. split; [right; exact VN|]. eauto.
Qed.
Lemma secret_unique : forall d d1 x1 d2 x2, 0 < d < N -> bip340_secret d d1 x1 -> bip340_secret d d2 x2 -> d1 = d2 /\ x1 = x2.
Proof.
  intros d d1 x1 d2 x2 RD [C1 (y1 & E1 & Y1)] [C2 (y2 & E2 & Y2)]. destruct (mul_curve d RD) as (x & y & E & O). destruct (neg_y x y O) as (EN & ON & MN).
  assert (EO : ec_mul (N - d) gen = Some (x, P - y)) by (rewrite <- (Z.mod_small (N - d) N) by lia; rewrite ec_mul_opp, E, EN by lia; reflexivity).
  destruct C1 as [->| ->], C2 as [->| ->].
  - rewrite E1 in E2. injection E2 as -> _. auto.
  - exfalso. rewrite E in E1. rewrite EO in E2. injection E1 as _ <-. injection E2 as _ <-. rewrite MN in Y2. clear - Y1 Y2. lia.
  - exfalso. rewrite E in E2. rewrite EO in E1. injection E2 as _ <-. injection E1 as _ <-. rewrite MN in Y1. clear - Y1 Y2. lia.
  - rewrite E1 in E2. injection E2 as -> _. auto.
Qed.
Lemma secret_exists : forall d, 0 < d < N -> exists d' x, bip340_secret d d' x.
Proof.
  intros d RD. destruct (mul_curve d RD) as (x & y & E & O). destruct (neg_y x y O) as (EN & ON & MN).
  assert (EO : ec_mul (N - d) gen = Some (x, P - y)) by (rewrite <- (Z.mod_small (N - d) N) by lia; rewrite ec_mul_opp, E, EN by lia; reflexivity).
  unfold bip340_secret. destruct (Z.eq_dec (y mod 2) 0) as [Q|Q]; [exists d, x|exists (N - d), x]; (split; [auto|]); [exists y|exists (P - y)]; split; auto. rewrite MN. clear - Q. dlia.
Qed.
Lemma secret_range : forall d d' x, 0 < d < N -> bip340_secret d d' x -> 0 < d' < N.
Proof. intros d d' x R [[->| ->] _]; lia. Qed.
Lemma sign_schnorr_ok : forall g rz d pub hash, (forall i, random_below P (rz i)) -> is_scalar d -> 0 < number d -> pt_xy pub = point_bytes (ec_mul (number d) gen) -> word256 hash ->
  forall d' px, bip340_secret (number d) d' px -> 0 < number (bip340_hash sha tag_n (be_bytes 32 d' ++ be_bytes 32 px ++ hash)) < N ->
  let k := number (bip340_hash sha tag_n (be_bytes 32 d' ++ be_bytes 32 px ++ hash)) in
  forall k' r, bip340_secret k k' r -> let e := number (chal (be_bytes 32 r ++ be_bytes 32 px ++ hash)) in e < N ->
  schnorr_sign g rz (mkPrv d pub) hash = Ok (mkSch (be_bytes 32 r) (be_bytes 32 ((k' + e * d') mod N)) DONE 0).
Proof.
  intros g rz d pub hash RZ SD LD XP WH d' px SE RK k k' r SK e LE. unfold k, e in *. clear k e. assert (RD : 0 < number d < N) by (destruct SD; lia). unfold schnorr_sign. cbv zeta. cbn [prv_num prv_pub].
  destruct (flip_ok g (rz 0%nat) d pub (RZ _) SD LD XP) as (w & p1 & x1 & y1 & E1 & S1 & B1 & M1 & O1 & Y1 & X1). step E1. cbv iota.
  destruct (secret_unique _ _ _ _ _ RD SE B1) as [-> ->]. fold tag_n. fold tag_c. rewrite (x_coords p1 x1 y1 X1). destruct tag_ok as (T1 & T2 & T3 & T4).
  pose proof (word3 (number w) x1 hash WH) as [W3 L3]. rewrite (number_back w (proj1 S1)) in *. rewrite (tagged_is tag_n) by auto.
  set (nh := bip340_hash sha tag_n (w ++ be_bytes 32 x1 ++ hash)) in *. assert (SN : is_scalar nh) by (split; [apply tagged_word; auto|apply RK]).
  destruct (prv_make_ok (rz 1%nat) nh true (RZ _) SN) as (q1 & E2 & X2 & _). step E2. cbn [prv_num prv_pub].
  destruct (flip_ok g (rz 2%nat) nh q1 (RZ _) SN (proj1 RK) X2) as (w2 & p2 & x2 & y2 & E3 & S2 & B2 & M2 & O2 & Y2 & X3). step E3. cbv iota.
  destruct (secret_unique (number nh) _ _ _ _ RK SK B2) as [-> ->]. rewrite (x_coords p2 x2 y2 X3). pose proof (word3 x2 x1 hash WH) as [W4 L4]. rewrite (tagged_is tag_c) by auto.
  set (eh := chal (be_bytes 32 x2 ++ be_bytes 32 x1 ++ hash)) in *. assert (SH : is_scalar eh) by (split; [apply tagged_word; auto|apply LE]).
  destruct (prv_make_ok (rz 3%nat) eh true (RZ _) SH) as (q2 & E4 & _). step E4. cbn [prv_num].
  step (sc_mul_spec eh w (proj1 SH) (proj1 S1)). rewrite sc_add_spec; [|apply S2|apply scalar_word].
  destruct (prv_make_ok (rz 4%nat) (scalar_of (number w2 + number (scalar_of (number eh * number w)))) true (RZ _) (proj1 (scalar_of_scalar _))) as (q3 & E5 & _). step E5. cbn [prv_num].
  do 2 f_equal. unfold scalar_of at 1. f_equal. pose proof order_pos as OP. unfold scalar_of. rewrite scalar_of_num by (pose proof order_range; pose proof (Z.mod_pos_bound (number eh * number w) N OP); lia).
  apply Z.add_mod_idemp_r. lia.
Qed.
(** What [bip340_signature] describes is valid. *)
Lemma signature_bip340 : forall d k m r s, 0 < d < N -> 0 < k < N -> bip340_signature chal d k m r s -> forall d' px, bip340_secret d d' px -> bip340_valid chal px m r s.
Proof.
  intros d k m r s RD RK (d1 & px1 & k' & SD & SK & ->) d' px SE. destruct (secret_unique _ _ _ _ _ RD SD SE) as [-> ->]. clear SD.
  pose proof (secret_range _ _ _ RD SE) as RD'. pose proof (secret_range _ _ _ RK SK) as RK'. destruct SE as [_ (y & E & Y)], SK as [_ (ry & ER & YR)]. pose proof order_pos as OP.
  assert (O : on_curve px y) by (pose proof (ec_mul_point d' gen gen_point) as Q; rewrite E in Q; exact Q).
  assert (OR : on_curve r ry) by (pose proof (ec_mul_point k' gen gen_point) as Q; rewrite ER in Q; exact Q).
  unfold bip340_valid. cbv zeta. set (e := be_val 256 _). exists y, ry. repeat (split; [solve [auto|apply O|apply OR|apply Z.mod_pos_bound; lia]|]).
  apply solve_for; auto; try apply ec_mul_point; try apply gen_point; auto. rewrite <- E, <- ER.
  pose proof (Z.mod_pos_bound e N OP). pose proof (Z.mod_pos_bound (k' + e * d') N OP).
  rewrite !ec_mul_smul by lia. rewrite <- smul_smul, <- smul_add by apply gen_point. apply smul_eqm; [apply gen_point|]. rewrite !eqm_mod. unfold eqm. f_equal. ring.
Qed.
(** The signature that was made is accepted. *)
Lemma schnorr_round : forall g g2 rz rz2 d pub pub2 hash, (forall i, random_below P (rz i)) -> (forall i, random_below P (rz2 i)) -> is_scalar d -> 0 < number d ->
  pt_xy pub = point_bytes (ec_mul (number d) gen) -> pt_xy pub2 = point_bytes (ec_mul (number d) gen) -> word256 hash ->
  forall d' px, bip340_secret (number d) d' px -> 0 < number (bip340_hash sha tag_n (be_bytes 32 d' ++ be_bytes 32 px ++ hash)) < N ->
  let k := number (bip340_hash sha tag_n (be_bytes 32 d' ++ be_bytes 32 px ++ hash)) in
  forall k' r, bip340_secret k k' r -> number (chal (be_bytes 32 r ++ be_bytes 32 px ++ hash)) < N ->
  exists s, schnorr_sign g rz (mkPrv d pub) hash = Ok (mkSch (be_bytes 32 r) (be_bytes 32 s) DONE 0) /\
    bip340_signature chal (number d) k hash r s /\ bip340_valid chal px hash r s /\ schnorr_verify g2 rz2 pub2 (mkSch (be_bytes 32 r) (be_bytes 32 s) DONE 0) hash = Ok true.
Proof.
  intros g g2 rz rz2 d pub pub2 hash RZ RZ2 SD LD XP XP2 WH d' px SE RK k k' r SK LE.
  exists ((k' + number (chal (be_bytes 32 r ++ be_bytes 32 px ++ hash)) * d') mod N). assert (RD : 0 < number d < N) by (destruct SD; lia). pose proof order_pos as OP. pose proof order_range as OR0.
  split; [apply (sign_schnorr_ok g rz d pub hash RZ SD LD XP WH d' px SE RK k' r SK LE)|].
  set (s := _ mod N). assert (SG : bip340_signature chal (number d) k hash r s) by (exists d', px, k'; auto). split; [exact SG|].
  pose proof (signature_bip340 _ _ _ _ _ RD RK SG d' px SE) as V. split; [exact V|].
  destruct (mul_curve (number d) RD) as (x & y & E & O). rewrite E in XP2. cbn [point_bytes] in XP2.
  assert (EX : x = px).
  { destruct SE as [[->| ->] (y2 & E2 & _)]; [congruence|]. rewrite <- (Z.mod_small (N - number d) N), ec_mul_opp, E in E2 by lia. destruct (neg_y x y O) as (EN & _). rewrite EN in E2. congruence. }
  subst x. pose proof V as (py2 & ry & _ & _ & OR & YR & RS & _). pose proof OR as (RX & _). pose proof P_range as PR.
  assert (NR : number (be_bytes 32 r) = r) by (apply scalar_of_num; lia). assert (NS : number (be_bytes 32 s) = s) by (apply scalar_of_num; lia).
  destruct (verify_bip340 g2 rz2 pub2 px y (mkSch (be_bytes 32 r) (be_bytes 32 s) DONE 0) hash RZ2 XP2 O) as (b & EB & HB); cbn [sn_r sn_s]; auto; try apply scalar_word.
  - split; [apply scalar_word|rewrite NS; lia].
  - rewrite NR. exists ry. exact OR.
  - rewrite EB. f_equal. apply HB. left. cbn [sn_r sn_s]. rewrite NR, NS. exact V.
Qed.
Lemma nonce_over : forall g rz d pub hash, (forall i, random_below P (rz i)) -> is_scalar d -> 0 < number d -> pt_xy pub = point_bytes (ec_mul (number d) gen) -> word256 hash ->
  forall d' px, bip340_secret (number d) d' px -> N <= number (bip340_hash sha tag_n (be_bytes 32 d' ++ be_bytes 32 px ++ hash)) ->
  schnorr_sign g rz (mkPrv d pub) hash = UB.
Proof.
  intros g rz d pub hash RZ SD LD XP WH d' px SE RK. assert (RD : 0 < number d < N) by (destruct SD; lia). unfold schnorr_sign. cbv zeta. cbn [prv_num prv_pub].
  destruct (flip_ok g (rz 0%nat) d pub (RZ _) SD LD XP) as (w & p1 & x1 & y1 & E1 & S1 & B1 & M1 & O1 & Y1 & X1). step E1. cbv iota.
  destruct (secret_unique _ _ _ _ _ RD SE B1) as [-> ->]. fold tag_n. rewrite (x_coords p1 x1 y1 X1). destruct tag_ok as (T1 & T2 & T3 & T4).
  pose proof (word3 (number w) x1 hash WH) as [W3 L3]. rewrite (number_back w (proj1 S1)) in *. rewrite (tagged_is tag_n) by auto.
  rewrite prv_make_over; auto. apply tagged_word; auto.
Qed.
End Schnorr.
