(** ECPoint: serializing, validity, parsing in pieces. *)
From Coq Require Import Lia.
From Verif Require Import Base.Bytes Base.BytesFacts Spec.Codecs Spec.Wire Spec.Objects Spec.Bignum Spec.Point Model.Bignum Model.Scalar Model.Stream Model.Point
  Proof.BnCore Proof.BnIo Proof.StreamFacts Proof.IoProps Proof.Chunks Proof.IntVarint Proof.KeyFacts Proof.SigProps Proof.BipBits Proof.PointFacts.
Open Scope Z_scope.

Definition data_len (c : bool) : nat := if c then 32%nat else 64%nat.
Lemma length_data : forall c, pt_length c = 1 + Z.of_nat (data_len c).
Proof. intros []; reflexivity. Qed.
Definition pt_bytes (xy : list Z) (c : bool) : list Z := pt_first xy c :: firstn (data_len c) xy.

(** * Serializing *)
Lemma pt_slices : forall k, length (pt_xy k) = 64%nat -> gives_slices (pt_to_stream k) (pt_bytes (pt_xy k) (pt_comp k)).
Proof.
  intros k L. apply serializes_slices. set (first := pt_first (pt_xy k) (pt_comp k)). set (c := pt_comp k).
  set (f := fun w => Ok (if w_available w && (w_pos w =? 0) then w_put w first else w) : outcome wst).
  apply (writes_serializes _ (fun w => let! w1 := f w in write_loop 64 1 (pt_length c - 1) (pt_xy k) w1)).
  - apply (writes_seq 0 [first] (firstn (data_len c) (pt_xy k)) f (write_loop 64 1 (pt_length c - 1) (pt_xy k))).
    + intros w HW. unfold f. destruct (w_available w) eqn:A; cbn [andb].
      2:{ rewrite unavail_take, w_adv_nil by auto. reflexivity. }
      destruct (Z.eqb_spec (w_pos w) 0) as [E|E].
      * rewrite E. change (Z.to_nat (0 - 0)) with 0%nat. rewrite skipn_O, w_put_adv. f_equal. f_equal.
        unfold w_available in A. destruct (w_cap w) as [[|n]|]; try discriminate; cbn [wtake firstn]; rewrite ?firstn_nil; reflexivity.
      * rewrite skipn_all2 by (cbn [length]; destruct HW; [lia|congruence]). rewrite wtake_nil, w_adv_nil. reflexivity.
    + rewrite length_data. replace (data_len c) with (Z.to_nat (1 + Z.of_nat (data_len c) - 1)) at 1 by lia.
      apply (writes_loop 64 (0 + len [first])); unfold len; rewrite ?L; destruct c; cbn [data_len]; lia.
  - intros cap off. unfold pt_to_stream. cbv zeta. fold c first. unfold f. cbn [w_pos bind].
    destruct (w_available (mkWst off cap [])) eqn:A; cbn [negb andb]; [reflexivity|].
    cbn [write_loop]. rewrite A. reflexivity.
Qed.
Lemma pt_slices_any : forall k, length (pt_xy k) = 64%nat -> gives_slices (pt_to_stream k)
  (if pt_comp k then (2 + nth 63 (pt_xy k) 0 mod 2) :: firstn 32 (pt_xy k) else 4 :: pt_xy k).
Proof.
  intros k L. pose proof (pt_slices k L) as H. unfold pt_bytes, pt_first in H. rewrite land1 in H. destruct (pt_comp k); [exact H|].
  cbn [data_len] in H. rewrite firstn_all2 in H by lia. exact H.
Qed.
Lemma be_last : forall x, nth 31 (be_bytes 32 x) 0 = x mod 256.
Proof.
  intros x. change (be_bytes 32 x) with (rev (le_bytes 31 (x / 256)) ++ [x mod 256]).
  rewrite app_nth2; rewrite rev_length, le_bytes_length; [|lia]. reflexivity.
Qed.
Lemma pt_bytes_coords : forall c x y, pt_bytes (coords x y) c = sec_bytes c x y.
Proof.
  intros c x y. unfold pt_bytes, sec_bytes, pt_first, coords. destruct c; cbn [data_len].
  - rewrite firstn_app_len by (rewrite be_bytes_length; reflexivity). rewrite app_nth2; rewrite be_bytes_length; [|lia].
    change (63 - 32)%nat with 31%nat. rewrite be_last, land1. do 2 f_equal. clear. dlia.
  - rewrite firstn_all2 by (rewrite app_length, !be_bytes_length; lia). reflexivity.
Qed.
Lemma coords_len : forall x y, length (coords x y) = 64%nat.
Proof. intros. unfold coords. rewrite app_length, !be_bytes_length. reflexivity. Qed.
Lemma coords_ok : forall x y, bytes_ok (coords x y).
Proof. intros. unfold coords. apply bytes_ok_app. split; apply be_bytes_ok. Qed.

(** * Validity *)
Definition xpart (xy : list Z) : Z := be_val 256 (firstn 32 xy).
Definition ypart (xy : list Z) : Z := be_val 256 (skipn 32 xy).
Lemma parts_coords : forall xy, bytes_ok xy -> length xy = 64%nat -> coords (xpart xy) (ypart xy) = xy.
Proof.
  intros xy Hb L. unfold coords, xpart, ypart. rewrite !byte_be; auto using bytes_ok_firstn, bytes_ok_skipn.
  - apply firstn_skipn.
  - rewrite skipn_length. lia.
  - rewrite firstn_length. lia.
Qed.
Lemma land1_range : forall x, Z.land x 1 = 0 \/ Z.land x 1 = 1.
Proof. intros. rewrite land1. dlia. Qed.
Lemma sec_inj : forall c c' x y x' y' r r', 0 <= x < P -> 0 <= y < P -> 0 <= x' < P -> 0 <= y' < P ->
  sec_bytes c x y ++ r = sec_bytes c' x' y' ++ r' ->
  c = c' /\ x = x' /\ (if c then y mod 2 = y' mod 2 else y = y').
Proof.
  intros c c' x y x' y' r r' Hx Hy Hx' Hy' E. pose proof (f_equal (hd 0) E) as E0.
  assert (c = c') as <- by (destruct c, c'; cbn [sec_bytes hd app] in E0; auto; exfalso; dlia).
  split; auto. destruct c; cbn [sec_bytes hd app] in *.
  - apply (f_equal (fun l => be_val 256 (firstn 32 (@List.tl Z l)))) in E. cbn [List.tl] in E.
    rewrite !firstn_app_len, !be_round in E by (auto; rewrite ?be_bytes_length; reflexivity). split; auto. lia.
  - apply (f_equal (fun l => (be_val 256 (firstn 32 (@List.tl Z l)), be_val 256 (firstn 32 (skipn 32 (@List.tl Z l)))))) in E. cbn [List.tl] in E.
    unfold coords in E. rewrite <- !app_assoc in E.
    rewrite !skipn_app_len, !firstn_app_len, !be_round in E by (auto; rewrite ?be_bytes_length; reflexivity). injection E. auto.
Qed.
(** What validity means for a point held in 64 bytes. *)
Definition valid_spec (xy : list Z) (c : bool) : Prop :=
  if c then exists y, on_curve (xpart xy) y /\ y mod 2 = nth 63 xy 0 mod 2 else on_curve (xpart xy) (ypart xy).
Lemma is_valid_ok : forall xy c n, bytes_ok xy -> length xy = 64%nat ->
  exists b, pt_is_valid (mkPt xy c DONE n) = Ok b /\ (b = true <-> valid_spec xy c).
Proof.
  intros xy c n Hb L. pose proof P_range. pose proof (pt_slices (mkPt xy c DONE n) L 65%nat 0 ltac:(lia)) as SL. cbn [pt_xy pt_comp] in SL.
  unfold pt_is_valid, pt_sec. cbn [pt_status]. cbv zeta in SL. change (Z.to_nat 0) with 0%nat in SL. rewrite skipn_O in SL.
  rewrite SL, bind_Ok. cbv beta. cbn [snd].
  assert (LB : length (pt_bytes xy c) = S (data_len c)) by (unfold pt_bytes; cbn [length]; rewrite firstn_length; destruct c; cbn [data_len]; lia).
  rewrite firstn_all2 by (rewrite LB; destruct c; cbn [data_len]; lia). rewrite LB.
  set (buf := pt_bytes xy c ++ zeros (65 - S (data_len c))).
  assert (BB : bytes_ok (pt_bytes xy c)).
  { constructor; [|apply bytes_ok_firstn; auto]. unfold pt_first, byte_ok. destruct c; [|lia]. destruct (land1_range (nth 63 xy 0)); lia. }
  assert (Lb : length buf = 65%nat) by (unfold buf, zeros; rewrite app_length, LB, repeat_length; destruct c; reflexivity).
  destruct (read_pubkey_ok buf) as (r & E & R); [apply bytes_ok_app; split; auto; apply bytes_ok_zeros|lia|lia|].
  rewrite E, bind_Ok. cbv beta. eexists. split; [reflexivity|].
  assert (PX : be_bytes 32 (xpart xy) = firstn 32 xy) by (apply byte_be; auto using bytes_ok_firstn; rewrite firstn_length; lia).
  assert (BC : c = true -> forall y, y mod 2 = nth 63 xy 0 mod 2 -> pt_bytes xy c = sec_bytes true (xpart xy) y).
  { intros -> y Hy. unfold pt_bytes, sec_bytes, pt_first. cbn [data_len]. rewrite PX, land1, Hy. reflexivity. }
  assert (BU : c = false -> pt_bytes xy c = sec_bytes false (xpart xy) (ypart xy)).
  { intros ->. rewrite <- pt_bytes_coords, parts_coords by auto. reflexivity. }
  assert (XR : 0 <= xpart xy).
  { apply (be_val_bound 256); [lia|]. apply bytes_ok_firstn; auto. }
  destruct r as [[bx bY]|]; unfold reads in R.
  - split; [intros _|auto]. destruct R as (Nx & Ny & O & c' & rest & Q). unfold buf in Q. unfold valid_spec.
    assert (HD : pt_first xy c = hd 0 (sec_bytes c' (bn_val bx) (bn_val bY))).
    { apply (f_equal (hd 0)) in Q. unfold pt_bytes in Q. cbn [app hd] in Q. destruct c'; exact Q. }
    destruct c.
    + unfold pt_first in HD. destruct c'; cbn [sec_bytes hd] in HD; [|destruct (land1_range (nth 63 xy 0)); lia].
      assert (PY : bn_val bY mod 2 = nth 63 xy 0 mod 2) by (rewrite <- (land1 (nth 63 xy 0)); lia).
      assert (X : xpart xy = bn_val bx).
      { apply (f_equal (fun l => be_val 256 (firstn 32 (@List.tl Z l)))) in Q. unfold pt_bytes in Q. cbn [sec_bytes app List.tl data_len] in Q.
        rewrite !firstn_app_len, be_round in Q by (try apply O; rewrite ?be_bytes_length, ?firstn_length; lia). exact Q. }
      exists (bn_val bY). rewrite X. auto.
    + unfold pt_first in HD. destruct c'; cbn [sec_bytes hd] in HD; [exfalso; clear - HD; dlia|].
      unfold pt_bytes in Q. cbn [data_len] in Q. rewrite firstn_all2 in Q by lia. cbn [sec_bytes app] in Q.
      apply (f_equal (@List.tl Z)) in Q. cbn [List.tl] in Q.
      assert (Q1 : xy = coords (bn_val bx) (bn_val bY)).
      { apply (f_equal (firstn 64)) in Q. rewrite !firstn_app_len in Q by (rewrite ?coords_len; auto). exact Q. }
      assert (X : xpart xy = bn_val bx /\ ypart xy = bn_val bY).
      { rewrite Q1. unfold xpart, ypart, coords. rewrite firstn_app_len, skipn_app_len, !be_round by (try apply O; rewrite be_bytes_length; reflexivity). auto. }
      destruct X as [-> ->]. exact O.
  - split; [discriminate|]. intros V. exfalso. unfold valid_spec in V. destruct c.
    + destruct V as (y & O & Hy). apply (R true _ y (zeros (65 - S (data_len true))) O). unfold buf. rewrite (BC eq_refl y Hy). reflexivity.
    + apply (R false _ _ (zeros (65 - S (data_len false))) V). unfold buf. rewrite (BU eq_refl). reflexivity.
Qed.
Lemma valid_coords : forall x y c, on_curve x y -> valid_spec (coords x y) c.
Proof.
  intros x y c O. assert (E : xpart (coords x y) = x /\ ypart (coords x y) = y).
  { unfold xpart, ypart, coords. rewrite firstn_app_len, skipn_app_len, !be_round by (try apply O; rewrite be_bytes_length; reflexivity). auto. }
  unfold valid_spec. destruct E as [-> ->]. destruct c; auto. exists y. split; auto.
  unfold coords. rewrite app_nth2; rewrite be_bytes_length; [|lia]. change (63 - 32)%nat with 31%nat. rewrite be_last. clear. dlia.
Qed.
(** Uncompressing 33 bytes. *)
Lemma uncompress_33 : forall b xs g, b = 2 \/ b = 3 -> bytes_ok xs -> length xs = 32%nat ->
  (exists y, on_curve (be_val 256 xs) y /\ y mod 2 = b mod 2 /\ uncompress_pubkey (b :: xs) g = Ok (coords (be_val 256 xs) y)) \/
  ((forall y, on_curve (be_val 256 xs) y -> y mod 2 <> b mod 2) /\ uncompress_pubkey (b :: xs) g = Ok g).
Proof.
  intros b xs g B2 Hb L. unfold uncompress_pubkey.
  destruct (read_pubkey_ok (b :: xs)) as (r & E & R).
  { constructor; auto. unfold byte_ok. destruct B2; lia. } { cbn [length]; lia. } { cbn [nth]. destruct B2; lia. }
  rewrite E, bind_Ok. cbv beta. destruct r as [[bx bY]|]; unfold reads in R.
  - left. destruct R as (Nx & Ny & O & c & rest & Q). destruct c.
    2:{ apply (f_equal (hd 0)) in Q. cbn [hd sec_bytes app] in Q. destruct B2; lia. }
    cbn [sec_bytes app] in Q. pose proof (f_equal (hd 0) Q) as Q0. cbn [hd] in Q0. apply (f_equal (@List.tl Z)) in Q. cbn [List.tl] in Q.
    assert (X : xs = be_bytes 32 (bn_val bx)).
    { apply (f_equal (firstn 32)) in Q. rewrite firstn_app_len in Q by (rewrite be_bytes_length; reflexivity). rewrite firstn_all2 in Q by lia. exact Q. }
    exists (bn_val bY). rewrite X, be_round by apply O. split; auto. split; [rewrite Q0; clear; dlia|].
    rewrite !bn_write_be_spec by auto. reflexivity.
  - right. split; [|reflexivity]. intros y O Hy. apply (R true _ y [] O). cbn [sec_bytes]. rewrite Hy, mod2, byte_be, app_nil_r by auto. reflexivity.
Qed.

(** * Parsing *)
Definition pt_end (g xy : list Z) (c : bool) (first start pos : Z) (rest : list Z) : outcome ((ecpoint * Z) * Z * list Z) :=
  let! xy := if c then uncompress_pubkey (first :: firstn 32 xy) g else Ok xy in
  let! ok := pt_is_valid (mkPt xy c DONE start) in
  Ok ((mkPt xy c (if ok then DONE else FAILED) pos, first), pos - start, rest).
Lemma data_loop : forall c pre arr s, length (pre ++ arr) = 64%nat -> (length pre <= data_len c)%nat ->
  let k := Nat.min (length s) (data_len c - length pre) in
  read_loop_o (pt_length c) (1 + len pre) (fun a p b => aset a (p - 1) b) (pre ++ arr) s =
  Ok (pre ++ firstn k s ++ skipn k arr, 1 + len pre + Z.of_nat k, skipn k s).
Proof.
  intros c pre arr s L H k. rewrite app_length in L. rewrite (fill_loop 1 (pt_length c)); auto; rewrite ?length_data.
  - unfold k, len. replace (Z.to_nat _) with (data_len c - length pre)%nat by lia. reflexivity.
  - unfold len. destruct c; cbn [data_len] in *; lia.
Qed.
Lemma data_short : forall g c first start pre arr s, length (pre ++ arr) = 64%nat -> (length pre + length s < data_len c)%nat ->
  pt_data g (pre ++ arr) c first start (1 + len pre) s =
  Ok ((mkPt (pre ++ s ++ skipn (length s) arr) c INCOMPLETE (1 + len (pre ++ s)), first), 1 + len (pre ++ s) - start, []).
Proof.
  intros g c first start pre arr s L H. unfold pt_data. rewrite data_loop, bind_Ok by (auto; lia). cbv beta iota.
  replace (Nat.min _ _) with (length s) by lia. rewrite firstn_all, skipn_all.
  replace (1 + len pre + Z.of_nat (length s)) with (1 + len (pre ++ s)) by (unfold len; rewrite app_length; lia).
  destruct (Z.eqb_spec (1 + len (pre ++ s)) (pt_length c)) as [E|E]; [|reflexivity].
  rewrite length_data in E. unfold len in E. rewrite app_length in E. lia.
Qed.
Lemma data_full : forall g c first start pre arr s1 s2, length (pre ++ arr) = 64%nat -> (length pre + length s1 = data_len c)%nat ->
  pt_data g (pre ++ arr) c first start (1 + len pre) (s1 ++ s2) = pt_end g (pre ++ s1 ++ skipn (length s1) arr) c first start (pt_length c) s2.
Proof.
  intros g c first start pre arr s1 s2 L H. unfold pt_data. rewrite data_loop, bind_Ok by (auto; lia). cbv beta iota.
  rewrite app_length. replace (Nat.min _ _) with (length s1) by lia. rewrite (firstn_app_len _ s1 s2), (skipn_app_len _ s1 s2) by auto.
  replace (1 + len pre + Z.of_nat (length s1)) with (pt_length c) by (rewrite length_data; unfold len; lia).
  rewrite Z.eqb_refl. reflexivity.
Qed.
Lemma end_curve : forall g xy c x y start rest, on_curve x y -> bytes_ok xy -> length xy = 64%nat -> 
  sec_bytes c x y = hd 0 (sec_bytes c x y) :: firstn (data_len c) xy ->
  pt_end g xy c (hd 0 (sec_bytes c x y)) start (pt_length c) rest =
  Ok ((mkPt (coords x y) c DONE (pt_length c), hd 0 (sec_bytes c x y)), pt_length c - start, rest).
Proof.
  intros g xy c x y start rest O Hb L E. unfold pt_end.
  assert (S1 : (if c then uncompress_pubkey (hd 0 (sec_bytes c x y) :: firstn 32 xy) g else Ok xy) = Ok (coords x y)).
  { destruct c; cbn [data_len sec_bytes hd] in *.
    - apply (f_equal (@List.tl Z)) in E. cbn [List.tl] in E. rewrite <- E.
      destruct (uncompress_33 (2 + y mod 2) (be_bytes 32 x) g) as [(y' & O' & M & U)|[N _]].
      + clear. dlia.
      + apply be_bytes_ok.
      + apply be_bytes_length.
      + rewrite be_round in * by apply O. rewrite U. do 2 f_equal. apply (curve_unique x); auto. rewrite M. clear. dlia.
      + exfalso. rewrite be_round in N by apply O. apply (N y); auto. clear. dlia.
    - apply (f_equal (@List.tl Z)) in E. cbn [List.tl] in E. rewrite firstn_all2 in E by lia. rewrite E. reflexivity. }
  rewrite S1, bind_Ok. cbv beta. destruct (is_valid_ok (coords x y) c start (coords_ok x y) (coords_len x y)) as (b & V & Hv).
  rewrite V, bind_Ok. cbv beta. assert (b = true) as -> by (apply Hv, valid_coords; auto). reflexivity.
Qed.
(** Everything that may happen at the end. *)
Lemma end_cases : forall (g xy : list Z) (c : bool) (first start : Z) (rest : list Z), bytes_ok xy -> length xy = 64%nat -> bytes_ok g -> length g = 64%nat ->
  (if c then first = 2 \/ first = 3 else first = 4) ->
  exists k : ecpoint, pt_end g xy c first start (pt_length c) rest = Ok ((k, first), pt_length c - start, rest) /\
   pt_comp k = c /\ pt_parsed k = pt_length c /\ length (pt_xy k) = 64%nat /\ bytes_ok (pt_xy k) /\
   ((pt_status k = DONE /\ exists x y, on_curve x y /\ pt_xy k = coords x y /\ first :: firstn (data_len c) xy = sec_bytes c x y) \/
    (pt_status k = FAILED /\ forall x y, on_curve x y -> first :: firstn (data_len c) xy <> sec_bytes c x y) \/
    (c = true /\ pt_xy k = g /\ (pt_status k = DONE <-> valid_spec g true) /\ (pt_status k = DONE \/ pt_status k = FAILED) /\
     forall x y, on_curve x y -> first :: firstn 32 xy <> sec_bytes c x y)).
Proof.
  intros g xy c first start rest Hb L Hg Lg HF. unfold pt_end. destruct c.
  - assert (BX : bytes_ok (firstn 32 xy)) by (apply bytes_ok_firstn; auto). assert (LX : length (firstn 32 xy) = 32%nat) by (rewrite firstn_length; lia).
    destruct (uncompress_33 first (firstn 32 xy) g HF BX LX) as [(y & O & M & U)|[N U]].
    + rewrite U, bind_Ok. cbv beta. set (x := be_val 256 (firstn 32 xy)) in *.
      destruct (is_valid_ok (coords x y) true start (coords_ok x y) (coords_len x y)) as (b & V & Hv). rewrite V, bind_Ok. cbv beta.
      assert (b = true) as -> by (apply Hv, valid_coords; auto). eexists. split; [reflexivity|]. cbn [pt_comp pt_parsed pt_xy pt_status data_len].
      repeat (split; [auto using coords_len, coords_ok|]). left. split; auto. exists x, y. split; auto. split; auto.
      cbn [sec_bytes]. rewrite M, mod2 by auto. f_equal. unfold x. rewrite byte_be; auto.
    + rewrite U, bind_Ok. cbv beta. destruct (is_valid_ok g true start Hg Lg) as (b & V & Hv). rewrite V, bind_Ok. cbv beta.
      eexists. split; [reflexivity|]. cbn [pt_comp pt_parsed pt_xy pt_status data_len]. repeat (split; [solve [auto]|]). right. right.
      do 2 (split; [solve [auto]|]). split; [destruct b; split; intros Q; try discriminate; auto; [apply Hv; auto|apply Hv in Q; discriminate]|].
      split; [destruct b; auto|]. intros x y O E. cbn [sec_bytes] in E. pose proof (f_equal (hd 0) E) as E0. cbn [hd] in E0.
      apply (f_equal (@List.tl Z)) in E. cbn [List.tl] in E. rewrite E in N. rewrite be_round in N by apply O. apply (N y O). rewrite E0. clear. dlia.
  - rewrite bind_Ok. cbv beta. destruct (is_valid_ok xy false start Hb L) as (b & V & Hv). rewrite V, bind_Ok. cbv beta.
    eexists. split; [reflexivity|]. cbn [pt_comp pt_parsed pt_xy pt_status data_len]. repeat (split; [auto|]).
    rewrite firstn_all2 by lia. cbn [sec_bytes]. destruct b.
    + left. split; auto. exists (xpart xy), (ypart xy). rewrite parts_coords by auto. split; [apply Hv; auto|]. rewrite HF. auto.
    + right. left. split; auto. intros x y O E. assert (F : false = true); [|discriminate]. apply Hv. unfold valid_spec.
      injection E as _ E. rewrite E. unfold xpart, ypart, coords.
      rewrite firstn_app_len, skipn_app_len, !be_round by (try apply O; rewrite be_bytes_length; reflexivity). exact O.
Qed.
Lemma parse_first : forall g k fb c t, pt_status k = DONE -> 2 <= c <= 4 ->
  pt_parse g (k, fb) (c :: t) = pt_data g ([] ++ pt_xy k) (negb (c =? 4)) c 0 (1 + len (@nil Z)) t.
Proof.
  intros g k fb c t S H. unfold pt_parse. rewrite S. change (0 <? 0) with false. cbv iota beta zeta.
  destruct (Z.ltb_spec c 2); [lia|]. destruct (Z.ltb_spec 4 c); [lia|]. reflexivity.
Qed.
Lemma sec_head : forall c x y, 2 <= hd 0 (sec_bytes c x y) <= 4 /\ negb (hd 0 (sec_bytes c x y) =? 4) = c.
Proof.
  intros [] x y; cbn [sec_bytes hd]; [|split; [lia|reflexivity]]. pose proof (Z.mod_pos_bound y 2 ltac:(lia)). split; [lia|].
  destruct (Z.eqb_spec (2 + y mod 2) 4); [lia|reflexivity].
Qed.
Lemma sec_cons : forall c x y, sec_bytes c x y = hd 0 (sec_bytes c x y) :: @List.tl Z (sec_bytes c x y).
Proof. intros []; reflexivity. Qed.
Lemma sec_tl : forall c x y, length (@List.tl Z (sec_bytes c x y)) = data_len c.
Proof. intros c x y. pose proof (sec_bytes_len c x y) as H. rewrite sec_cons in H. cbn [length] in H. apply Nat.succ_inj. rewrite H. destruct c; reflexivity. Qed.
Lemma sec_ok : forall c x y, bytes_ok (sec_bytes c x y).
Proof.
  intros c x y. pose proof (Z.mod_pos_bound y 2 ltac:(lia)). destruct c; cbn [sec_bytes].
  - constructor; [unfold byte_ok; lia|apply be_bytes_ok].
  - constructor; [unfold byte_ok; lia|apply coords_ok].
Qed.
(** A whole point in one piece. *)
Lemma pt_whole : forall g k fb c x y rest, pt_ready k -> on_curve x y ->
  pt_parse g (k, fb) (sec_bytes c x y ++ rest) = Ok ((mkPt (coords x y) c DONE (pt_length c), hd 0 (sec_bytes c x y)), pt_length c, rest).
Proof.
  intros g k fb c x y rest (SD & L & Hb) O. destruct (sec_head c x y) as [R N]. rewrite sec_cons at 1. cbn [app].
  rewrite parse_first, N by auto. rewrite data_full by (auto; cbn [length]; apply sec_tl). cbn [app].
  pose proof (sec_tl c x y) as LT. rewrite end_curve; auto.
  - rewrite Z.sub_0_r. reflexivity.
  - apply bytes_ok_app. split; [|apply bytes_ok_skipn; auto]. pose proof (sec_ok c x y) as Q. rewrite sec_cons in Q. apply Forall_inv_tail in Q. exact Q.
  - rewrite app_length, skipn_length, LT. destruct c; cbn [data_len]; lia.
  - rewrite firstn_app_len by auto. apply sec_cons.
Qed.
(** Any bytes. *)
Lemma pt_any : forall g k fb s, pt_ready k -> bytes_ok s -> bytes_ok g -> length g = 64%nat ->
  exists k' fb' n rest, pt_parse g (k, fb) s = Ok ((k', fb'), n, rest) /\ s = firstn (Z.to_nat n) s ++ rest /\ 0 <= n /\
   ((pt_status k' = DONE /\ exists x y, on_curve x y /\ pt_xy k' = coords x y /\ s = sec_bytes (pt_comp k') x y ++ rest) \/
    (pt_status k' <> DONE /\ forall c x y r, on_curve x y -> s <> sec_bytes c x y ++ r) \/
    (pt_comp k' = true /\ pt_xy k' = g /\ (pt_status k' = DONE <-> valid_spec g true) /\ (nth 0 s 0 = 2 \/ nth 0 s 0 = 3) /\ (33 <= length s)%nat /\
     forall c x y r, on_curve x y -> s <> sec_bytes c x y ++ r)).
Proof.
  intros g k fb s (SD & L & Hb) Bs Hg Lg. destruct s as [|c t].
  { exists (mkPt (pt_xy k) (pt_comp k) INCOMPLETE 0), fb, 0, []. unfold pt_parse. rewrite SD. split; [reflexivity|]. split; [reflexivity|]. split; [lia|].
    right. left. split; [discriminate|]. intros c x y r O E. rewrite sec_cons in E. discriminate. }
  destruct (Z.ltb_spec c 2) as [C2|C2]; [|destruct (Z.ltb_spec 4 c) as [C4|C4]].
  1,2: exists (mkPt (pt_xy k) (pt_comp k) FAILED 1), fb, 1, t; unfold pt_parse; rewrite SD; change (0 <? 0) with false; cbv iota beta zeta;
    (assert (Q : (c <? 2) || (4 <? c) = true) by (apply orb_true_iff; rewrite !Z.ltb_lt; lia)); rewrite Q;
    split; [reflexivity|]; split; [reflexivity|]; split; [lia|]; right; left; split; [discriminate|];
    intros c' x y r O E; apply (f_equal (hd 0)) in E; cbn [hd] in E; destruct (sec_head c' x y) as [R _]; rewrite sec_cons in E; cbn [app hd] in E; lia.
  rewrite parse_first by (auto; lia). set (d := negb (c =? 4)).
  destruct (Nat.lt_ge_cases (length t) (data_len d)) as [LT|GE].
  - rewrite data_short by (auto; cbn [length]; lia). cbn [app]. do 4 eexists. split; [reflexivity|]. rewrite app_nil_r. 
    split; [rewrite firstn_all2; auto; unfold len; cbn [length]; lia|]. split; [unfold len; lia|].
    right. left. split; [discriminate|]. intros c' x y r O E. apply (f_equal (@length Z)) in E as E1. pose proof (f_equal (hd 0) E) as E2. cbn [hd] in E2.
    assert (d = c') as ->. { unfold d. rewrite E2. rewrite sec_cons. cbn [app hd]. apply sec_head. }
    rewrite app_length, sec_bytes_len in E1. cbn [length] in E1. destruct c'; cbn [data_len sec_len] in *; lia.
  - rewrite <- (firstn_skipn (data_len d) t). set (t1 := firstn (data_len d) t) in *. set (t2 := skipn (data_len d) t) in *.
    assert (L1 : length t1 = data_len d) by (unfold t1; rewrite firstn_length; lia).
    rewrite data_full by (auto; cbn [length]; lia). cbn [app]. apply Forall_inv_tail in Bs.
    assert (B1 : bytes_ok t1) by (apply bytes_ok_firstn; auto).
    destruct (end_cases g (t1 ++ skipn (length t1) (pt_xy k)) d c 0 t2) as (k' & E & K1 & K2 & K3 & K4 & K); auto.
    { apply bytes_ok_app. split; auto. apply bytes_ok_skipn. auto. }
    { rewrite app_length, skipn_length, L1. destruct d; cbn [data_len]; lia. }
    { unfold d. destruct (Z.eqb_spec c 4); cbn [negb]; lia. }
    rewrite firstn_app_len in K by auto. exists k', c, (pt_length d - 0), t2. split; [exact E|].
    assert (SP : forall c' x y r, c :: t1 ++ t2 = sec_bytes c' x y ++ r -> d = c' /\ c :: t1 = sec_bytes d x y /\ r = t2).
    { intros c' x y r Q. pose proof (f_equal (hd 0) Q) as Q1. cbn [hd] in Q1. assert (d = c') as <-.
      { unfold d. rewrite Q1, sec_cons. cbn [app hd]. apply sec_head. }
      change (c :: t1 ++ t2) with ((c :: t1) ++ t2) in Q. apply app_inj_len in Q; [destruct Q; auto|]. cbn [length]. rewrite sec_bytes_len, L1. destruct d; reflexivity. }
    split. { rewrite Z.sub_0_r, length_data. replace (Z.to_nat _) with (S (data_len d)) by lia. cbn [firstn app]. f_equal. rewrite firstn_app_len by auto. reflexivity. }
    split; [rewrite length_data; lia|]. destruct K as [(S1 & x & y & O & X & Q)|[(S1 & N)|(D1 & X & S1 & S2 & N)]].
    + left. split; auto. exists x, y. rewrite K1. split; auto. split; auto. rewrite <- Q. reflexivity.
    + right. left. split; [congruence|]. intros c' x y r O Q. apply SP in Q as (_ & Q & _). exact (N x y O Q).
    + right. right. rewrite K1. split; auto. split; auto. split; auto. cbn [nth].
      assert (C23 : c = 2 \/ c = 3) by (unfold d in D1; destruct (Z.eqb_spec c 4); [discriminate|lia]). split; auto.
      split; [cbn [length]; rewrite app_length, L1, D1; cbn [data_len]; lia|].
      intros c' x y r O Q. apply SP in Q as (_ & Q & _). apply (N x y O). rewrite <- Q. f_equal. rewrite D1 in *. cbn [data_len] in *.
      rewrite firstn_app_len by auto. reflexivity.
Qed.
