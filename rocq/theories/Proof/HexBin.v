From Coq Require Import Lia.
From Verif Require Import Base.Bytes Base.BytesFacts Model.Conversion Spec.Codecs.
Open Scope Z_scope.

Lemma hex_digit_spec : forall v, 0 <= v < 16 ->
  hex_digit v = nth (Z.to_nat v) hex_alphabet 0 /\ hexToVal (nth (Z.to_nat v) hex_alphabet 0) = v.
Proof.
  intros v Hv.
  assert ((hex_digit v =? nth (Z.to_nat v) hex_alphabet 0) &&
          (hexToVal (nth (Z.to_nat v) hex_alphabet 0) =? v) = true) as H.
  { apply (zrange_sweep 16 (fun v => (hex_digit v =? nth (Z.to_nat v) hex_alphabet 0) &&
          (hexToVal (nth (Z.to_nat v) hex_alphabet 0) =? v))); [vm_compute; reflexivity|lia]. }
  apply andb_true_iff in H as [A B]. apply Z.eqb_eq in A, B. auto.
Qed.

Lemma flat_map_ext_in : forall A B (f g : A -> list B) l,
  (forall x, In x l -> f x = g x) -> flat_map f l = flat_map g l.
Proof.
  induction l; intros H; cbn; auto. rewrite H by (left; auto). f_equal. apply IHl.
  intros; apply H; right; auto.
Qed.

Lemma toHex_spec : forall bs out, bytes_ok bs -> 2 * len bs <= len out ->
  toHex bs out = (2 * len bs, hex_string bs ++ zeros (Z.to_nat (len out - 2 * len bs))).
Proof.
  intros bs out H HL. unfold toHex. destruct (Z.ltb_spec (len out) (2 * len bs)); [lia|].
  do 2 f_equal. unfold hex_string. apply flat_map_ext_in. intros b Hb.
  pose proof (proj1 (Forall_forall _ _) H b Hb) as Hbb. unfold byte_ok in Hbb.
  rewrite Z.shiftr_div_pow2 by lia. change 15 with (Z.ones 4). rewrite Z.land_ones by lia.
  change (2^4) with 16.
  rewrite (proj1 (hex_digit_spec (b/16) ltac:(dlia))), (proj1 (hex_digit_spec (b mod 16) ltac:(dlia))).
  reflexivity.
Qed.
Lemma toHex_refuses : forall bs out, len out < 2 * len bs -> toHex bs out = (0, out).
Proof. intros; unfold toHex. destruct (Z.ltb_spec (len out) (2 * len bs)); [reflexivity|lia]. Qed.

Lemma hex_lor : forall b, byte_ok b -> Z.lor (Z.shiftl (b / 16) 4) (b mod 16) = b.
Proof.
  unfold byte_ok. intros b Hb. apply Z.eqb_eq.
  apply (zrange_sweep 256 (fun b => Z.lor (Z.shiftl (b / 16) 4) (b mod 16) =? b));
    [vm_compute; reflexivity|lia].
Qed.

Lemma fromHex_loop_spec : forall bs done pad, bytes_ok bs ->
  fromHex_loop (hex_string bs) (len done) (done ++ zeros (length bs + pad)) =
  Ok (len done + len bs, done ++ bs ++ zeros pad).
Proof.
  induction bs as [|b bs IH]; intros done pad H.
  - cbn. rewrite Z.add_0_r. reflexivity.
  - inversion H; subst. unfold byte_ok in H2.
    change (hex_string (b :: bs)) with
      (nth (Z.to_nat (b / 16)) hex_alphabet 0 :: nth (Z.to_nat (b mod 16)) hex_alphabet 0 :: hex_string bs).
    cbn [fromHex_loop].
    rewrite (proj2 (hex_digit_spec (b/16) ltac:(dlia))), (proj2 (hex_digit_spec (b mod 16) ltac:(dlia))).
    destruct (Z.ltb_spec 15 (b/16)); [dlia|]. destruct (Z.ltb_spec 15 (b mod 16)); [dlia|]. cbn [orb].
    rewrite hex_lor by auto.
    unfold aset. change (zeros (length (b :: bs) + pad)) with (0 :: zeros (length bs + pad)).
    pose proof (len_nonneg _ done) as LD. rewrite len_app, len_cons.
    pose proof (len_nonneg _ (zeros (length bs + pad))) as LZ.
    destruct (Z.leb_spec 0 (len done)); [|lia].
    destruct (Z.ltb_spec (len done) (len done + (1 + len (zeros (length bs + pad))))); [|lia].
    cbn [andb bind]. unfold len at 2. rewrite Nat2Z.id, set_nth_app_mid.
    replace (len done + 1) with (len (done ++ [b])) by (rewrite len_app; reflexivity).
    replace (done ++ b :: zeros (length bs + pad)) with ((done ++ [b]) ++ zeros (length bs + pad))
      by (rewrite <- app_assoc; reflexivity).
    rewrite IH by auto. rewrite len_app, len_cons, len_nil, <- !app_assoc. cbn [app].
    rewrite len_cons. do 2 f_equal. lia.
Qed.

Lemma skip_nonhex_hex : forall bs, bytes_ok bs -> skip_nonhex (hex_string bs) = hex_string bs.
Proof.
  intros [|b bs] H; auto. inversion H; subst. unfold byte_ok in H2.
  change (hex_string (b :: bs)) with
      (nth (Z.to_nat (b / 16)) hex_alphabet 0 :: nth (Z.to_nat (b mod 16)) hex_alphabet 0 :: hex_string bs).
  cbn [skip_nonhex]. rewrite (proj2 (hex_digit_spec (b/16) ltac:(dlia))).
  destruct (Z.ltb_spec 15 (b/16)); [dlia|reflexivity].
Qed.

Lemma fromHex_spec : forall bs arr, bytes_ok bs -> len bs <= len arr ->
  fromHex (hex_string bs) arr = Ok (len bs, bs ++ zeros (length arr - length bs)).
Proof.
  intros bs arr H HL. unfold fromHex. rewrite skip_nonhex_hex by auto.
  unfold len in HL.
  pose proof (fromHex_loop_spec bs [] (length arr - length bs) H) as E. cbn [app] in E.
  replace (length bs + (length arr - length bs))%nat with (length arr) in E by lia.
  exact E.
Qed.

(** C04: no check against the array size. *)
Lemma fromHex_loop_safe : forall n hex i arr, (length hex <= n)%nat -> 0 <= i ->
  i + len hex / 2 <= len arr ->
  exists r arr', fromHex_loop hex i arr = Ok (r, arr') /\ length arr' = length arr /\ i <= r <= i + len hex / 2.
Proof.
  induction n; intros hex i arr Hn Hi HL.
  - destruct hex; cbn in Hn; [|lia]. exists i, arr. cbn. repeat split; auto; lia.
  - destruct hex as [|c1 [|c2 t]]; try (exists i, arr; split; [reflexivity|split; [reflexivity|rewrite ?len_cons, ?len_nil; dlia]]).
    rewrite !len_cons in *. pose proof (len_nonneg _ t).
    replace ((1 + (1 + len t)) / 2) with (1 + len t / 2) in * by dlia.
    cbn [fromHex_loop].
    destruct ((15 <? hexToVal c1) || (15 <? hexToVal c2)).
    + exists i, arr. repeat split; auto; dlia.
    + unfold aset. destruct (Z.leb_spec 0 i); [|lia]. destruct (Z.ltb_spec i (len arr)); [|dlia]. cbn [andb bind].
      edestruct (IHn t (i + 1)) as (r & arr' & E & L & R); [| | |exists r, arr'; split; [exact E|split]].
      * cbn in Hn; lia.
      * lia.
      * unfold len. rewrite set_nth_length. fold (len arr). unfold len in *; lia.
      * rewrite L, set_nth_length; auto.
      * lia.
Qed.
Lemma skip_nonhex_len : forall hex, len (skip_nonhex hex) <= len hex.
Proof.
  induction hex; cbn [skip_nonhex]; [lia|]. destruct (15 <? hexToVal a); rewrite ?len_cons; lia.
Qed.
Lemma fromHex_safe : forall hex arr, len hex / 2 <= len arr ->
  exists r arr', fromHex hex arr = Ok (r, arr') /\ length arr' = length arr.
Proof.
  intros hex arr H. unfold fromHex.
  destruct (fromHex_loop_safe (length (skip_nonhex hex)) (skip_nonhex hex) 0 (zeros (length arr)))
    as (r & arr' & E & L & _); auto; try lia.
  - rewrite len_zeros. fold (len arr). pose proof (skip_nonhex_len hex).
    assert (len (skip_nonhex hex) / 2 <= len hex / 2) by (apply Z.div_le_mono; lia). lia.
  - exists r, arr'. split; auto. rewrite L. apply repeat_length.
Qed.

(** C05 *)
Lemma bin_byte_spec : forall b, byte_ok b ->
  bin_byte b = map (fun k => 48 + (b / 2^k) mod 2) [7; 6; 5; 4; 3; 2; 1; 0].
Proof.
  unfold byte_ok; intros b Hb.
  destruct (list_eq_dec Z.eq_dec (bin_byte b) (map (fun k => 48 + (b / 2^k) mod 2) [7; 6; 5; 4; 3; 2; 1; 0])) as [|N]; auto.
  exfalso.
  pose proof (zrange_sweep 256 (fun b => if list_eq_dec Z.eq_dec (bin_byte b) (map (fun k => 48 + (b / 2^k) mod 2) [7; 6; 5; 4; 3; 2; 1; 0]) then true else false)
    ltac:(vm_compute; reflexivity) b ltac:(lia)) as S.
  cbv beta in S. destruct (list_eq_dec _ _ _) in S; [auto|discriminate].
Qed.
Lemma toBin_spec : forall bs out, bytes_ok bs -> 8 * len bs <= len out ->
  toBin bs out = (8 * len bs, bin_string bs ++ zeros (Z.to_nat (len out - 8 * len bs))).
Proof.
  intros bs out H HL. unfold toBin. destruct (Z.ltb_spec (len out) (len bs * 8)); [lia|].
  do 2 f_equal. unfold bin_string. apply flat_map_ext_in. intros b Hb.
  apply bin_byte_spec. exact (proj1 (Forall_forall _ _) H b Hb).
Qed.

Definition bit_step (e c x : Z) : Z := if c =? 49 then Z.lor x (Z.shiftl 1 e) else x.
Lemma fromBin_step : forall c t i ln pre x suf e k,
  (c = 48 \/ c = 49) -> i = 8 * k + e -> 0 <= e < 8 -> 0 <= k < 256 -> len pre = ln - k - 1 ->
  fromBin_loop (c :: t) i ln (pre ++ x :: suf) =
  fromBin_loop t (i + 1) ln (pre ++ bit_step e c x :: suf).
Proof.
  intros c t i ln pre x suf e k Hc -> He Hk HP. cbn [fromBin_loop]. unfold bit_step.
  replace ((8 * k + e) mod 8) with e by dlia. replace ((8 * k + e) / 8) with k by dlia.
  rewrite !u8_id by lia.
  pose proof (len_nonneg _ suf).
  destruct Hc as [-> | ->]; [reflexivity|].
  change (49 =? 49) with true. cbn iota.
  rewrite <- HP. rewrite aget_mid. cbn [bind].
  unfold aset. rewrite len_app, len_cons. pose proof (len_nonneg _ pre).
  destruct (Z.leb_spec 0 (len pre)); [|lia].
  destruct (Z.ltb_spec (len pre) (len pre + (1 + len suf))); [|lia]. cbn [andb bind].
  unfold len at 1. rewrite Nat2Z.id, set_nth_app_mid. reflexivity.
Qed.
Definition byte_rebuilt (b : Z) : Z :=
  let d := fun k => 48 + (b / 2^k) mod 2 in
  bit_step 7 (d 7) (bit_step 6 (d 6) (bit_step 5 (d 5) (bit_step 4 (d 4)
    (bit_step 3 (d 3) (bit_step 2 (d 2) (bit_step 1 (d 1) (bit_step 0 (d 0) 0))))))).
Lemma byte_rebuilt_id : forall b, byte_ok b -> byte_rebuilt b = b.
Proof.
  unfold byte_ok; intros b Hb. apply Z.eqb_eq.
  apply (zrange_sweep 256 (fun b => byte_rebuilt b =? b)); [vm_compute; reflexivity|lia].
Qed.
Lemma bit48 : forall x, 48 + x mod 2 = 48 \/ 48 + x mod 2 = 49.
Proof. intros; dlia. Qed.
Lemma fromBin_byte : forall b t k ln pre suf, byte_ok b -> 0 <= k < 256 -> len pre = ln - k - 1 ->
  fromBin_loop (rev (map (fun j => 48 + (b / 2^j) mod 2) [7; 6; 5; 4; 3; 2; 1; 0]) ++ t) (8 * k) ln (pre ++ 0 :: suf) =
  fromBin_loop t (8 * (k + 1)) ln (pre ++ b :: suf).
Proof.
  intros b t k ln pre suf Hb Hk HP. cbn [map rev app].
  rewrite (fromBin_step _ _ _ _ pre _ suf 0 k) by (auto using bit48; lia).
  rewrite (fromBin_step _ _ _ _ pre _ suf 1 k) by (auto using bit48; lia).
  rewrite (fromBin_step _ _ _ _ pre _ suf 2 k) by (auto using bit48; lia).
  rewrite (fromBin_step _ _ _ _ pre _ suf 3 k) by (auto using bit48; lia).
  rewrite (fromBin_step _ _ _ _ pre _ suf 4 k) by (auto using bit48; lia).
  rewrite (fromBin_step _ _ _ _ pre _ suf 5 k) by (auto using bit48; lia).
  rewrite (fromBin_step _ _ _ _ pre _ suf 6 k) by (auto using bit48; lia).
  rewrite (fromBin_step _ _ _ _ pre _ suf 7 k) by (auto using bit48; lia).
  f_equal; [lia|]. f_equal. f_equal. exact (byte_rebuilt_id b Hb).
Qed.
Lemma fromBin_bytes : forall bs ln k suf, bytes_ok bs -> 0 <= k -> len bs + k <= 256 -> ln = len bs + k ->
  fromBin_loop (rev (bin_string bs)) (8 * k) ln (zeros (length bs) ++ suf) = Ok (ln, bs ++ suf).
Proof.
  induction bs as [|b bs IH] using rev_ind; intros ln k suf H Hk HL ->.
  - reflexivity.
  - apply bytes_ok_app in H as [H1 H2]. inversion H2; subst. rewrite len_app, len_cons, len_nil in *.
    unfold bin_string. rewrite flat_map_app, rev_app_distr. cbn [flat_map]. rewrite app_nil_r.
    rewrite app_length. cbn [length]. unfold zeros. rewrite repeat_app. cbn [repeat].
    fold (zeros (length bs)).
    rewrite <- app_assoc. cbn [app].
    pose proof (len_nonneg _ bs).
    rewrite fromBin_byte; auto; try lia.
    + fold (bin_string bs).
      rewrite IH; auto; try lia. rewrite <- app_assoc. reflexivity.
    + rewrite len_zeros. unfold len. lia.
Qed.
Lemma bin_string_len : forall bs, len (bin_string bs) = 8 * len bs.
Proof.
  induction bs; [reflexivity|]. unfold bin_string in *. cbn [flat_map]. rewrite len_app, IHbs, len_cons, len_map. change (len [7;6;5;4;3;2;1;0]) with 8. lia.
Qed.
Lemma fromBin_spec : forall bs arr, bytes_ok bs -> len bs <= 256 -> len bs <= len arr ->
  fromBin (bin_string bs) arr = Ok (len bs, bs ++ zeros (length arr - length bs)).
Proof.
  intros bs arr H HL HA. unfold fromBin. rewrite bin_string_len.
  destruct (Z.ltb_spec (len arr * 8) (8 * len bs)); [lia|].
  replace (8 * len bs / 8) with (len bs) by dlia. replace (8 * len bs mod 8 =? 0) with true
    by (symmetry; apply Z.eqb_eq; dlia).
  rewrite Z.add_0_r.
  replace (zeros (length arr)) with (zeros (length bs) ++ zeros (length arr - length bs))
    by (unfold zeros; rewrite <- repeat_app; f_equal; unfold len in *; lia).
  change 0 with (8 * 0) at 1. apply fromBin_bytes; auto; lia.
Qed.

(** 257 bytes: the top byte lands on the bottom one. *)
Definition bin_witness : list Z := 1 :: zeros 256.
Lemma bin_roundtrip_fails : fromBin (bin_string bin_witness) (zeros 257) = Ok (257, zeros 256 ++ [1]).
Proof. vm_compute. reflexivity. Qed.
