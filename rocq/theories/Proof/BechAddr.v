(** Segregated witness addresses: what is written, what is accepted. *)
From Coq Require Import Lia.
From Verif Require Import Base.Bytes Base.BytesFacts Spec.Codecs Model.Bech32 Spec.Bech32 Proof.BechCode Proof.BechErr Proof.BechFacts.
Open Scope Z_scope.

Lemma polymod_fold : forall vs c, fold_left polymod_value vs c = fold_left step vs c.
Proof. induction vs as [|v vs IH]; intros c; [reflexivity|]. cbn [fold_left]. rewrite step_value. apply IH. Qed.
Lemma fold_map : forall (f : Z -> Z) l c, fold_left step (map f l) c = fold_left (fun k x => Z.lxor (polymod_step k) (f x)) l c.
Proof. induction l as [|x l IH]; intros c; [reflexivity|]. cbn [map fold_left]. apply IH. Qed.
Lemma expand_fold : forall hrp, fold_left step (hrp_expand hrp) 1 = enc_low (polymod_step (fold_left step (map (fun c => Z.shiftr c 5) hrp) 1)) hrp.
Proof.
  intros hrp. unfold hrp_expand, enc_low. rewrite !fold_left_app. cbn [fold_left]. unfold step at 2. rewrite Z.lxor_0_r. apply fold_map.
Qed.
Definition hrp_sum (hrp : list Z) : Z := fold_left step (hrp_expand hrp) 1.
Lemma checksum_fold : forall hrp vals, checksum_ok hrp vals <-> fold_left step vals (hrp_sum hrp) = 1.
Proof. intros. unfold checksum_ok, polymod, hrp_sum. rewrite polymod_fold, fold_left_app. tauto. Qed.

(** The checksum symbols. *)
Lemma step_small : forall x v, 0 <= x < 2^25 -> value_ok v -> step x v = x * 32 + v.
Proof.
  intros x v Hx Hv. unfold step, polymod_step. replace (Z.shiftr x 25) with 0 by (rewrite Z.shiftr_div_pow2 by lia; symmetry; apply Z.div_small; lia).
  change (pick 0 0 996825010) with 0. change (pick 0 1 642813549) with 0. change (pick 0 2 513874426) with 0. change (pick 0 3 1027748829) with 0. change (pick 0 4 705979059) with 0.
  rewrite !Z.lxor_0_r. change 33554431 with (Z.ones 25). rewrite Z.land_ones, Z.mod_small, Z.shiftl_mul_pow2 by lia. unfold value_ok in Hv. apply lxor_add; lia.
Qed.
Lemma values_digits : forall l, Forall value_ok l <-> digits_ok (2^5) l.
Proof. intros. unfold value_ok, digits_ok. change (2^5) with 32. tauto. Qed.
Lemma fold_small : forall ds, Forall value_ok ds -> (length ds <= 6)%nat -> fold_left step ds 0 = be_val 32 ds.
Proof.
  induction ds as [|v ds IH] using rev_ind; intros H HL; [reflexivity|]. apply Forall_app in H as [H H']. inversion H' as [|? ? Hv _]; subst.
  rewrite app_length in HL. cbn [length] in HL. rewrite fold_left_app, be_val_snoc. cbn [fold_left]. rewrite IH by (auto; lia).
  apply step_small; auto. pose proof (be_val_bound 32 ds ltac:(lia) H). assert (32 ^ len ds <= 32^5) by (apply Z.pow_le_mono_r; unfold len; lia). change (2^25) with (32^5). lia.
Qed.
Lemma fold_shift : forall ds c, fold_left step ds c = Z.lxor (fold_left step ds 0) (steps (length ds) c).
Proof. intros. rewrite !effect_app, steps_0, Z.lxor_0_r. reflexivity. Qed.
Definition check6 (c : Z) : list Z := map (fun i => Z.land (Z.shiftr c ((5 - i) * 5)) 31) [0; 1; 2; 3; 4; 5].
Lemma check6_ok : forall c, v30 c -> Forall value_ok (check6 c) /\ be_val 32 (check6 c) = c.
Proof.
  intros c Hc. unfold v30 in Hc. unfold check6. split.
  - apply Forall_map. apply Forall_forall. intros i _. unfold value_ok. change 31 with (Z.ones 5). rewrite Z.land_ones by lia. apply Z.mod_pos_bound. lia.
  - change ((5 - 0) * 5) with 25. cbn [map]. change 31 with (Z.ones 5). rewrite !Z.land_ones, !Z.shiftr_div_pow2 by lia. unfold be_val. cbn [be_acc]. 
    change (2 ^ ((5 - 0) * 5)) with 33554432. change (2 ^ ((5 - 1) * 5)) with 1048576. change (2 ^ ((5 - 2) * 5)) with 32768. change (2 ^ ((5 - 3) * 5)) with 1024. change (2 ^ ((5 - 4) * 5)) with 32.
    change (2 ^ ((5 - 5) * 5)) with 1. change (2^5) with 32. change (2^30) with 1073741824 in Hc. rewrite Z.div_1_r. dlia.
Qed.
Lemma check6_fold : forall x c, v30 x -> fold_left step (check6 x) c = Z.lxor x (steps 6 c).
Proof.
  intros x c Hx. destruct (check6_ok x Hx) as [A B]. rewrite fold_shift.
  assert (L : length (check6 x) = 6%nat) by (unfold check6; rewrite map_length; reflexivity).
  rewrite L. f_equal. rewrite fold_small; [exact B|exact A|rewrite L; auto].
Qed.
Lemma steps_6 : forall c, steps 6 c = six_steps c.
Proof. intros c. unfold six_steps. do 6 rewrite steps_S. cbn [steps]. reflexivity. Qed.
Lemma six_v30 : forall c, v30 (Z.lxor (six_steps c) 1).
Proof. intros. apply lxor_v30; [apply step_v30|unfold v30; lia]. Qed.
Lemma lxor_back : forall x, Z.lxor (Z.lxor x 1) x = 1.
Proof. intros x. rewrite (Z.lxor_comm x 1), Z.lxor_assoc, Z.lxor_nilpotent. reflexivity. Qed.
Lemma check_found : forall c, fold_left step (check6 (Z.lxor (six_steps c) 1)) c = 1.
Proof. intros c. exact (eq_trans (check6_fold _ c (six_v30 c)) (eq_trans (f_equal (Z.lxor (Z.lxor (six_steps c) 1)) (steps_6 c)) (lxor_back (six_steps c)))). Qed.
Lemma lxor_cancel : forall a b s, Z.lxor a s = Z.lxor b s -> a = b.
Proof. intros a b s E. apply Z.lxor_eq. apply (f_equal (fun y => Z.lxor y (Z.lxor b s))) in E. rewrite Z.lxor_nilpotent in E. rewrite lxor_swap, Z.lxor_nilpotent, Z.lxor_0_r in E. exact E. Qed.
Lemma check_unique : forall c a b, Forall value_ok a -> Forall value_ok b -> len a = 6 -> len b = 6 ->
  fold_left step a c = fold_left step b c -> a = b.
Proof.
  intros c a b Ha Hb La Lb E. rewrite (fold_shift a), (fold_shift b) in E. unfold len in *. replace (length a) with (length b) in E by lia.
  assert (E' : fold_left step a 0 = fold_left step b 0).
  { apply lxor_cancel in E. exact E. }
  rewrite !fold_small in E' by (auto; lia). apply (be_val_inj 32); auto; lia.
Qed.

Lemma enc_check_map : forall c, enc_check c = map symbol (check6 (Z.lxor (six_steps c) 1)).
Proof. intros c. unfold enc_check, check6, symbol. cbv zeta. generalize (Z.lxor (six_steps c) 1). intros x. rewrite map_map. reflexivity. Qed.
Lemma check6_len : forall c, len (check6 c) = 6. Proof. intros. unfold check6. rewrite len_map. reflexivity. Qed.

(** Encoding. *)
Lemma enc_high_ok : forall hrp c, Forall hrp_char hrp -> enc_high c hrp = Some (fold_left step (map (fun c => Z.shiftr c 5) hrp) c).
Proof.
  intros hrp c H. revert c. induction H as [|ch hrp [H1 H2] HF IH]; intros c; [reflexivity|]. cbn [enc_high map fold_left].
  unfold printable. replace ((33 <=? ch) && (ch <=? 126)) with true by (symmetry; apply andb_true_intro; split; apply Z.leb_le; lia).
  change (upper ch) with (is_upper ch). rewrite H2. cbn [negb orb]. apply IH.
Qed.
Lemma enc_data_ok : forall vs c, Forall value_ok vs -> enc_data c vs = (map symbol vs, Some (fold_left step vs c)).
Proof.
  intros vs c H. revert c. induction H as [|v vs Hv HF IH]; intros c; [reflexivity|]. cbn [enc_data map fold_left]. rewrite IH.
  unfold value_ok in Hv. replace (Z.shiftr v 5) with 0 by (rewrite Z.shiftr_div_pow2 by lia; symmetry; apply Z.div_small; lia). reflexivity.
Qed.
Lemma bech32_encode_ok : forall out hrp vs, Forall hrp_char hrp -> Forall value_ok vs -> len hrp + 7 + len vs <= 1000 ->
  len hrp + 7 + len vs < len out ->
  exists check, Forall value_ok check /\ len check = 6 /\ checksum_ok hrp (vs ++ check) /\
    bech32_encode out hrp vs = Ok (1, bech32_text hrp (vs ++ check) ++ 0 :: skipn (length (bech32_text hrp (vs ++ check)) + 1) out).
Proof.
  intros out hrp vs Hh Hv HL HO. unfold bech32_encode. rewrite enc_high_ok by auto.
  replace (len hrp + 7 + len vs >? MAX_BECH32_SIZE) with false by (symmetry; rewrite Z.gtb_ltb; apply Z.ltb_ge; unfold MAX_BECH32_SIZE; lia).
  rewrite <- expand_fold. fold (hrp_sum hrp). rewrite enc_data_ok by auto. set (c := fold_left step vs (hrp_sum hrp)).
  exists (check6 (Z.lxor (six_steps c) 1)).
  destruct (check6_ok _ (six_v30 c)) as [A B].
  split; [auto|]. split; [apply check6_len|]. split; [apply checksum_fold; rewrite fold_left_app; apply check_found|].
  assert (T : hrp ++ [49] ++ map symbol vs ++ enc_check c ++ [0] = bech32_text hrp (vs ++ check6 (Z.lxor (six_steps c) 1)) ++ [0]).
  { unfold bech32_text. rewrite map_app, <- !app_assoc, <- enc_check_map. reflexivity. }
  rewrite T. set (t := bech32_text _ _).
  assert (LT : len t = len hrp + 7 + len vs) by (unfold t, bech32_text; rewrite !len_app, len_map, len_app; change (len (chars "1")) with 1; rewrite check6_len; lia).
  pose proof (put_chars_ok (t ++ [0]) [] out 0 eq_refl) as P. cbn [app] in P. rewrite P by (rewrite len_app, len_cons, len_nil; lia). cbn [bind].
  rewrite <- app_assoc, app_length. reflexivity.
Qed.

(** Groups of five bits. *)
Lemma groups_ok : forall prog buf, bytes_ok prog -> (8 * len prog + 4) / 5 <= len buf ->
  exists gs, in_groups prog gs /\ convert_bits buf 5 prog 8 true = Ok (1, gs ++ skipn (length gs) buf, len gs).
Proof.
  intros prog buf Hp HB. pose proof (len_nonneg _ prog) as LP.
  destruct (convert_bits_spec 8 5 ltac:(lia) ltac:(lia) prog buf true) as [A _]; [apply bytes_digits; auto|].
  set (n := len prog) in *. set (W := be_val (2^8) prog) in *. set (bits := (8 * n) mod 5) in *. set (k := 8 * n / 5) in *.
  assert (E : 8 * n = 5 * k + bits /\ 0 <= bits < 5 /\ 0 <= k).
  { pose proof (Z.div_mod (8 * n) 5 ltac:(lia)). pose proof (Z.mod_pos_bound (8*n) 5 ltac:(lia)). assert (0 <= k) by (apply Z.div_pos; lia). fold k bits in H, H0. lia. }
  clearbody k bits.
  assert (HB' : k + (if bits =? 0 then 0 else 1) <= len buf). { destruct (Z.eqb_spec bits 0); dlia. }
  destruct (A ltac:(destruct (bits =? 0); lia)) as (hs & L1 & L2 & L3 & L4). rewrite L4. change (2^5) with 32 in *. change (2^8) with 256 in *.
  destruct (Z.eqb_spec bits 0) as [Z0|NZ].
  - exists hs. split.
    + split; [auto|]. fold n W. rewrite L1, L3, Z0. split; [clear - E Z0; dlia|]. replace (5 * k - 8 * n) with 0 by lia. change (2^0) with 1. rewrite Z.div_1_r. lia.
    + rewrite L1. replace (Z.to_nat k) with (length hs) by (clear - L1; unfold len in L1; lia). reflexivity.
  - destruct (skipn (Z.to_nat k) buf) as [|x rest] eqn:ER.
    { exfalso. assert (length (skipn (Z.to_nat k) buf) = 0)%nat by (rewrite ER; reflexivity). rewrite skipn_length in H. unfold len in HB'. lia. }
    rewrite aset_mid by auto. cbn [bind]. set (d := W mod 2^bits * 2^(5 - bits)). exists (hs ++ [d]).
    assert (P1 : 0 < 2^bits) by (apply Z.pow_pos_nonneg; lia). assert (P2 : 0 < 2^(5-bits)) by (apply Z.pow_pos_nonneg; lia).
    assert (P3 : 2^bits * 2^(5 - bits) = 32) by (rewrite <- Z.pow_add_r by lia; replace (bits + (5 - bits)) with 5 by lia; reflexivity).
    pose proof (Z.mod_pos_bound W (2^bits) P1) as PM.
    assert (Hd : value_ok d) by (unfold value_ok, d; nia).
    assert (LG : len (hs ++ [d]) = k + 1) by (rewrite len_app, len_cons, len_nil; lia).
    split.
    + split; [apply Forall_app; split; [auto|constructor; auto]|]. fold n W. rewrite LG. split; [clear - E NZ; dlia|].
      rewrite be_val_snoc, L3. replace (5 * (k + 1) - 8 * n) with (5 - bits) by lia. unfold d. pose proof (Z.div_mod W (2^bits) ltac:(lia)). rewrite <- P3. nia.
    + rewrite LG. rewrite <- app_assoc. cbn [app]. do 4 f_equal. f_equal.
      change rest with (skipn 1 (x :: rest)). rewrite <- ER, skipn_twice. f_equal. unfold len in *. lia.
Qed.
Lemma in_groups_unique : forall prog a b, in_groups prog a -> in_groups prog b -> a = b.
Proof. intros prog a b (A1 & A2 & A3) (B1 & B2 & B3). apply (be_val_inj 32); auto; try lia. unfold len in *; lia. rewrite A3, B3, A2, B2. reflexivity. Qed.
Lemma in_groups_len : forall prog gs, in_groups prog gs -> len gs = (8 * len prog + 4) / 5. Proof. intros prog gs (_ & H & _). auto. Qed.

(** And back: the loop, on any values. *)
Lemma ungroup : forall gs buf, Forall value_ok gs -> 
  (5 * len gs / 8 <= len buf -> exists r prog, len prog = 5 * len gs / 8 /\ convert_bits buf 8 gs 5 false = Ok (r, prog ++ skipn (length prog) buf, len prog) /\
     ((r = 1 /\ bytes_ok prog /\ in_groups prog gs) \/ (r = 0 /\ forall prog', bytes_ok prog' -> ~ in_groups prog' gs))) /\
  (len buf < 5 * len gs / 8 -> convert_bits buf 8 gs 5 false = UB).
Proof.
  intros gs buf Hg. pose proof (len_nonneg _ gs) as LG.
  destruct (convert_bits_spec 5 8 ltac:(lia) ltac:(lia) gs buf false) as [A B]; [apply values_digits; auto|]. split; [|exact B]. intros L.
  set (m := len gs) in *. set (W := be_val (2^5) gs) in *. set (bits := (5 * m) mod 8) in *. set (k := 5 * m / 8) in *.
  assert (E : 5 * m = 8 * k + bits /\ 0 <= bits < 8 /\ 0 <= k).
  { pose proof (Z.div_mod (5 * m) 8 ltac:(lia)). pose proof (Z.mod_pos_bound (5*m) 8 ltac:(lia)). assert (0 <= k) by (apply Z.div_pos; lia). fold k bits in H, H0. lia. }
  clearbody k bits.
  destruct (A L) as (hs & L1 & L2 & L3 & L4). rewrite L4. change (2^5) with 32 in *. change (2^8) with 256 in *.
  assert (P1 : 0 < 2^bits) by (apply Z.pow_pos_nonneg; lia).
  assert (SK : Z.to_nat k = length hs) by (unfold len in L1; lia).
  destruct (Z.eqb_spec (W mod 2^bits) 0) as [Z0|NZ]; cbn [andb].
  - destruct (Z.ltb_spec bits 5) as [L5|L5].
    + exists 1, hs. rewrite SK, L1. split; [auto|]. split; [auto|]. left. split; [auto|]. split; [apply bytes_digits; auto|].
      split; [auto|]. fold m W. rewrite L1. split; [clear - E L5; dlia|]. rewrite L3. replace (5 * m - 8 * k) with bits by lia. pose proof (Z.div_mod W (2^bits) ltac:(lia)). lia.
    + exists 0, hs. rewrite SK, L1. split; [auto|]. split; [auto|]. right. split; [auto|]. intros prog' _ (_ & G2 & _). fold m in G2. pose proof (len_nonneg _ prog') as LN. clear - E G2 LN L5. dlia.
  - exists 0, hs. rewrite SK, L1. split; [auto|]. split; [auto|]. right. split; [auto|]. intros prog' _ (_ & G2 & G3). fold m W in G2, G3. pose proof (len_nonneg _ prog').
    assert (5 * m - 8 * len prog' = bits) by (clear - E G2 H; destruct (Z.ltb_spec bits 5); dlia). rewrite G3, H0 in NZ. apply NZ. apply Z.mod_mul. lia.
Qed.
Lemma ungroup_unique : forall a b gs, bytes_ok a -> bytes_ok b -> in_groups a gs -> in_groups b gs -> a = b.
Proof.
  intros a b gs Ha Hb (_ & A2 & A3) (_ & B2 & B3). assert (LL : len a = len b) by (pose proof (len_nonneg _ a); pose proof (len_nonneg _ b); dlia).
  apply (be_val_inj 256); try (apply bytes_digits; auto); try lia; [unfold len in *; lia|]. rewrite LL in A3. rewrite A3 in B3.
  apply Z.mul_cancel_r in B3; auto. apply Z.pow_nonzero; [lia|]. rewrite B2. pose proof (len_nonneg _ b). dlia.
Qed.

(** Decoding a symbol. *)
Definition symbol_value (ch : Z) : Z := if (ch <? 0) || (127 <? ch) then -1 else nth (Z.to_nat ch) charset_rev (-1).
Definition low1 (c : Z) : Z := if is_upper c then c + 32 else c.
Lemma symbol_value_spec : forall ch, (symbol_value ch = -1 \/ (value_ok (symbol_value ch) /\ symbol (symbol_value ch) = low1 ch)).
Proof.
  intros ch. unfold symbol_value. destruct (Z.ltb_spec ch 0); [left; reflexivity|]. destruct (Z.ltb_spec 127 ch); [left; reflexivity|]. cbn [orb].
  assert (S : forallb (fun ch => let v := nth (Z.to_nat ch) charset_rev (-1) in (v =? -1) || ((0 <=? v) && (v <? 32) && (symbol v =? low1 ch))) (zrange 128) = true) by (vm_compute; reflexivity).
  pose proof (zrange_sweep 128 _ S ch ltac:(lia)) as Q. cbv beta zeta in Q. apply orb_prop in Q as [Q|Q]; [left; apply Z.eqb_eq; auto|right].
  apply andb_prop in Q as [Q Q3]. apply andb_prop in Q as [Q1 Q2]. apply Z.leb_le in Q1. apply Z.ltb_lt in Q2. apply Z.eqb_eq in Q3. unfold value_ok. auto.
Qed.
Lemma symbol_value_of : forall v ch, value_ok v -> low1 ch = symbol v -> symbol_value ch = v.
Proof.
  intros v ch Hv E. unfold value_ok in Hv.
  assert (S : forallb (fun v => forallb (fun ch => negb (low1 ch =? symbol v) || ((symbol_value ch =? v) && (0 <=? ch) && (ch <? 128))) (zrange 128)) (zrange 32) = true) by (vm_compute; reflexivity).
  pose proof (zrange_sweep 32 _ S v ltac:(lia)) as Q. cbv beta in Q.
  assert (R : 0 <= ch < 128).
  { assert (S2 : forallb (fun v => (48 <=? symbol v) && (symbol v <? 123)) (zrange 32) = true) by (vm_compute; reflexivity).
    pose proof (zrange_sweep 32 _ S2 v ltac:(lia)) as Q2. cbv beta in Q2. apply andb_prop in Q2 as [Q2 Q3]. apply Z.leb_le in Q2. apply Z.ltb_lt in Q3.
    rewrite <- E in Q2, Q3. unfold low1, is_upper in *. destruct (Z.leb_spec 65 ch), (Z.leb_spec ch 90); cbn [andb] in *; lia. }
  pose proof (zrange_sweep 128 _ Q ch ltac:(lia)) as Q1. cbv beta in Q1. rewrite E, Z.eqb_refl in Q1. cbn [negb orb] in Q1.
  apply andb_prop in Q1 as [Q1 _]. apply andb_prop in Q1 as [Q1 _]. apply Z.eqb_eq; auto.
Qed.
Lemma symbol_range : forall v, value_ok v -> 48 <= symbol v <= 122 /\ symbol v <> 49 /\ is_upper (symbol v) = false.
Proof.
  intros v H. unfold value_ok in H. assert (S : forallb (fun v => (48 <=? symbol v) && (symbol v <=? 122) && negb (symbol v =? 49) && negb (is_upper (symbol v))) (zrange 32) = true) by (vm_compute; reflexivity).
  pose proof (zrange_sweep 32 _ S v ltac:(lia)) as Q. cbv beta in Q. apply andb_prop in Q as [Q Q4]. apply andb_prop in Q as [Q Q3]. apply andb_prop in Q as [Q1 Q2].
  apply Z.leb_le in Q1, Q2. apply negb_true_iff in Q3, Q4. apply Z.eqb_neq in Q3. auto.
Qed.
Lemma low1_nonsym : forall ch, is_upper (low1 ch) = false.
Proof. intros ch. unfold low1, is_upper. destruct (Z.leb_spec 65 ch), (Z.leb_spec ch 90); cbn [andb]; destruct (Z.leb_spec 65 ch), (Z.leb_spec ch 90); try lia; try reflexivity; apply andb_false_iff; rewrite ?Z.leb_gt; lia. Qed.

(** The decoder's two loops. *)
Definition all_printable (l : list Z) : bool := forallb printable l.
Definition low_high (pre : list Z) : list Z := map (fun c => Z.shiftr c 5) (to_lower pre).
Lemma dec_high_ok : forall pre rest hp buf c lo up, all_printable pre = true -> len pre <= len buf ->
  dec_high (length pre) (len hp) (pre ++ rest) (hp ++ buf) c lo up
  = Ok (Some (fold_left step (low_high pre) c, lo || existsb is_lower pre, up || existsb is_upper pre, hp ++ to_lower pre ++ skipn (length pre) buf)).
Proof.
  induction pre as [|ch pre IH]; intros rest hp buf c lo up HP HL.
  - cbn [length dec_high app existsb skipn to_lower map low_high fold_left]. rewrite !orb_false_r. reflexivity.
  - cbn [all_printable forallb] in HP. apply andb_prop in HP as [P1 P2]. rewrite len_cons in HL.
    destruct buf as [|x buf]; [rewrite len_nil in HL; pose proof (len_nonneg _ pre); lia|]. rewrite len_cons in HL.
    cbn [length dec_high app]. rewrite P1. cbn [negb]. rewrite aset_mid by auto. cbn [bind].
    replace (hp ++ (if upper ch then ch + 32 else ch) :: buf) with ((hp ++ [low1 ch]) ++ buf) by (rewrite <- app_assoc; reflexivity).
    replace (len hp + 1) with (len (hp ++ [low1 ch])) by (rewrite len_app, len_cons, len_nil; lia).
    rewrite IH by (auto; lia). cbn [existsb]. rewrite !orb_assoc, <- !app_assoc. reflexivity.
Qed.
Lemma dec_high_none : forall pre rest hp buf c lo up, all_printable pre = false -> len pre <= len buf ->
  dec_high (length pre) (len hp) (pre ++ rest) (hp ++ buf) c lo up = Ok None.
Proof.
  induction pre as [|ch pre IH]; intros rest hp buf c lo up HP HL; [discriminate|]. cbn [all_printable forallb] in HP. rewrite len_cons in HL.
  destruct buf as [|x buf]; [rewrite len_nil in HL; pose proof (len_nonneg _ pre); lia|]. rewrite len_cons in HL.
  cbn [length dec_high app]. destruct (printable ch); cbn [negb andb] in *; [|reflexivity]. rewrite aset_mid by auto. cbn [bind].
  replace (hp ++ (if upper ch then ch + 32 else ch) :: buf) with ((hp ++ [low1 ch]) ++ buf) by (rewrite <- app_assoc; reflexivity).
  replace (len hp + 1) with (len (hp ++ [low1 ch])) by (rewrite len_app, len_cons, len_nil; lia).
  apply IH; auto; lia.
Qed.
(** Too long a prefix runs over the buffer. *)
Lemma dec_high_over : forall pre rest hp buf c lo up n, all_printable pre = true -> len buf < len pre -> (length pre <= n)%nat ->
  dec_high n (len hp) (pre ++ rest) (hp ++ buf) c lo up = UB.
Proof.
  induction pre as [|ch pre IH]; intros rest hp buf c lo up n HP HL HN; [rewrite len_nil in HL; pose proof (len_nonneg _ buf); lia|].
  cbn [all_printable forallb] in HP. apply andb_prop in HP as [P1 P2]. rewrite len_cons in HL. destruct n as [|n]; [cbn [length] in HN; lia|]. cbn [length] in HN.
  cbn [dec_high app]. rewrite P1. cbn [negb]. destruct buf as [|x buf].
  - rewrite app_nil_r, aset_out by lia. reflexivity.
  - rewrite len_cons in HL. rewrite aset_mid by auto. cbn [bind].
    replace (hp ++ (if upper ch then ch + 32 else ch) :: buf) with ((hp ++ [low1 ch]) ++ buf) by (rewrite <- app_assoc; reflexivity).
    replace (len hp + 1) with (len (hp ++ [low1 ch])) by (rewrite len_app, len_cons, len_nil; lia).
    apply IH; auto; lia.
Qed.
Lemma dec_high_inv : forall pre rest hp buf c lo up r, dec_high (length pre) (len hp) (pre ++ rest) (hp ++ buf) c lo up = Ok (Some r) ->
  all_printable pre = true /\ len pre <= len buf.
Proof.
  intros pre rest hp buf c lo up r. revert hp buf c lo up. induction pre as [|ch pre IH]; intros hp buf c lo up H; [split; [reflexivity|]; rewrite len_nil; apply len_nonneg|].
  cbn [length dec_high app] in H. cbn [all_printable forallb]. destruct (printable ch); cbn [negb andb] in *; [|discriminate].
  destruct buf as [|x buf]; [rewrite app_nil_r, aset_out in H by lia; discriminate|]. rewrite aset_mid in H by auto. cbn [bind] in H.
  replace (hp ++ (if upper ch then ch + 32 else ch) :: buf) with ((hp ++ [low1 ch]) ++ buf) in H by (rewrite <- app_assoc; reflexivity).
  replace (len hp + 1) with (len (hp ++ [low1 ch])) in H by (rewrite len_app, len_cons, len_nil; lia).
  destruct (IH _ _ _ _ _ H). rewrite !len_cons. split; [auto|lia].
Qed.

Definition all_symbols (l : list Z) : bool := forallb (fun ch => negb (symbol_value ch =? -1)) l.
Lemma dec_data_ok : forall s dp buf c lo up, all_symbols s = true -> len s - 6 <= len buf ->
  dec_data (len dp) s (dp ++ buf) c lo up
  = Ok (Some (fold_left step (map symbol_value s) c, lo || existsb is_lower s, up || existsb is_upper s,
              dp ++ firstn (length s - 6) (map symbol_value s) ++ skipn (length s - 6) buf)).
Proof.
  induction s as [|ch s IH]; intros dp buf c lo up HS HL.
  - cbn [length Nat.sub firstn skipn existsb map dec_data fold_left app]. rewrite !orb_false_r. reflexivity.
  - cbn [all_symbols forallb] in HS. apply andb_prop in HS as [S1 S2]. apply negb_true_iff in S1. rewrite len_cons in HL.
    cbn [dec_data]. fold (symbol_value ch). rewrite S1. cbn [map fold_left existsb]. rewrite !orb_assoc. change (upper ch) with (is_upper ch). change (lower ch) with (is_lower ch).
    destruct (Z.leb_spec 6 (len s)) as [L|L].
    + destruct buf as [|x buf]; [rewrite len_nil in HL; lia|]. rewrite len_cons in HL. rewrite aset_mid by auto. cbn [bind].
      replace (dp ++ symbol_value ch :: buf) with ((dp ++ [symbol_value ch]) ++ buf) by (rewrite <- app_assoc; reflexivity).
      replace (len dp + 1) with (len (dp ++ [symbol_value ch])) by (rewrite len_app, len_cons, len_nil; lia).
      rewrite IH by (auto; lia). replace (length (ch :: s) - 6)%nat with (S (length s - 6)) by (cbn [length]; unfold len in L; lia).
      cbn [firstn skipn]. rewrite <- !app_assoc. reflexivity.
    + cbn [bind]. replace (length (ch :: s) - 6)%nat with O by (cbn [length]; unfold len in L; lia). cbn [firstn skipn app].
      (* nothing is stored any more *)
      assert (Q : forall s i c lo up, len s < 6 -> all_symbols s = true -> dec_data i s (dp ++ buf) c lo up
         = Ok (Some (fold_left step (map symbol_value s) c, lo || existsb is_lower s, up || existsb is_upper s, dp ++ buf))).
      { clear. induction s as [|ch s IH]; intros i c lo up L S; [cbn [dec_data map fold_left existsb]; rewrite !orb_false_r; reflexivity|].
        cbn [all_symbols forallb] in S. apply andb_prop in S as [S1 S2]. apply negb_true_iff in S1. rewrite len_cons in L.
        cbn [dec_data]. fold (symbol_value ch). rewrite S1. replace (6 <=? len s) with false by (symmetry; apply Z.leb_gt; lia). cbn [bind].
        rewrite IH by (auto; lia). cbn [map fold_left existsb]. rewrite !orb_assoc. reflexivity. }
      rewrite Q by auto. reflexivity.
Qed.
Lemma dec_data_none : forall s dp buf c lo up, all_symbols s = false -> len s - 6 <= len buf -> dec_data (len dp) s (dp ++ buf) c lo up = Ok None.
Proof.
  induction s as [|ch s IH]; intros dp buf c lo up HS HL; [discriminate|]. cbn [all_symbols forallb] in HS. rewrite len_cons in HL.
  cbn [dec_data]. fold (symbol_value ch). destruct (symbol_value ch =? -1); [reflexivity|]. cbn [negb andb] in HS.
  destruct (Z.leb_spec 6 (len s)) as [L|L].
  + destruct buf as [|x buf]; [rewrite len_nil in HL; lia|]. rewrite len_cons in HL. rewrite aset_mid by auto. cbn [bind].
    replace (dp ++ symbol_value ch :: buf) with ((dp ++ [symbol_value ch]) ++ buf) by (rewrite <- app_assoc; reflexivity).
    replace (len dp + 1) with (len (dp ++ [symbol_value ch])) by (rewrite len_app, len_cons, len_nil; lia).
    apply IH; auto; lia.
  + cbn [bind]. assert (Q : forall s i c lo up, len s < 6 -> all_symbols s = false -> dec_data i s (dp ++ buf) c lo up = Ok None).
    { clear. induction s as [|ch s IH]; intros i c lo up L S; [discriminate|]. cbn [all_symbols forallb] in S. rewrite len_cons in L.
      cbn [dec_data]. fold (symbol_value ch). destruct (symbol_value ch =? -1); [reflexivity|]. cbn [negb andb] in S.
      replace (6 <=? len s) with false by (symmetry; apply Z.leb_gt; lia). cbn [bind]. apply IH; auto; lia. }
    apply Q; auto.
Qed.
Lemma dec_data_over : forall s dp buf c lo up, all_symbols s = true -> len buf < len s - 6 -> dec_data (len dp) s (dp ++ buf) c lo up = UB.
Proof.
  induction s as [|ch s IH]; intros dp buf c lo up HS HL; [rewrite len_nil in HL; pose proof (len_nonneg _ buf); lia|].
  cbn [all_symbols forallb] in HS. apply andb_prop in HS as [S1 S2]. apply negb_true_iff in S1. rewrite len_cons in HL.
  cbn [dec_data]. fold (symbol_value ch). rewrite S1. pose proof (len_nonneg _ buf).
  replace (6 <=? len s) with true by (symmetry; apply Z.leb_le; lia). destruct buf as [|x buf].
  - rewrite app_nil_r, aset_out by lia. reflexivity.
  - rewrite len_cons in HL. rewrite aset_mid by auto. cbn [bind].
    replace (dp ++ symbol_value ch :: buf) with ((dp ++ [symbol_value ch]) ++ buf) by (rewrite <- app_assoc; reflexivity).
    replace (len dp + 1) with (len (dp ++ [symbol_value ch])) by (rewrite len_app, len_cons, len_nil; lia).
    apply IH; auto; lia.
Qed.
Lemma dec_data_inv : forall s dp buf c lo up r, dec_data (len dp) s (dp ++ buf) c lo up = Ok (Some r) -> all_symbols s = true /\ len s - 6 <= len buf.
Proof.
  intros s dp buf c lo up r. revert dp buf c lo up. induction s as [|ch s IH]; intros dp buf c lo up H; [split; [reflexivity|]; rewrite len_nil; pose proof (len_nonneg _ buf); lia|].
  cbn [dec_data] in H. fold (symbol_value ch) in H. cbn [all_symbols forallb]. destruct (symbol_value ch =? -1); [discriminate|]. cbn [negb andb].
  rewrite len_cons. destruct (Z.leb_spec 6 (len s)) as [L|L].
  - destruct buf as [|x buf]; [rewrite app_nil_r, aset_out in H by lia; discriminate|]. rewrite aset_mid in H by auto. cbn [bind] in H.
    replace (dp ++ symbol_value ch :: buf) with ((dp ++ [symbol_value ch]) ++ buf) in H by (rewrite <- app_assoc; reflexivity).
    replace (len dp + 1) with (len (dp ++ [symbol_value ch])) in H by (rewrite len_app, len_cons, len_nil; lia).
    destruct (IH _ _ _ _ _ H). rewrite len_cons. split; [auto|lia].
  - cbn [bind] in H. pose proof (len_nonneg _ buf). split; [|lia].
    clear IH L H0. revert H. generalize (len dp + 1), (Z.lxor (polymod_step c) (symbol_value ch)), (lo || lower ch), (up || upper ch). generalize (dp ++ buf). clear.
    induction s as [|h s IH]; intros d i k a b H; [reflexivity|]. cbn [dec_data] in H. fold (symbol_value h) in H. cbn [forallb].
    destruct (symbol_value h =? -1); [discriminate|]. cbn [negb andb]. destruct (6 <=? len s).
    + destruct (aset d i (symbol_value h)) as [d'|]; cbn [bind] in H; [|discriminate]. eapply IH; eauto.
    + cbn [bind] in H. eapply IH; eauto.
Qed.

(** The separator is the last '1'. *)
Lemma split_last : forall l, (~ In 49 l) \/ exists pre suf, l = pre ++ 49 :: suf /\ ~ In 49 suf.
Proof.
  induction l as [|x l IH]; [left; intros []|]. destruct IH as [IH|(pre & suf & -> & N)].
  - destruct (Z.eq_dec x 49) as [->|NE]; [right; exists [], l; auto|left; intros [|]; auto].
  - right. exists (x :: pre), suf. auto.
Qed.
Lemma not_one : forall suf, ~ In 49 suf -> forallb (fun c => negb (c =? 49)) (rev suf) = true.
Proof.
  intros suf N. apply forallb_forall. intros x I. apply in_rev in I. destruct (Z.eqb_spec x 49) as [->|]; [contradiction|reflexivity].
Qed.
Lemma data_part_split : forall pre suf, ~ In 49 suf -> data_part (pre ++ 49 :: suf) = len suf.
Proof.
  intros pre suf N. unfold data_part. rewrite rev_app_distr. cbn [rev]. rewrite <- app_assoc, count_while_app_all by (apply not_one; auto).
  cbn [count_while app]. change (49 =? 49) with true. cbn [negb]. rewrite Nat.add_0_r, rev_length. reflexivity.
Qed.
Lemma data_part_none : forall l, ~ In 49 l -> data_part l = len l.
Proof.
  intros l N. unfold data_part. rewrite <- (app_nil_r (rev l)), count_while_app_all by (apply not_one; auto).
  cbn [count_while]. rewrite Nat.add_0_r, rev_length. reflexivity.
Qed.
Lemma enc_low_lower : forall pre c, enc_low c pre = fold_left step (map (fun c => Z.land c 31) (to_lower pre)) c.
Proof.
  intros pre c. unfold to_lower. rewrite map_map, fold_map. unfold enc_low. revert c. induction pre as [|x pre IH]; intros c; [reflexivity|]. cbn [fold_left]. rewrite IH. f_equal. f_equal.
  destruct (is_upper x) eqn:U; auto. change 31 with (Z.ones 5). rewrite !Z.land_ones by lia. change (x + 32) with (x + 1 * 2^5). rewrite Z.mod_add by lia. reflexivity.
Qed.
Lemma existsb_mid : forall f pre suf, f 49 = false -> existsb f (pre ++ 49 :: suf) = existsb f pre || existsb f suf.
Proof. intros f pre suf H. rewrite existsb_app. cbn [existsb]. rewrite H. reflexivity. Qed.

(** A well-formed string: its prefix and data characters. *)
Definition well_formed (pre suf : list Z) : bool :=
  (1 <=? len pre) && all_printable pre && (6 <=? len suf) && all_symbols suf && negb (mixed_case (pre ++ 49 :: suf)).
Definition sum_of (pre suf : list Z) : Z := fold_left step (map symbol_value suf) (hrp_sum (to_lower pre)).

Lemma decode_fits : forall hb db pre suf, ~ In 49 suf -> len pre < len hb -> len suf - 6 <= len db -> len pre + len suf < 1000 ->
  if well_formed pre suf && (sum_of pre suf =? 1) then
    bech32_decode hb db (pre ++ 49 :: suf)
    = Ok (1, to_lower pre ++ 0 :: skipn (length pre + 1) hb, firstn (length suf - 6) (map symbol_value suf) ++ skipn (length suf - 6) db, len suf - 6)
  else exists h d l, bech32_decode hb db (pre ++ 49 :: suf) = Ok (0, h, d, l).
Proof.
  intros hb db pre suf N Lh Ld Ln. unfold bech32_decode. cbv zeta. rewrite data_part_split by auto. rewrite len_app, len_cons.
  pose proof (len_nonneg _ pre) as Lp. pose proof (len_nonneg _ suf) as Ls. unfold MAX_BECH32_SIZE.
  replace (len pre + (1 + len suf) - (1 + len suf)) with (len pre) by lia. rewrite u64_id by lia.
  unfold well_formed.
  replace (len pre + (1 + len suf) >? 1000) with false by (symmetry; rewrite Z.gtb_ltb; apply Z.ltb_ge; lia).
  destruct (Z.ltb_spec (len pre + (1 + len suf)) 8) as [L8|L8].
  { cbn [orb]. replace ((1 <=? len pre) && all_printable pre && (6 <=? len suf)) with false; [cbn [andb]; eauto|].
    destruct (Z.leb_spec 1 (len pre)), (Z.leb_spec 6 (len suf)); try lia; cbn [andb]; rewrite ?andb_false_r; reflexivity. }
  cbn [orb]. destruct (Z.ltb_spec (len pre) 1) as [L1|L1].
  { cbn [orb]. replace (1 <=? len pre) with false by (symmetry; apply Z.leb_gt; lia). cbn [andb]. eauto. }
  replace (1 <=? len pre) with true by (symmetry; apply Z.leb_le; lia). destruct (Z.ltb_spec (len suf) 6) as [L6|L6].
  { cbn [orb]. replace (6 <=? len suf) with false by (symmetry; apply Z.leb_gt; lia). cbn [andb]. rewrite !andb_false_r. cbn [andb]. eauto. }
  replace (6 <=? len suf) with true by (symmetry; apply Z.leb_le; lia). cbn [orb andb]. rewrite andb_true_r.
  replace (Z.to_nat (Z.min (len pre) (len pre + (1 + len suf) + 1))) with (length pre) by (rewrite Z.min_l by lia; unfold len; lia).
  rewrite <- app_assoc. change (49 :: suf) with ([49] ++ suf). rewrite <- (app_assoc [49]).
  destruct (all_printable pre) eqn:AP.
  2:{ pose proof (dec_high_none pre ([49] ++ suf ++ [0]) [] hb 1 false false AP ltac:(lia)) as D. cbn [app] in D. change (len (@nil Z)) with 0 in D. cbn [app]. rewrite D. cbn [bind andb]. eauto. }
  pose proof (dec_high_ok pre ([49] ++ suf ++ [0]) [] hb 1 false false AP ltac:(lia)) as D. cbn [app] in D. change (len (@nil Z)) with 0 in D. cbn [app]. rewrite D. clear D. cbn [bind orb].
  destruct (skipn (length pre) hb) as [|x hrest] eqn:EH.
  { exfalso. assert (Q : length (skipn (length pre) hb) = O) by (rewrite EH; reflexivity). rewrite skipn_length in Q. unfold len in *; lia. }
  assert (HR : hrest = skipn (length pre + 1) hb) by (change hrest with (skipn 1 (x :: hrest)); rewrite <- EH, skipn_twice; reflexivity).
  rewrite aset_mid by (unfold to_lower; rewrite len_map; reflexivity). cbn [bind].
  replace (Z.to_nat (len pre)) with (length pre) by (unfold len; lia). rewrite firstn_app_len by auto.
  replace (skipn (S (length pre)) (pre ++ 49 :: suf)) with suf.
  2:{ replace (pre ++ 49 :: suf) with ((pre ++ [49]) ++ suf) by (rewrite <- app_assoc; reflexivity). rewrite skipn_app_len; auto. rewrite app_length. cbn [length]. lia. }
  rewrite enc_low_lower.
  assert (CS : fold_left step (map (fun c => Z.land c 31) (to_lower pre)) (polymod_step (fold_left step (low_high pre) 1)) = hrp_sum (to_lower pre)).
  { unfold hrp_sum. rewrite expand_fold. unfold enc_low. rewrite <- fold_map. reflexivity. }
  rewrite CS. destruct (all_symbols suf) eqn:AS.
  2:{ pose proof (dec_data_none suf [] db (hrp_sum (to_lower pre)) (existsb is_lower pre) (existsb is_upper pre) AS ltac:(lia)) as D. cbn [app] in D. change (len (@nil Z)) with 0 in D.
      rewrite D. cbn [bind andb]. eauto. }
  pose proof (dec_data_ok suf [] db (hrp_sum (to_lower pre)) (existsb is_lower pre) (existsb is_upper pre) AS ltac:(lia)) as D. cbn [app] in D. change (len (@nil Z)) with 0 in D.
  rewrite D. cbn [bind andb]. clear D. unfold mixed_case. rewrite !existsb_mid by reflexivity. fold (sum_of pre suf).
  rewrite (andb_comm (existsb is_lower pre || existsb is_lower suf)).
  destruct ((existsb is_upper pre || existsb is_upper suf) && (existsb is_lower pre || existsb is_lower suf)); cbn [negb andb]; [eauto|].
  destruct (sum_of pre suf =? 1); [|eauto]. rewrite HR. reflexivity.
Qed.
(** Without a '1', nothing is accepted; a long one overruns the prefix buffer. *)
Lemma decode_no_one : forall hb db s, ~ In 49 s -> len s <= len hb -> exists h d l, bech32_decode hb db s = Ok (0, h, d, l).
Proof.
  intros hb db s N L. unfold bech32_decode. cbv zeta. rewrite data_part_none by auto. unfold MAX_BECH32_SIZE. pose proof (len_nonneg _ s).
  destruct (Z.ltb_spec (len s) 8); [cbn [orb]; eauto|]. rewrite Z.gtb_ltb. destruct (Z.ltb_spec 1000 (len s)); [cbn [orb]; eauto|]. cbn [orb].
  replace (len s - (1 + len s)) with (-1) by lia. change (u64 (-1)) with 18446744073709551615. change (18446744073709551615 <? 1) with false. cbn [orb].
  replace (len s <? 6) with false by (symmetry; apply Z.ltb_ge; lia).
  replace (Z.to_nat (Z.min 18446744073709551615 (len s + 1))) with (length (s ++ [0])) by (rewrite Z.min_r by lia; rewrite app_length; unfold len; cbn [length]; lia).
  destruct (Z.eq_dec (len s) (len hb)) as [E|E].
  - (* the NUL is refused before it is stored *)
    assert (Q : forall pre buf hp c lo up, len pre <= len buf -> dec_high (length (pre ++ [0])) (len hp) (pre ++ [0]) (hp ++ buf) c lo up = Ok None).
    { clear. induction pre as [|ch pre IH]; intros buf hp c lo up H; [reflexivity|]. rewrite len_cons in H.
      destruct buf as [|x buf]; [rewrite len_nil in H; pose proof (len_nonneg _ pre); lia|]. rewrite len_cons in H. cbn [app length dec_high].
      destruct (printable ch); cbn [negb]; [|reflexivity]. rewrite aset_mid by auto. cbn [bind].
      replace (hp ++ (if upper ch then ch + 32 else ch) :: buf) with ((hp ++ [low1 ch]) ++ buf) by (rewrite <- app_assoc; reflexivity).
      replace (len hp + 1) with (len (hp ++ [low1 ch])) by (rewrite len_app, len_cons, len_nil; lia). apply IH; lia. }
    pose proof (Q s hb [] 1 false false ltac:(lia)) as D. cbn [app] in D. change (len (@nil Z)) with 0 in D. rewrite D. cbn [bind]. eauto.
  - pose proof (dec_high_none (s ++ [0]) [] [] hb 1 false false) as D. cbn [app] in D. change (len (@nil Z)) with 0 in D. rewrite app_nil_r in D. rewrite D; [cbn [bind]; eauto| |].
    + unfold all_printable. rewrite forallb_app. cbn [forallb]. change (printable 0) with false. rewrite andb_false_r. reflexivity.
    + rewrite len_app, len_cons, len_nil. lia.
Qed.
Lemma decode_no_one_over : forall hb db s, ~ In 49 s -> all_printable s = true -> len hb < len s -> 8 <= len s <= 1000 -> bech32_decode hb db s = UB.
Proof.
  intros hb db s N AP L L8. unfold bech32_decode. cbv zeta. rewrite data_part_none by auto. unfold MAX_BECH32_SIZE. pose proof (len_nonneg _ s).
  replace (len s <? 8) with false by (symmetry; apply Z.ltb_ge; lia). rewrite Z.gtb_ltb. replace (1000 <? len s) with false by (symmetry; apply Z.ltb_ge; lia). cbn [orb].
  replace (len s - (1 + len s)) with (-1) by lia. change (u64 (-1)) with 18446744073709551615. change (18446744073709551615 <? 1) with false. cbn [orb].
  replace (len s <? 6) with false by (symmetry; apply Z.ltb_ge; lia).
  pose proof (dec_high_over s [0] [] hb 1 false false (Z.to_nat (Z.min 18446744073709551615 (len s + 1))) AP L) as D. cbn [app] in D. change (len (@nil Z)) with 0 in D.
  rewrite D; [reflexivity|]. rewrite Z.min_r by lia. unfold len. lia.
Qed.
Lemma decode_data_over : forall hb db pre suf, ~ In 49 suf -> 1 <= len pre < len hb -> all_printable pre = true -> all_symbols suf = true ->
  len db < len suf - 6 -> len pre + len suf < 1000 -> bech32_decode hb db (pre ++ 49 :: suf) = UB.
Proof.
  intros hb db pre suf N Lh AP AS Ld Ln. unfold bech32_decode. cbv zeta. rewrite data_part_split by auto. rewrite len_app, len_cons.
  pose proof (len_nonneg _ db) as Lp. unfold MAX_BECH32_SIZE.
  replace (len pre + (1 + len suf) - (1 + len suf)) with (len pre) by lia. rewrite u64_id by lia.
  replace (len pre + (1 + len suf) >? 1000) with false by (symmetry; rewrite Z.gtb_ltb; apply Z.ltb_ge; lia).
  replace (len pre + (1 + len suf) <? 8) with false by (symmetry; apply Z.ltb_ge; lia). replace (len pre <? 1) with false by (symmetry; apply Z.ltb_ge; lia).
  replace (len suf <? 6) with false by (symmetry; apply Z.ltb_ge; lia). cbn [orb].
  replace (Z.to_nat (Z.min (len pre) (len pre + (1 + len suf) + 1))) with (length pre) by (rewrite Z.min_l by lia; unfold len; lia).
  rewrite <- app_assoc. change (49 :: suf) with ([49] ++ suf). rewrite <- (app_assoc [49]).
  pose proof (dec_high_ok pre ([49] ++ suf ++ [0]) [] hb 1 false false AP ltac:(lia)) as D. cbn [app] in D. change (len (@nil Z)) with 0 in D. cbn [app]. rewrite D. clear D. cbn [bind orb].
  destruct (skipn (length pre) hb) as [|x hrest] eqn:EH.
  { exfalso. assert (Q : length (skipn (length pre) hb) = O) by (rewrite EH; reflexivity). rewrite skipn_length in Q. unfold len in *; lia. }
  rewrite aset_mid by (unfold to_lower; rewrite len_map; reflexivity). cbn [bind].
  replace (Z.to_nat (len pre)) with (length pre) by (unfold len; lia). 
  replace (skipn (S (length pre)) (pre ++ 49 :: suf)) with suf.
  2:{ replace (pre ++ 49 :: suf) with ((pre ++ [49]) ++ suf) by (rewrite <- app_assoc; reflexivity). rewrite skipn_app_len; auto. rewrite app_length. cbn [length]. lia. }
  match goal with |- context [dec_data 0 suf db ?c ?lo ?up] => pose proof (dec_data_over suf [] db c lo up AS Ld) as D end. cbn [app] in D. change (len (@nil Z)) with 0 in D.
  rewrite D. reflexivity.
Qed.
(** What an accepted string looks like. *)
Lemma decode_inv : forall hb db s h d l, bech32_decode hb db s = Ok (1, h, d, l) ->
  exists pre suf, s = pre ++ 49 :: suf /\ ~ In 49 suf /\ len pre < len hb /\ len suf - 6 <= len db /\ len pre + len suf < 1000 /\
    well_formed pre suf = true /\ sum_of pre suf = 1.
Proof.
  intros hb db s h d l H. destruct (split_last s) as [N|(pre & suf & -> & N)].
  - exfalso. destruct (Z.le_gt_cases (len s) (len hb)) as [L|L].
    + destruct (decode_no_one hb db s N L) as (? & ? & ? & E). congruence.
    + unfold bech32_decode in H. cbv zeta in H. destruct ((len s <? 8) || _) eqn:E8; [discriminate|]. apply orb_false_elim in E8 as [E8 E1]. apply Z.ltb_ge in E8.
      rewrite Z.gtb_ltb in E1. apply Z.ltb_ge in E1. unfold MAX_BECH32_SIZE in E1. rewrite data_part_none in H by auto.
      replace (len s - (1 + len s)) with (-1) in H by lia. change (u64 (-1)) with 18446744073709551615 in H. change (18446744073709551615 <? 1) with false in H. cbn [orb] in H.
      replace (len s <? 6) with false in H by (symmetry; apply Z.ltb_ge; lia).
      replace (Z.to_nat (Z.min 18446744073709551615 (len s + 1))) with (length (s ++ [0])) in H by (rewrite Z.min_r by lia; rewrite app_length; unfold len; cbn [length]; lia).
      destruct (dec_high _ _ _ _ _ _ _) as [[r|]|] eqn:D; cbn [bind] in H; try discriminate.
      pose proof (dec_high_inv (s ++ [0]) [] [] hb 1 false false r) as I. cbn [app] in I. change (len (@nil Z)) with 0 in I. rewrite app_nil_r in I. destruct (I D) as [P _].
      unfold all_printable in P. rewrite forallb_app in P. cbn [forallb] in P. change (printable 0) with false in P. rewrite andb_false_r in P. discriminate.
  - exists pre, suf. split; [auto|]. split; [auto|].
    assert (SZ : len pre < len hb /\ len suf - 6 <= len db /\ len pre + len suf < 1000).
    { unfold bech32_decode in H. cbv zeta in H. destruct ((len _ <? 8) || _) eqn:E8; [discriminate|]. apply orb_false_elim in E8 as [E8 E1]. apply Z.ltb_ge in E8.
      rewrite Z.gtb_ltb in E1. apply Z.ltb_ge in E1. unfold MAX_BECH32_SIZE in E1. rewrite data_part_split in H by auto. rewrite len_app, len_cons in *.
      pose proof (len_nonneg _ pre). pose proof (len_nonneg _ suf).
      replace (len pre + (1 + len suf) - (1 + len suf)) with (len pre) in H by lia. rewrite u64_id in H by lia.
      destruct ((len pre <? 1) || _) eqn:E6; [discriminate|]. apply orb_false_elim in E6 as [E6 E5]. apply Z.ltb_ge in E6, E5.
      replace (Z.to_nat (Z.min (len pre) (len pre + (1 + len suf) + 1))) with (length pre) in H by (rewrite Z.min_l by lia; unfold len; lia).
      rewrite <- app_assoc in H. change (49 :: suf) with ([49] ++ suf) in H. rewrite <- (app_assoc [49]) in H.
      destruct (dec_high _ _ _ _ _ _ _) as [[r|]|] eqn:D; cbn [bind] in H; try discriminate.
      pose proof (dec_high_inv pre ([49] ++ suf ++ [0]) [] hb 1 false false r) as I. change (len (@nil Z)) with 0 in I. cbn [app] in I, D. destruct (I D) as [AP LL].
      destruct r as [[[c1 lo1] up1] h1]. destruct (aset h1 (len pre) 0) as [h2|] eqn:EA; cbn [bind] in H; [|discriminate].
      pose proof (dec_high_ok pre (49 :: suf ++ [0]) [] hb 1 false false AP LL) as D'. change (len (@nil Z)) with 0 in D'. cbn [app] in D'. rewrite D in D'. injection D' as _ _ _ Eh.
      assert (len pre < len hb).
      { unfold aset in EA. destruct ((0 <=? len pre) && (len pre <? len h1)) eqn:EB; [|discriminate]. apply andb_prop in EB as [_ EB]. apply Z.ltb_lt in EB.
        rewrite Eh, len_app in EB. unfold to_lower in EB. rewrite len_map in EB. unfold len in *. rewrite skipn_length in EB. lia. }
      split; [auto|]. split; [|lia]. replace (Z.to_nat (len pre)) with (length pre) in H by (unfold len; lia).
      replace (skipn (S (length pre)) (pre ++ [49] ++ suf)) with suf in H.
      2:{ rewrite app_assoc. rewrite skipn_app_len; auto. rewrite app_length. cbn [length]. lia. }
      destruct (dec_data _ _ _ _ _ _) as [[r2|]|] eqn:D2; cbn [bind] in H; try discriminate.
      match type of D2 with dec_data 0 suf db ?c ?lo ?up = _ => pose proof (dec_data_inv suf [] db c lo up r2) as I2 end. change (len (@nil Z)) with 0 in I2. cbn [app] in I2.
      destruct (I2 D2). auto. }
    destruct SZ as (S1 & S2 & S3). split; [auto|]. split; [auto|]. split; [auto|].
    pose proof (decode_fits hb db pre suf N S1 S2 S3) as F. destruct (well_formed pre suf && (sum_of pre suf =? 1)) eqn:E.
    + apply andb_prop in E as [E1 E2]. apply Z.eqb_eq in E2. auto.
    + destruct F as (? & ? & ? & F). congruence.
Qed.
