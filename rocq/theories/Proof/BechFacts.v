(** Regrouping of bits, encoding and decoding of bech32 strings. *)
From Coq Require Import Lia.
From Verif Require Import Base.Bytes Base.BytesFacts Spec.Codecs Model.Bech32 Spec.Bech32 Proof.BechCode Proof.BechErr.
Open Scope Z_scope.

Lemma skipn_twice : forall A n m (l : list A), skipn n (skipn m l) = skipn (m + n) l.
Proof. induction m as [|m IH]; intros l; [reflexivity|]. destruct l as [|x l]; [rewrite !skipn_nil; reflexivity|]. cbn [skipn Nat.add]. apply IH. Qed.

(** Writing to a buffer. *)
Lemma aset_mid : forall a x b v i, i = len a -> aset (a ++ x :: b) i v = Ok (a ++ v :: b).
Proof.
  intros a x b v i ->. unfold aset. rewrite len_app, len_cons. pose proof (len_nonneg _ a). pose proof (len_nonneg _ b).
  replace ((0 <=? len a) && (len a <? len a + (1 + len b))) with true by (symmetry; apply andb_true_intro; split; [apply Z.leb_le|apply Z.ltb_lt]; lia).
  f_equal. unfold len. rewrite Nat2Z.id. apply set_nth_app_mid.
Qed.
Lemma aset_out : forall l i v, len l <= i -> aset l i v = UB.
Proof. intros l i v H. unfold aset. replace (i <? len l) with false by (symmetry; apply Z.ltb_ge; lia). rewrite andb_false_r. reflexivity. Qed.
Lemma put_chars_ok : forall l pre buf i, i = len pre -> len l <= len buf ->
  put_chars (pre ++ buf) i l = Ok (pre ++ l ++ skipn (length l) buf).
Proof.
  induction l as [|c l IH]; intros pre buf i Hi HL; [reflexivity|]. rewrite len_cons in HL.
  destruct buf as [|x buf]; [rewrite len_nil in HL; pose proof (len_nonneg _ l); lia|]. rewrite len_cons in HL. cbn [put_chars].
  rewrite aset_mid by auto. cbn [bind]. replace (pre ++ c :: buf) with ((pre ++ [c]) ++ buf) by (rewrite <- app_assoc; reflexivity).
  rewrite IH; [|rewrite len_app, len_cons, len_nil; lia|lia]. rewrite <- app_assoc. reflexivity.
Qed.

(** Regrouping: [V] is the exact number read so far. *)
Section Conv.
  Variables inbits outbits : Z.
  Hypothesis Hin : 1 <= inbits <= 8.
  Hypothesis Hout : 1 <= outbits <= 8.

  Lemma maxv_ones : Z.shiftl 1 outbits - 1 = Z.ones outbits.
  Proof. rewrite Z.ones_equiv, Z.shiftl_mul_pow2 by lia. lia. Qed.

  Lemma emit_ok : forall fuel V bits gs buf outlen,
    0 <= V -> 0 <= bits <= 16 -> bits < Z.of_nat fuel + outbits -> outlen = len gs -> digits_ok (2^outbits) gs ->
    be_val (2^outbits) gs = V / 2^bits ->
    let k := bits / outbits in
    (k <= len buf -> exists hs, len hs = k /\ digits_ok (2^outbits) (gs ++ hs) /\ be_val (2^outbits) (gs ++ hs) = V / 2^(bits mod outbits) /\
       emit fuel (V mod 2^32) bits outbits (Z.shiftl 1 outbits - 1) (gs ++ buf) outlen
       = Ok (bits mod outbits, gs ++ hs ++ skipn (Z.to_nat k) buf, outlen + k)) /\
    (len buf < k -> emit fuel (V mod 2^32) bits outbits (Z.shiftl 1 outbits - 1) (gs ++ buf) outlen = UB).
  Proof.
    induction fuel as [|fuel IH]; intros V bits gs buf outlen HV Hb HF Ho Hg HE k.
    - assert (bits < outbits) by lia. assert (k = 0) by (apply Z.div_small; lia). split; [intros _|pose proof (len_nonneg _ buf); lia].
      exists []. rewrite H0. change (Z.to_nat 0) with O. rewrite app_nil_r. cbn [emit skipn]. replace (outbits <=? bits) with false by (symmetry; apply Z.leb_gt; lia).
      rewrite Z.mod_small by lia. rewrite len_nil, Z.add_0_r, app_nil_l. auto.
    - cbn [emit]. destruct (Z.leb_spec outbits bits) as [L|L].
      + assert (K : k = 1 + (bits - outbits) / outbits).
        { unfold k. replace bits with ((bits - outbits) + 1 * outbits) at 1 by lia. rewrite Z.div_add by lia. lia. }
        assert (K0 : 0 <= (bits - outbits) / outbits) by (apply Z.div_pos; lia).
        assert (D : Z.land (Z.shiftr (V mod 2^32) (bits - outbits)) (Z.shiftl 1 outbits - 1) = (V / 2^(bits - outbits)) mod 2^outbits).
        { rewrite maxv_ones, Z.land_ones, Z.shiftr_div_pow2 by lia. replace (2^32) with (2^(bits - outbits) * 2^(32 - (bits - outbits))) by (rewrite <- Z.pow_add_r by lia; f_equal; lia).
          assert (0 < 2^(bits-outbits)) by (apply Z.pow_pos_nonneg; lia). assert (0 < 2^(32 - (bits-outbits))) by (apply Z.pow_pos_nonneg; lia).
          rewrite Z.rem_mul_r by lia. rewrite (Z.add_comm (V mod _)), (Z.mul_comm (2^(bits-outbits))), Z.div_add_l by lia.
          rewrite (Z.div_small (V mod _)) by (apply Z.mod_pos_bound; lia). rewrite Z.add_0_r.
          replace (2^(32 - (bits - outbits))) with (2^outbits * 2^(32 - (bits - outbits) - outbits)) by (rewrite <- Z.pow_add_r by lia; f_equal; lia).
          assert (0 < 2^outbits) by (apply Z.pow_pos_nonneg; lia). assert (0 < 2^(32 - (bits-outbits) - outbits)) by (apply Z.pow_pos_nonneg; lia).
          rewrite Z.rem_mul_r by lia. rewrite (Z.mul_comm (2^outbits)), Z.mod_add by lia. apply Z.mod_mod. lia. }
        set (d := Z.land _ _) in *.
        assert (P : 0 < 2^outbits) by (apply Z.pow_pos_nonneg; lia).
        assert (Hg' : digits_ok (2^outbits) (gs ++ [d])).
        { apply Forall_app. split; auto. constructor; [rewrite D; apply Z.mod_pos_bound; auto|constructor]. }
        assert (HE' : be_val (2^outbits) (gs ++ [d]) = V / 2^(bits - outbits)).
        { rewrite be_val_snoc, HE, D. replace (2^bits) with (2^(bits - outbits) * 2^outbits) by (rewrite <- Z.pow_add_r by lia; f_equal; lia).
          rewrite <- Z.div_div by (try lia; apply Z.pow_nonzero; lia). rewrite Z.mul_comm. symmetry. apply Z.div_mod. lia. }
        destruct buf as [|x buf].
        { split; [intros Q; rewrite len_nil in Q; lia|]. intros _. rewrite app_nil_r, aset_out by lia. reflexivity. }
        rewrite aset_mid by auto. cbn [bind]. replace (gs ++ d :: buf) with ((gs ++ [d]) ++ buf) by (rewrite <- app_assoc; reflexivity).
        destruct (IH V (bits - outbits) (gs ++ [d]) buf (outlen + 1) HV ltac:(lia) ltac:(lia) ltac:(rewrite len_app, len_cons, len_nil; lia) Hg' HE') as [A B].
        rewrite len_cons. split.
        * intros Q. destruct (A ltac:(lia)) as (hs & L1 & L2 & L3 & L4). exists (d :: hs). rewrite len_cons, L1.
          assert (M : (bits - outbits) mod outbits = bits mod outbits).
          { replace bits with ((bits - outbits) + 1 * outbits) at 2 by lia. rewrite Z.mod_add by lia. reflexivity. }
          rewrite M in *. replace (gs ++ d :: hs) with ((gs ++ [d]) ++ hs) by (rewrite <- app_assoc; reflexivity).
          split; [lia|]. split; [auto|]. split; [auto|]. rewrite L4, K. f_equal. f_equal; [|lia]. f_equal.
          rewrite <- !app_assoc. cbn [app]. replace (Z.to_nat (1 + (bits - outbits) / outbits)) with (S (Z.to_nat ((bits - outbits) / outbits))) by lia. reflexivity.
        * intros Q. apply B. lia.
      + assert (k = 0) by (apply Z.div_small; lia). split; [intros _|pose proof (len_nonneg _ buf); lia].
        exists []. rewrite H. change (Z.to_nat 0) with O. rewrite app_nil_r. cbn [skipn]. rewrite Z.mod_small by lia. rewrite len_nil, Z.add_0_r, app_nil_l. auto.
  Qed.

  Lemma shift_or : forall V x, 0 <= V -> 0 <= x < 2^inbits ->
    Z.lor (u32 (Z.shiftl (V mod 2^32) inbits)) x = (V * 2^inbits + x) mod 2^32.
  Proof.
    intros V x HV Hx. unfold u32. rewrite Z.shiftl_mul_pow2 by lia. rewrite Z.mul_mod_idemp_l by lia.
    assert (P : 0 < 2^inbits) by (apply Z.pow_pos_nonneg; lia). assert (P2 : 0 < 2^(32-inbits)) by (apply Z.pow_pos_nonneg; lia).
    assert (E32 : 2^32 = 2^inbits * 2^(32 - inbits)) by (rewrite <- Z.pow_add_r by lia; f_equal; lia).
    rewrite E32. rewrite (Z.mul_comm V). rewrite Z.mul_mod_distr_l by lia. set (W := V mod 2^(32-inbits)).
    assert (HW : 0 <= W < 2^(32-inbits)) by (apply Z.mod_pos_bound; lia).
    replace (2^inbits * V + x) with (x + V * 2^inbits) by lia. rewrite Z.rem_mul_r by lia. rewrite Z.mod_add by lia. rewrite (Z.mod_small x) by lia.
    rewrite Z.div_add by lia. rewrite (Z.div_small x) by lia. rewrite Z.add_0_l. fold W.
    rewrite (Z.mul_comm _ W). rewrite lor_add by lia. lia.
  Qed.

  Lemma conv_loop_ok : forall inp V bits gs buf outlen,
    0 <= V -> 0 <= bits < outbits -> outlen = len gs -> digits_ok (2^outbits) gs -> digits_ok (2^inbits) inp ->
    be_val (2^outbits) gs = V / 2^bits ->
    let total := bits + inbits * len inp in
    let W := V * 2^(inbits * len inp) + be_val (2^inbits) inp in
    let k := total / outbits in
    (k <= len buf -> exists hs, len hs = k /\ digits_ok (2^outbits) (gs ++ hs) /\ be_val (2^outbits) (gs ++ hs) = W / 2^(total mod outbits) /\
       conv_loop inp (V mod 2^32) bits outbits inbits (Z.shiftl 1 outbits - 1) (gs ++ buf) outlen
       = Ok (W mod 2^32, total mod outbits, gs ++ hs ++ skipn (Z.to_nat k) buf, outlen + k)) /\
    (len buf < k -> conv_loop inp (V mod 2^32) bits outbits inbits (Z.shiftl 1 outbits - 1) (gs ++ buf) outlen = UB).
  Proof.
    induction inp as [|x inp IH]; intros V bits gs buf outlen HV Hb Ho Hg Hi HE total W k.
    - subst total W k. rewrite len_nil, be_val_nil, Z.mul_0_r, Z.pow_0_r, !Z.add_0_r, Z.mul_1_r.
      rewrite Z.div_small, Z.mod_small by lia. split; [intros _|pose proof (len_nonneg _ buf); lia].
      exists []. rewrite app_nil_r, len_nil. cbn [conv_loop]. change (Z.to_nat 0) with O. cbn [skipn app]. rewrite Z.add_0_r. auto.
    - inversion Hi as [|? ? Hx Hi']; subst. cbn [conv_loop]. rewrite shift_or by auto.
      set (V' := V * 2^inbits + x). assert (HV' : 0 <= V') by (unfold V'; assert (0 < 2^inbits) by (apply Z.pow_pos_nonneg; lia); nia).
      assert (HE' : be_val (2^outbits) gs = V' / 2^(bits + inbits)).
      { rewrite HE. unfold V'. rewrite (Z.add_comm bits), Z.pow_add_r by lia. assert (0 < 2^inbits) by (apply Z.pow_pos_nonneg; lia). assert (0 < 2^bits) by (apply Z.pow_pos_nonneg; lia).
        rewrite <- Z.div_div by lia. rewrite Z.div_add_l by lia. rewrite (Z.div_small x) by lia. rewrite Z.add_0_r. reflexivity. }
      destruct (emit_ok 8 V' (bits + inbits) gs buf (len gs) HV' ltac:(lia) ltac:(lia) eq_refl Hg HE') as [A B].
      set (k1 := (bits + inbits) / outbits) in *. set (b1 := (bits + inbits) mod outbits) in *.
      assert (Hb1 : 0 <= b1 < outbits) by (apply Z.mod_pos_bound; lia).
      assert (Hk1 : 0 <= k1) by (apply Z.div_pos; lia).
      assert (HT : total = b1 + inbits * len inp + k1 * outbits).
      { unfold total, b1, k1. rewrite len_cons. pose proof (Z.div_mod (bits + inbits) outbits ltac:(lia)). lia. }
      assert (K : k = (b1 + inbits * len inp) / outbits + k1) by (unfold k; rewrite HT, Z.div_add by lia; reflexivity).
      assert (M : total mod outbits = (b1 + inbits * len inp) mod outbits) by (rewrite HT, Z.mod_add by lia; reflexivity).
      pose proof (len_nonneg _ inp) as LI.
      assert (K2 : 0 <= (b1 + inbits * len inp) / outbits) by (apply Z.div_pos; nia).
      assert (EW : W = V' * 2^(inbits * len inp) + be_val (2^inbits) inp).
      { unfold W, V'. rewrite len_cons, be_val_cons, <- Z.pow_mul_r by lia. rewrite Z.mul_add_distr_l, Z.mul_1_r, Z.pow_add_r by nia. ring. }
      destruct (Z.le_gt_cases k1 (len buf)) as [L|L].
      + destruct (A L) as (hs & L1 & L2 & L3 & L4). rewrite L4. cbn [bind].
        assert (LB : len (skipn (Z.to_nat k1) buf) = len buf - k1) by (unfold len in *; rewrite skipn_length; lia).
        destruct (IH V' b1 (gs ++ hs) (skipn (Z.to_nat k1) buf) (len gs + k1) HV' Hb1 ltac:(rewrite len_app; lia) L2 Hi' L3) as [A' B'].
        rewrite LB in A', B'. rewrite <- app_assoc in A', B'. split.
        * intros Q. destruct (A' ltac:(lia)) as (hs' & M1 & M2 & M3 & M4). exists (hs ++ hs'). rewrite len_app, M1, L1.
          split; [lia|]. rewrite M, app_assoc. split; [auto|]. rewrite EW. split; [auto|]. rewrite M4. f_equal. f_equal; [|lia]. f_equal.
          rewrite <- !app_assoc. do 3 f_equal. rewrite skipn_twice. f_equal. lia.
        * intros Q. apply B'. lia.
      + rewrite (B L). split; [intros; lia|reflexivity].
  Qed.

  (** [convert_bits] on digits in range: what it writes and returns. *)
  Lemma convert_bits_spec : forall inp buf pad, digits_ok (2^inbits) inp ->
    let total := inbits * len inp in
    let W := be_val (2^inbits) inp in
    let bits := total mod outbits in
    let k := total / outbits in
    (k <= len buf -> exists hs, len hs = k /\ digits_ok (2^outbits) hs /\ be_val (2^outbits) hs = W / 2^bits /\
       convert_bits buf outbits inp inbits pad =
         (if pad then
            if bits =? 0 then Ok (1, hs ++ skipn (Z.to_nat k) buf, k)
            else let! b := aset (hs ++ skipn (Z.to_nat k) buf) k (W mod 2^bits * 2^(outbits - bits)) in Ok (1, b, k + 1)
          else if (W mod 2^bits =? 0) && (bits <? inbits) then Ok (1, hs ++ skipn (Z.to_nat k) buf, k)
          else Ok (0, hs ++ skipn (Z.to_nat k) buf, k))) /\
    (len buf < k -> convert_bits buf outbits inp inbits pad = UB).
  Proof.
    intros inp buf pad Hi total W bits k. unfold convert_bits. cbv zeta.
    destruct (conv_loop_ok inp 0 0 [] buf 0 ltac:(lia) ltac:(lia) eq_refl ltac:(constructor) Hi eq_refl) as [A B].
    rewrite Z.add_0_l in A, B. cbn [app] in A, B. change (0 mod 2^32) with 0 in A, B. fold total W bits k in A, B. rewrite Z.mul_0_l, Z.add_0_l in A. fold W in A.
    split; [|intros L; rewrite (B L); reflexivity]. intros L. destruct (A L) as (hs & L1 & L2 & L3 & L4). exists hs. split; auto. split; auto. split; auto.
    rewrite L4. cbn [bind].
    assert (Hb : 0 <= bits < outbits) by (apply Z.mod_pos_bound; lia).
    assert (E : Z.land (u32 (Z.shiftl (W mod 2^32) (outbits - bits))) (Z.shiftl 1 outbits - 1) = W mod 2^bits * 2^(outbits - bits)).
    { rewrite maxv_ones, Z.land_ones by lia. unfold u32. rewrite Z.shiftl_mul_pow2 by lia. rewrite Z.mul_mod_idemp_l by lia.
      assert (0 < 2^outbits) by (apply Z.pow_pos_nonneg; lia). assert (0 < 2^(32 - outbits)) by (apply Z.pow_pos_nonneg; lia).
      assert (0 < 2^bits) by (apply Z.pow_pos_nonneg; lia). assert (0 < 2^(outbits - bits)) by (apply Z.pow_pos_nonneg; lia).
      replace (2^32) with (2^outbits * 2^(32 - outbits)) by (rewrite <- Z.pow_add_r by lia; f_equal; lia).
      rewrite Z.rem_mul_r by lia. rewrite (Z.mul_comm (2^outbits)), Z.mod_add by lia. rewrite Z.mod_mod by lia.
      replace (2^outbits) with (2^bits * 2^(outbits - bits)) by (rewrite <- Z.pow_add_r by lia; f_equal; lia).
      apply Z.mul_mod_distr_r; lia. }
    rewrite E. destruct pad.
    - destruct (bits =? 0); reflexivity.
    - assert (P : 0 < 2^(outbits - bits)) by (apply Z.pow_pos_nonneg; lia).
      rewrite Z.add_0_l. destruct (Z.eqb_spec (W mod 2^bits) 0) as [->|N].
      + rewrite Z.mul_0_l. cbn [Z.eqb negb orb andb]. destruct (Z.leb_spec inbits bits), (Z.ltb_spec bits inbits); try lia; reflexivity.
      + destruct (Z.eqb_spec (W mod 2^bits * 2^(outbits - bits)) 0); [nia|]. reflexivity.
  Qed.
End Conv.
