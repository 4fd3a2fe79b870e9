From Coq Require Import Lia.
From Verif Require Import Base.Bytes Base.BytesFacts Model.Conversion Spec.Codecs Proof.IntVarint.
Open Scope Z_scope.

Lemma b64_char_std : forall v i, 0 <= i <= 3 ->
  b64_char v i = nth (Z.to_nat ((v / 64 ^ (3 - i)) mod 64)) (b64_alphabet false) 0.
Proof.
  intros v i Hi. unfold b64_char, char_at. change 63 with (Z.ones 6).
  rewrite Z.land_ones, Z.shiftr_div_pow2, Z.pow_mul_r by lia. reflexivity.
Qed.

Lemma group3 : forall a b c, byte_ok a -> byte_ok b -> byte_ok c ->
  u32 (bigEndianToInt [a; b; c]) = a * 65536 + b * 256 + c.
Proof.
  unfold byte_ok. intros. rewrite bigEndianToInt_mod by (repeat constructor; unfold byte_ok; lia).
  unfold be_val; cbn [be_acc].
  rewrite Z.mod_small by lia. rewrite u32_id by lia. lia.
Qed.
Lemma group2 : forall a b, byte_ok a -> byte_ok b ->
  u32 (Z.shiftl (u32 (bigEndianToInt [a; b])) 8) = a * 65536 + b * 256.
Proof.
  unfold byte_ok. intros. rewrite bigEndianToInt_mod by (repeat constructor; unfold byte_ok; lia).
  unfold be_val; cbn [be_acc].
  rewrite Z.mod_small by lia. rewrite (u32_id ((0 * 256 + a) * 256 + b)) by lia. rewrite Z.shiftl_mul_pow2 by lia. change (2^8) with 256.
  rewrite u32_id by lia. lia.
Qed.
Lemma group1 : forall a, byte_ok a -> u32 (Z.shiftl (u32 (bigEndianToInt [a])) 16) = a * 65536.
Proof.
  unfold byte_ok. intros. rewrite bigEndianToInt_mod by (repeat constructor; unfold byte_ok; lia).
  unfold be_val; cbn [be_acc].
  rewrite Z.mod_small by lia. rewrite (u32_id (0 * 256 + a)) by lia. rewrite Z.shiftl_mul_pow2 by lia. change (2^16) with 65536.
  rewrite u32_id by lia. lia.
Qed.

Lemma list3_ind : forall (P : list Z -> Prop), P [] -> (forall a, P [a]) -> (forall a b, P [a; b]) ->
  (forall a b c t, P t -> P (a :: b :: c :: t)) -> forall l, P l.
Proof.
  intros P H0 H1 H2 H3 l. enough (forall n l, (length l <= n)%nat -> P l) by eauto.
  clear l. induction n; intros l HL.
  - destruct l; cbn in HL; auto; lia.
  - destruct l as [|a [|b [|c t]]]; auto. apply H3, IHn. cbn in HL; lia.
Qed.

Definition std_text (fl : b64_flags) (bs : list Z) := base64_text false (negb (nopad fl)) bs.

Ltac sextets :=
  rewrite ?b64_char_std by lia;
  change (64 ^ (3 - 0)) with 262144; change (64 ^ (3 - 1)) with 4096;
  change (64 ^ (3 - 2)) with 64; change (64 ^ (3 - 3)) with 1.

Lemma toBase64_loop_spec : forall fl bs, bytes_ok bs -> bs <> [] ->
  toBase64_loop fl bs = Ok (std_text fl bs).
Proof.
  intros fl bs. induction bs as [|a|a b|a b c t IH] using list3_ind; intros H HN; try congruence.
  - inversion H; subst. cbn [toBase64_loop]. rewrite group1 by auto. unfold byte_ok in *. unfold std_text. cbn [map base64_text].
    sextets.
    replace ((a * 65536 / 262144) mod 64) with (a / 4) by dlia.
    replace ((a * 65536 / 4096) mod 64) with (a mod 4 * 16) by dlia.
    destruct (nopad fl); reflexivity.
  - inversion H; subst. inversion H3; subst. cbn [toBase64_loop]. rewrite group2 by auto. unfold byte_ok in *. unfold std_text. cbn [map base64_text].
    sextets.
    replace (((a * 65536 + b * 256) / 262144) mod 64) with (a / 4) by dlia.
    replace (((a * 65536 + b * 256) / 4096) mod 64) with (a mod 4 * 16 + b / 16) by dlia.
    replace (((a * 65536 + b * 256) / 64) mod 64) with (b mod 16 * 4) by dlia.
    destruct (nopad fl); reflexivity.
  - inversion H as [|? ? Ha H']; subst. inversion H' as [|? ? Hb H'']; subst. inversion H'' as [|? ? Hc Ht]; subst.
    pose proof (group3 a b c Ha Hb Hc) as G. unfold byte_ok in Ha, Hb, Hc.
    assert (map (b64_char (a * 65536 + b * 256 + c)) [0; 1; 2; 3] =
      map (fun d => nth (Z.to_nat d) (b64_alphabet false) 0)
        [a / 4; a mod 4 * 16 + b / 16; b mod 16 * 4 + c / 64; c mod 64]) as M.
    { cbn [map]. sextets.
      replace (((a * 65536 + b * 256 + c) / 262144) mod 64) with (a / 4) by dlia.
      replace (((a * 65536 + b * 256 + c) / 4096) mod 64) with (a mod 4 * 16 + b / 16) by dlia.
      replace (((a * 65536 + b * 256 + c) / 64) mod 64) with (b mod 16 * 4 + c / 64) by dlia.
      replace (((a * 65536 + b * 256 + c) / 1) mod 64) with (c mod 64) by (rewrite Z.div_1_r; dlia).
      reflexivity. }
    destruct t as [|d t].
    + cbn [toBase64_loop]. rewrite G, M. reflexivity.
    + set (r := d :: t) in *.
      change (toBase64_loop fl (a :: b :: c :: r)) with
        (let! r' := toBase64_loop fl r in Ok (map (b64_char (u32 (bigEndianToInt [a; b; c]))) [0; 1; 2; 3] ++ r')).
      rewrite IH by (auto; subst r; congruence). cbn [bind]. rewrite G, M. reflexivity.
Qed.

Lemma url_char : forall fl d, 0 <= d < 64 ->
  url_enc fl (nth (Z.to_nat d) (b64_alphabet false) 0) = nth (Z.to_nat d) (b64_alphabet (urlsafe fl)) 0.
Proof.
  intros fl d Hd. unfold url_enc. apply Z.eqb_eq. destruct (urlsafe fl).
  - apply (zrange_sweep 64 (fun d => (if nth (Z.to_nat d) (b64_alphabet false) 0 =? 43 then 45 else
     if nth (Z.to_nat d) (b64_alphabet false) 0 =? 47 then 95 else nth (Z.to_nat d) (b64_alphabet false) 0) =? nth (Z.to_nat d) (b64_alphabet true) 0));
     [vm_compute; reflexivity|lia].
  - apply Z.eqb_refl.
Qed.
Lemma url_text : forall fl bs, bytes_ok bs ->
  map (url_enc fl) (std_text fl bs) = base64_text (urlsafe fl) (negb (nopad fl)) bs.
Proof.
  assert (forall fl, url_enc fl 61 = 61) as E61 by (intros fl; unfold url_enc; destruct (urlsafe fl); reflexivity).
  intros fl bs. unfold std_text. induction bs as [|a|a b|a b c t IH] using list3_ind; intros H.
  - reflexivity.
  - inversion H; subst. unfold byte_ok in *. cbn [base64_text]. rewrite map_app. cbn [map]. rewrite !url_char by dlia.
    destruct (nopad fl); cbn [negb map chars app]; rewrite ?E61; try reflexivity.
  - inversion H; subst. inversion H3; subst. unfold byte_ok in *. cbn [base64_text]. rewrite map_app. cbn [map]. rewrite !url_char by dlia.
    destruct (nopad fl); cbn [negb map chars app]; rewrite ?E61; try reflexivity.
  - inversion H as [|? ? Ha H']; subst. inversion H' as [|? ? Hb H'']; subst. inversion H'' as [|? ? Hc Ht]; subst.
    unfold byte_ok in Ha, Hb, Hc.
    cbn [base64_text]. rewrite map_app. cbn [map]. rewrite !url_char by dlia. rewrite IH by auto. reflexivity.
Qed.

Lemma base64_text_len : forall u p bs,
  len (base64_text u p bs) = toBase64Length (len bs) {| nopad := negb p; urlsafe := u |}.
Proof.
  intros u p bs. unfold toBase64Length. cbn [nopad]. induction bs as [|a|a b|a b c t IH] using list3_ind.
  - reflexivity.
  - cbn [base64_text]. destruct p; reflexivity.
  - cbn [base64_text]. destruct p; reflexivity.
  - cbn [base64_text]. rewrite len_app, IH, !len_cons, len_nil.
    pose proof (len_nonneg _ t).
    replace ((1 + (1 + (1 + len t))) / 3) with (1 + len t / 3) by dlia.
    replace ((1 + (1 + (1 + len t))) mod 3) with (len t mod 3) by dlia.
    destruct (len t mod 3 =? 0); destruct p; cbn [negb]; lia.
Qed.

Lemma toBase64_spec : forall fl bs out, bytes_ok bs -> bs <> [] ->
  toBase64Length (len bs) fl <= len out ->
  let t := base64_text (urlsafe fl) (negb (nopad fl)) bs in
  toBase64 fl bs out = Ok (len t, t ++ zeros (length out - length t)) /\ len t = toBase64Length (len bs) fl.
Proof.
  intros fl bs out H HN HL t. unfold toBase64.
  destruct (Z.ltb_spec (len out) (toBase64Length (len bs) fl)); [lia|].
  rewrite toBase64_loop_spec by auto. cbn [bind]. rewrite url_text by auto. fold t. split; auto.
  subst t. rewrite base64_text_len. destruct fl as [[] u]; reflexivity.
Qed.

(** * Decoding *)
Definition norm_char (fl : b64_flags) (c0 : Z) : Z :=
  let c1 := if (c0 =? 45) && urlsafe fl then 43 else c0 in
  if (c1 =? 95) && urlsafe fl then 47 else c1.
Lemma strchr_b64 : forall fl d, 0 <= d < 64 ->
  let c := norm_char fl (nth (Z.to_nat d) (b64_alphabet (urlsafe fl)) 0) in
  strchr BASE64_CHARS c = Some d /\ (c =? 0) = false.
Proof.
  intros fl d Hd. unfold norm_char.
  assert (forall u, (let c0 := nth (Z.to_nat d) (b64_alphabet u) 0 in
     let c1 := if (c0 =? 45) && u then 43 else c0 in
     let c := if (c1 =? 95) && u then 47 else c1 in
     match strchr BASE64_CHARS c with Some e => (e =? d) && negb (c =? 0) | None => false end) = true) as S.
  { intros u. apply (zrange_sweep 64 (fun d => let c0 := nth (Z.to_nat d) (b64_alphabet u) 0 in
     let c1 := if (c0 =? 45) && u then 43 else c0 in
     let c := if (c1 =? 95) && u then 47 else c1 in
     match strchr BASE64_CHARS c with Some e => (e =? d) && negb (c =? 0) | None => false end)); [|lia].
    destruct u; vm_compute; reflexivity. }
  specialize (S (urlsafe fl)). cbv zeta in S. cbv zeta.
  destruct (strchr BASE64_CHARS _) as [e|]; [|discriminate].
  apply andb_true_iff in S as [S1 S2]. apply Z.eqb_eq in S1. subst e. split; auto.
  apply negb_true_iff; auto.
Qed.
Lemma b64_step : forall fl k i val d t, 0 <= d < 64 ->
  b64_group fl (S k) i val (nth (Z.to_nat d) (b64_alphabet (urlsafe fl)) 0 :: t) =
  b64_group fl k (i + 1) (u32 (u32 (Z.shiftl val 6) + d)) t.
Proof.
  intros fl k i val d t Hd. cbn [b64_group]. destruct (strchr_b64 fl d Hd) as [A B]. unfold norm_char in *.
  rewrite A, B, andb_false_r. change 63 with (Z.ones 6). rewrite Z.land_ones by lia.
  change (2^6) with 64. rewrite (Z.mod_small d 64) by lia. reflexivity.
Qed.
Lemma sh6 : forall v, 0 <= v < 2^20 -> u32 (Z.shiftl v 6) = v * 64.
Proof. intros. rewrite Z.shiftl_mul_pow2 by lia. apply u32_id. change (2^6) with 64. lia. Qed.

Lemma b64_full : forall fl a b c t, byte_ok a -> byte_ok b -> byte_ok c ->
  let ch := fun d => nth (Z.to_nat d) (b64_alphabet (urlsafe fl)) 0 in
  b64_group fl 4 0 0 ([ch (a / 4); ch (a mod 4 * 16 + b / 16); ch (b mod 16 * 4 + c / 64); ch (c mod 64)] ++ t)
  = GFull (a * 65536 + b * 256 + c).
Proof.
  unfold byte_ok. intros fl a b c t Ha Hb Hc. cbn [app]. cbv beta.
  rewrite b64_step by dlia. rewrite sh6 by lia. rewrite u32_id by dlia.
  rewrite b64_step by dlia. rewrite sh6 by dlia. rewrite u32_id by dlia.
  rewrite b64_step by dlia. rewrite sh6 by dlia. rewrite u32_id by dlia.
  rewrite b64_step by dlia. rewrite sh6 by dlia. rewrite u32_id by dlia.
  cbn [b64_group]. f_equal. dlia.
Qed.

(** End of the data: either '=' or, without padding, the terminating NUL. *)
Definition stopper (fl : b64_flags) (c : Z) : Prop := (c = 61 /\ nopad fl = false) \/ (c = 0 /\ nopad fl = true).
Lemma b64_stop : forall fl k i val c t, stopper fl c ->
  b64_group fl (S k) i val (c :: t) =
    (if i =? 3 then GLast [Z.land (Z.shiftr (Z.shiftr val 2) 8) 255; Z.land (Z.shiftr val 2) 255]
     else if i =? 2 then GLast [Z.land (Z.shiftr val 4) 255] else GFail).
Proof.
  intros fl k i val c t [[-> N]|[-> N]]; cbn [b64_group].
  - change (61 =? 45) with false. cbn [andb]. change (61 =? 95) with false. cbn [andb].
    change (strchr BASE64_CHARS 61) with (@None Z). reflexivity.
  - change (0 =? 45) with false. cbn [andb]. change (0 =? 95) with false. cbn [andb].
    change (strchr BASE64_CHARS 0) with (Some 64). rewrite N. reflexivity.
Qed.
Lemma b64_two : forall fl a b c t, byte_ok a -> byte_ok b -> stopper fl c ->
  let ch := fun d => nth (Z.to_nat d) (b64_alphabet (urlsafe fl)) 0 in
  b64_group fl 4 0 0 ([ch (a / 4); ch (a mod 4 * 16 + b / 16); ch (b mod 16 * 4)] ++ c :: t) = GLast [a; b].
Proof.
  unfold byte_ok. intros fl a b c t Ha Hb HS. cbn [app]. cbv beta.
  rewrite b64_step by dlia. rewrite sh6 by lia. rewrite u32_id by dlia.
  rewrite b64_step by dlia. rewrite sh6 by dlia. rewrite u32_id by dlia.
  rewrite b64_step by dlia. rewrite sh6 by dlia. rewrite u32_id by dlia.
  rewrite b64_stop by auto. change (0 + 1 + 1 + 1 =? 3) with true. cbn iota.
  rewrite !land255, !Z.shiftr_div_pow2 by lia. change (2^2) with 4. change (2^8) with 256.
  f_equal. f_equal; [dlia|]. f_equal. dlia.
Qed.
Lemma b64_one : forall fl a c t, byte_ok a -> stopper fl c ->
  let ch := fun d => nth (Z.to_nat d) (b64_alphabet (urlsafe fl)) 0 in
  b64_group fl 4 0 0 ([ch (a / 4); ch (a mod 4 * 16)] ++ c :: t) = GLast [a].
Proof.
  unfold byte_ok. intros fl a c t Ha HS. cbn [app]. cbv beta.
  rewrite b64_step by dlia. rewrite sh6 by lia. rewrite u32_id by dlia.
  rewrite b64_step by dlia. rewrite sh6 by dlia. rewrite u32_id by dlia.
  rewrite b64_stop by auto. change (0 + 1 + 1 =? 3) with false. change (0 + 1 + 1 =? 2) with true. cbn iota.
  rewrite !land255, !Z.shiftr_div_pow2 by lia. change (2^4) with 16. f_equal. f_equal. dlia.
Qed.

Lemma b64_loop_spec : forall fl bs fuel acc out, bytes_ok bs ->
  (length (base64_text (urlsafe fl) (negb (nopad fl)) bs) <= fuel)%nat ->
  len acc + len bs <= out ->
  fromBase64_loop fuel fl (base64_text (urlsafe fl) (negb (nopad fl)) bs) acc out = Ok (Some (acc ++ bs)).
Proof.
  intros fl bs. induction bs as [|a|a b|a b c t IH] using list3_ind; intros fuel acc out H HF HO.
  - cbn [base64_text]. destruct fuel; cbn; rewrite app_nil_r; reflexivity.
  - inversion H; subst.
    destruct fuel as [|fuel]; [exfalso; revert HF; cbn [base64_text app length]; lia|].
    assert (exists c t', base64_text (urlsafe fl) (negb (nopad fl)) [a] ++ [0] =
       [nth (Z.to_nat (a / 4)) (b64_alphabet (urlsafe fl)) 0; nth (Z.to_nat (a mod 4 * 16)) (b64_alphabet (urlsafe fl)) 0] ++ c :: t'
       /\ stopper fl c) as (c & t' & E & ST).
    { cbn [base64_text]. destruct (nopad fl) eqn:N; cbn [negb app].
      - exists 0, []. split; [reflexivity|right; auto].
      - exists 61, [61; 0]. split; [reflexivity|left; auto]. }
    cbn [fromBase64_loop]. rewrite E, b64_one by auto.
    assert ((len (base64_text (urlsafe fl) (negb (nopad fl)) [a]) <? 4) && negb (nopad fl) = false) as ->.
    { cbn [base64_text]. destruct (nopad fl); cbn [negb]; [apply andb_false_r|reflexivity]. }
    cbn [base64_text app]. rewrite len_cons, len_nil in *.
    destruct (Z.ltb_spec out (len acc + (1 + 0))); [lia|]. reflexivity.
  - inversion H; subst. inversion H3; subst.
    destruct fuel as [|fuel]; [exfalso; revert HF; cbn [base64_text app length]; lia|].
    assert (exists c t', base64_text (urlsafe fl) (negb (nopad fl)) [a; b] ++ [0] =
       [nth (Z.to_nat (a / 4)) (b64_alphabet (urlsafe fl)) 0; nth (Z.to_nat (a mod 4 * 16 + b / 16)) (b64_alphabet (urlsafe fl)) 0;
        nth (Z.to_nat (b mod 16 * 4)) (b64_alphabet (urlsafe fl)) 0] ++ c :: t'
       /\ stopper fl c) as (c & t' & E & ST).
    { cbn [base64_text]. destruct (nopad fl) eqn:N; cbn [negb app].
      - exists 0, []. split; [reflexivity|right; auto].
      - exists 61, [0]. split; [reflexivity|left; auto]. }
    cbn [fromBase64_loop]. rewrite E, b64_two by auto.
    assert ((len (base64_text (urlsafe fl) (negb (nopad fl)) [a; b]) <? 4) && negb (nopad fl) = false) as ->.
    { cbn [base64_text]. destruct (nopad fl); cbn [negb]; [apply andb_false_r|reflexivity]. }
    cbn [base64_text app]. rewrite !len_cons, len_nil in *.
    destruct (Z.ltb_spec out (len acc + (1 + (1 + 0)))); [lia|]. reflexivity.
  - inversion H as [|? ? Ha H']; subst. inversion H' as [|? ? Hb H'']; subst. inversion H'' as [|? ? Hc Ht]; subst.
    pose proof (b64_full fl a b c (base64_text (urlsafe fl) (negb (nopad fl)) t ++ [0]) Ha Hb Hc) as F.
    cbn [base64_text] in *. rewrite app_length in HF. cbn [length] in HF.
    destruct fuel as [|fuel]; [lia|]. cbn [fromBase64_loop app]. rewrite !len_cons in *.
    pose proof (len_nonneg _ t). pose proof (len_nonneg _ (base64_text (urlsafe fl) (negb (nopad fl)) t)).
    destruct (Z.ltb_spec (1 + (1 + (1 + (1 + len (base64_text (urlsafe fl) (negb (nopad fl)) t))))) 4); [lia|].
    cbn [andb]. cbn [app] in F. rewrite F.
    destruct (Z.ltb_spec out (len acc + 3)); [lia|].
    rewrite intToBigEndian_ok by lia. cbn [bind skipn].
    unfold byte_ok in Ha, Hb, Hc.
    assert (be_bytes 3 (a * 65536 + b * 256 + c) = [a; b; c]) as ->.
    { unfold be_bytes. cbn [le_bytes rev app]. f_equal; [dlia|]. f_equal; [dlia|]. f_equal. dlia. }
    rewrite IH; auto; try lia.
    + rewrite <- app_assoc. reflexivity.
    + rewrite len_app. change (len [a; b; c]) with 3. lia.
Qed.

Lemma fromBase64Length_text : forall fl bs, bytes_ok bs -> bs <> [] ->
  fromBase64Length fl (base64_text (urlsafe fl) (negb (nopad fl)) bs) = Ok (len bs).
Proof.
  intros fl bs H HN. unfold fromBase64Length.
  set (t := base64_text (urlsafe fl) (negb (nopad fl)) bs).
  assert (len t = toBase64Length (len bs) fl) as L by (subst t; rewrite base64_text_len; destruct fl as [[] u]; reflexivity).
  rewrite L. unfold toBase64Length.
  assert (0 < len bs) as P by (destruct bs; [congruence|rewrite len_cons; pose proof (len_nonneg _ bs); lia]).
  destruct (nopad fl) eqn:N.
  - cbn [negb]. rewrite andb_false_r.
    destruct (Z.eqb_spec (len bs mod 3) 0).
    + destruct (Z.eqb_spec (len bs / 3 * 4 mod 4) 0); [f_equal; dlia|dlia].
    + destruct (Z.eqb_spec ((len bs / 3 * 4 + (len bs mod 3 + 1)) mod 4) 0); [dlia|f_equal; dlia].
  - replace ((if len bs mod 3 =? 0 then len bs / 3 * 4 else len bs / 3 * 4 + 4) mod 4 =? 0) with true.
    2:{ symmetry; apply Z.eqb_eq. destruct (Z.eqb_spec (len bs mod 3) 0); dlia. }
    cbn [negb andb].
    assert (forall bs, bytes_ok bs -> bs <> [] ->
      let t := base64_text (urlsafe fl) true bs in
      exists c1 c2, aget t (len t - 1) = Ok c1 /\ aget t (len t - 2) = Ok c2 /\
        (c1 =? 61) = negb (len bs mod 3 =? 0) /\ (c2 =? 61) = (len bs mod 3 =? 1)) as K.
    { assert (forall d, 0 <= d < 64 -> (nth (Z.to_nat d) (b64_alphabet (urlsafe fl)) 0 =? 61) = false) as NE.
      { intros d Hd. apply negb_true_iff.
        apply (zrange_sweep 64 (fun d => negb (nth (Z.to_nat d) (b64_alphabet (urlsafe fl)) 0 =? 61))); [|lia].
        destruct (urlsafe fl); vm_compute; reflexivity. }
      clear - NE. intros bs. induction bs as [|a|a b|a b c t IH] using list3_ind; intros H HN; try congruence.
      - inversion H; subst. unfold byte_ok in *. cbn [base64_text]. exists 61, 61.
        cbv zeta. repeat split; reflexivity.
      - inversion H; subst. unfold byte_ok in *. inversion H3; subst. unfold byte_ok in *. cbn [base64_text].
        exists 61, (nth (Z.to_nat (b mod 16 * 4)) (b64_alphabet (urlsafe fl)) 0).
        cbv zeta. repeat split; try reflexivity. rewrite NE by dlia. reflexivity.
      - inversion H as [|? ? Ha H']; subst. inversion H' as [|? ? Hb H'']; subst. inversion H'' as [|? ? Hc Ht]; subst.
        unfold byte_ok in Ha, Hb, Hc. cbn [base64_text]. rewrite !len_cons.
        replace ((1 + (1 + (1 + len t))) mod 3) with (len t mod 3) by dlia.
        destruct t as [|d t].
        + exists (nth (Z.to_nat (c mod 64)) (b64_alphabet (urlsafe fl)) 0), (nth (Z.to_nat (b mod 16 * 4 + c / 64)) (b64_alphabet (urlsafe fl)) 0).
          cbv zeta. repeat split; try reflexivity; rewrite NE by dlia; reflexivity.
        + destruct (IH Ht ltac:(congruence)) as (c1 & c2 & A1 & A2 & B1 & B2). exists c1, c2. cbv zeta in *.
          set (r := base64_text (urlsafe fl) true (d :: t)) in *.
          assert (forall k v, aget r (len r - k) = Ok v -> forall x y z w, aget ([x; y; z; w] ++ r) (len ([x;y;z;w] ++ r) - k) = Ok v) as SH.
          { intros k v A x y z w. unfold aget in *. rewrite len_app. change (len [x;y;z;w]) with 4.
            destruct (Z.leb_spec 0 (len r - k)); [|discriminate]. destruct (Z.ltb_spec (len r - k) (len r)); [|discriminate].
            cbn [andb] in A. destruct (Z.leb_spec 0 (4 + len r - k)); [|lia]. destruct (Z.ltb_spec (4 + len r - k) (4 + len r)); [|lia].
            cbn [andb]. rewrite <- A. f_equal. replace (Z.to_nat (4 + len r - k)) with (4 + Z.to_nat (len r - k))%nat by lia. reflexivity. }
          repeat split; auto. }
    destruct (K bs H HN) as (c1 & c2 & A1 & A2 & B1 & B2). cbv zeta in *.
    change (base64_text (urlsafe fl) true bs) with t in A1, A2.
    assert (len t = if len bs mod 3 =? 0 then len bs / 3 * 4 else len bs / 3 * 4 + 4) as L2
      by (rewrite L; unfold toBase64Length; rewrite N; reflexivity).
    rewrite L2 in A1, A2. rewrite A1, A2. cbn [bind]. rewrite B1, B2. f_equal.
    destruct (Z.eqb_spec (len bs mod 3) 0); destruct (Z.eqb_spec (len bs mod 3) 1); cbn [negb]; dlia.
Qed.

Lemma fromBase64_spec : forall fl bs out, bytes_ok bs -> bs <> [] -> len bs <= len out ->
  fromBase64 fl (base64_text (urlsafe fl) (negb (nopad fl)) bs) out =
  Ok (len bs, bs ++ zeros (length out - length bs)).
Proof.
  intros fl bs out H HN HO. unfold fromBase64. rewrite fromBase64Length_text by auto. cbn [bind].
  destruct (Z.ltb_spec (len out) (len bs)); [lia|].
  rewrite b64_loop_spec; auto.
Qed.
