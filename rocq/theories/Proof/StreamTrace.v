(** RAW and HEX streams behave alike (C13). *)
From Coq Require Import Lia.
From Verif Require Import Base.Bytes Base.BytesFacts Model.Conversion Model.Stream Spec.Codecs Spec.StreamOps
  Proof.HexBin.
Open Scope Z_scope.

Lemma hexToVal_digit : forall c v, is_hex_digit c v -> hexToVal c = v /\ 0 <= v < 16.
Proof.
  intros c v H.
  assert (0 <= c < Z.of_nat 103 /\ 0 <= v < 16) as [R V] by (destruct H as [H|[H|H]]; lia).
  split; auto.
  assert (S : forall c, 0 <= c < Z.of_nat 103 ->
     (if ((48 <=? c) && (c <=? 57)) then hexToVal c =? c - 48 else true) &&
     (if ((65 <=? c) && (c <=? 70)) then hexToVal c =? c - 55 else true) &&
     (if ((97 <=? c) && (c <=? 102)) then hexToVal c =? c - 87 else true) = true).
  { apply zrange_sweep. vm_compute. reflexivity. }
  specialize (S c R). destruct H as [H|[H|H]]; destruct H as [H ->].
  - apply andb_prop in S as [S _]. apply andb_prop in S as [S _].
    replace ((48 <=? c) && (c <=? 57)) with true in S by (symmetry; apply andb_true_intro; lia). apply Z.eqb_eq; auto.
  - apply andb_prop in S as [S _]. apply andb_prop in S as [_ S].
    replace ((65 <=? c) && (c <=? 70)) with true in S by (symmetry; apply andb_true_intro; lia). apply Z.eqb_eq; auto.
  - apply andb_prop in S as [_ S].
    replace ((97 <=? c) && (c <=? 102)) with true in S by (symmetry; apply andb_true_intro; lia). apply Z.eqb_eq; auto.
Qed.

Lemma hex_text_len : forall t bs, hex_text t bs -> len t = 2 * len bs \/ len t = 2 * len bs + 1.
Proof. induction 1; rewrite ?len_cons, ?len_nil in *; lia. Qed.
Lemma hex_text_bytes : forall t bs, hex_text t bs -> bytes_ok bs.
Proof.
  induction 1; constructor; auto. apply hexToVal_digit in H, H0. unfold byte_ok. lia.
Qed.
Lemma hex_text_skip : forall i t bs, hex_text t bs -> (i <= length bs)%nat ->
  hex_text (skipn (2 * i) t) (skipn i bs).
Proof.
  induction i as [|i IH]; intros t bs H L; [exact H|].
  destruct H; cbn [length] in L; try lia. replace (2 * S i)%nat with (S (S (2 * i))) by lia.
  cbn [skipn]. apply IH; auto. lia.
Qed.

(** The two streams at the same place. *)
Definition pb_rel (text bs : list Z) (h r : pbs) : Prop :=
  exists i l, (i <= length bs)%nat /\ h = mkPbs text (2 * Z.of_nat i) HEX l /\ r = mkPbs bs (Z.of_nat i) RAW l.

Section Rel.
Variables (text bs : list Z).
Hypothesis HT : hex_text text bs.
Hypothesis HN : text <> [].
Hypothesis HL : len text < 2^64.

Lemma rel_available : forall h r, pb_rel text bs h r -> pb_available h = pb_available r.
Proof.
  intros h r (i & l & L & -> & ->). unfold pb_available. cbn [pb_fmt pb_buf pb_cur].
  pose proof (hex_text_len _ _ HT) as E. unfold len in *.
  rewrite !u64_id by lia. dlia.
Qed.
Lemma rel_read : forall h r, pb_rel text bs h r ->
  exists v h' r', pb_read h = Ok (v, h') /\ pb_read r = Ok (v, r') /\ pb_rel text bs h' r' /\ (v = -1 \/ byte_ok v).
Proof.
  intros h r (i & l & L & -> & ->). unfold pb_read. cbn [pb_fmt pb_buf pb_cur].
  pose proof (hex_text_len _ _ HT) as E.
  assert (0 < len text) by (destruct text; [congruence|]; rewrite len_cons; pose proof (len_nonneg _ l0); lia).
  rewrite u64_id by lia.
  pose proof (hex_text_skip i _ _ HT L) as S.
  destruct (Nat.eq_dec i (length bs)) as [->|NE].
  - destruct (Z.ltb_spec (2 * Z.of_nat (length bs)) (len text - 1)); [unfold len in *; lia|].
    destruct (Z.ltb_spec (Z.of_nat (length bs)) (len bs)); [unfold len in *; lia|].
    exists (-1), (mkPbs text (2 * Z.of_nat (length bs)) HEX l), (mkPbs bs (Z.of_nat (length bs)) RAW l).
    repeat split; auto. exists (length bs), l. auto.
  - destruct (Z.ltb_spec (2 * Z.of_nat i) (len text - 1)); [|unfold len in *; lia].
    destruct (Z.ltb_spec (Z.of_nat i) (len bs)); [|unfold len in *; lia].
    remember (skipn (2 * i) text) as st. remember (skipn i bs) as sb.
    assert (Lsb : length sb = (length bs - i)%nat) by (subst; apply skipn_length).
    destruct S as [| |c1 c2 v1 v2 t bt D1 D2 S]; try (cbn in Lsb; lia).
    assert (T : text = firstn (2 * i) text ++ c1 :: c2 :: t) by (rewrite Heqst; symmetry; apply firstn_skipn).
    assert (B : bs = firstn i bs ++ (16 * v1 + v2) :: bt) by (rewrite Heqsb; symmetry; apply firstn_skipn).
    assert (LT : len (firstn (2 * i) text) = 2 * Z.of_nat i)
      by (unfold len in *; rewrite firstn_length; lia).
    assert (LB : len (firstn i bs) = Z.of_nat i) by (unfold len; rewrite firstn_length; lia).
    assert (A1 : aget text (2 * Z.of_nat i) = Ok c1) by (rewrite T, <- LT; apply aget_mid).
    assert (A2 : aget text (2 * Z.of_nat i + 1) = Ok c2).
    { rewrite T. replace (firstn (2 * i) text ++ c1 :: c2 :: t) with ((firstn (2 * i) text ++ [c1]) ++ c2 :: t)
        by (rewrite <- app_assoc; auto).
      replace (2 * Z.of_nat i + 1) with (len (firstn (2 * i) text ++ [c1])) by (rewrite len_app, LT; auto).
      apply aget_mid. }
    assert (A3 : aget bs (Z.of_nat i) = Ok (16 * v1 + v2)).
    { rewrite B, <- LB. apply aget_mid. }
    rewrite A1, A2, A3. cbn [bind].
    apply hexToVal_digit in D1 as [D1 R1], D2 as [D2 R2]. rewrite D1, D2.
    replace ((v1 <? 16) && (v2 <? 16)) with true by (symmetry; apply andb_true_intro; lia).
    rewrite Z.shiftl_mul_pow2 by lia. replace (v1 * 2^4 + v2) with (16 * v1 + v2) by lia.
    do 3 eexists. split; [reflexivity|]. split; [reflexivity|]. split.
    + exists (Datatypes.S i), (16 * v1 + v2). split; [lia|]. split; f_equal; lia.
    + right. unfold byte_ok. lia.
Qed.
Lemma rel_read_n : forall n h r, pb_rel text bs h r ->
  exists l h' r', pb_read_n n h = Ok (l, h') /\ pb_read_n n r = Ok (l, r') /\ pb_rel text bs h' r'.
Proof.
  induction n as [|n IH]; intros h r R; cbn [pb_read_n].
  - eauto 10.
  - destruct (rel_read h r R) as (v & h' & r' & E1 & E2 & R' & _). rewrite E1, E2. cbn [bind].
    destruct (v <? 0); [eauto 10|].
    destruct (IH _ _ R') as (l & h2 & r2 & F1 & F2 & R2). rewrite F1, F2. cbn [bind]. eauto 10.
Qed.
Lemma rel_trace : forall ops h r, pb_rel text bs h r -> exists t, rtrace h ops = Ok t /\ rtrace r ops = Ok t.
Proof.
  induction ops as [|o t IH]; intros h r R; cbn [rtrace].
  - eauto.
  - assert (S : exists x h' r', rstep h o = Ok (x, h') /\ rstep r o = Ok (x, r') /\ pb_rel text bs h' r').
    { destruct o; cbn [rstep].
      - rewrite (rel_available h r R). eauto 10.
      - destruct (rel_read h r R) as (v & h' & r' & E1 & E2 & R' & _). rewrite E1, E2. cbn [bind fst snd]. eauto 10.
      - destruct R as (i & l & L & -> & ->). unfold pb_getLast. cbn [pb_last]. do 3 eexists. repeat split. exists i, l. auto.
      - apply rel_read_n; auto. }
    destruct S as (x & h' & r' & E1 & E2 & R'). rewrite E1, E2. cbn [bind fst snd].
    destruct (IH _ _ R') as (u & F1 & F2). rewrite F1, F2. cbn [bind]. eauto.
Qed.
End Rel.

Lemma hex_raw_reads : forall text bs ops, hex_text text bs -> text <> [] -> len text < 2^64 ->
  exists t, rtrace (pb_new text HEX) ops = Ok t /\ rtrace (pb_new bs RAW) ops = Ok t.
Proof.
  intros text bs ops H N L. apply (rel_trace text bs H N L).
  exists 0%nat, (-1). repeat split. lia.
Qed.

(** A raw stream is the list of its bytes. *)
Lemma raw_reads_list : forall bs ops_done c rest, bs = ops_done ++ c :: rest -> bytes_ok bs -> len bs < 2^64 ->
  forall l, let s := mkPbs bs (len ops_done) RAW l in
  pb_available s = len (c :: rest) /\ pb_read s = Ok (c, mkPbs bs (len ops_done + 1) RAW c).
Proof.
  intros bs d c rest E B L l s. subst s. unfold pb_available, pb_read. cbn [pb_fmt pb_buf pb_cur].
  assert (len bs = len d + len (c :: rest)) as EL by (rewrite E, len_app; auto).
  pose proof (len_nonneg _ d). pose proof (len_nonneg _ rest). rewrite len_cons in *. rewrite u64_id by lia. split; [lia|].
  destruct (Z.ltb_spec (len d) (len bs)); [|lia].
  rewrite E at 1. rewrite aget_mid. reflexivity.
Qed.

(** *** Writing *)
Lemma sb_digit_spec : forall v, 0 <= v < 16 -> sb_digit v = nth (Z.to_nat v) hex_alphabet 0.
Proof.
  intros v H.
  assert (S : forall v, 0 <= v < Z.of_nat 16 -> sb_digit v =? nth (Z.to_nat v) hex_alphabet 0 = true).
  { apply zrange_sweep. vm_compute. reflexivity. }
  apply Z.eqb_eq, S; lia.
Qed.
Lemma aset_mid : forall a x b v, aset (a ++ x :: b) (len a) v = Ok (a ++ v :: b).
Proof.
  intros. unfold aset. rewrite len_app, len_cons. pose proof (len_nonneg _ a). pose proof (len_nonneg _ b).
  replace ((0 <=? len a) && (len a <? len a + (1 + len b))) with true by (symmetry; apply andb_true_intro; lia).
  unfold len. rewrite Nat2Z.id, set_nth_app_mid. auto.
Qed.
Definition enc (f : fmt) (w : list Z) : list Z := match f with RAW => w | HEX => hex_string w end.
Definition scale (f : fmt) : nat := match f with RAW => 1 | HEX => 2 end%nat.
(** Buffer holding [w] written so far, of capacity [n] bytes plus [x] spare characters. *)
Definition sb_holds (f : fmt) (n x : nat) (w : list Z) (s : sbs) : Prop :=
  (length w <= n)%nat /\ bytes_ok w /\
  s = mkSbs (enc f w ++ zeros (scale f * (n - length w) + x)) (len (enc f w)) f.
Lemma enc_len : forall f w, len (enc f w) = Z.of_nat (scale f) * len w.
Proof.
  intros [|] w; cbn [enc scale]; [lia|]. induction w as [|b t IH]; auto.
  cbn [hex_string flat_map app]. fold (hex_string t). rewrite !len_cons, IH. lia.
Qed.
Lemma hex_string_app : forall a b, hex_string (a ++ b) = hex_string a ++ hex_string b.
Proof. intros. unfold hex_string. apply flat_map_app. Qed.

Lemma sb_available_holds : forall f n x w s, sb_holds f n x w s -> (x < scale f)%nat ->
  Z.of_nat (scale f * n + x) < 2^64 -> sb_available s = Z.of_nat n - len w.
Proof.
  intros f n x w s (L & B & ->) X HL. unfold sb_available. cbn [sb_fmt sb_buf sb_cur].
  rewrite len_app, enc_len, len_zeros. unfold len.
  destruct f; cbn [scale] in *; rewrite u64_id by lia; [lia|dlia].
Qed.
Lemma sb_write_holds : forall f n x w s b, sb_holds f n x w s -> (x < scale f)%nat ->
  Z.of_nat (scale f * n + x) < 2^64 -> byte_ok b ->
  exists s', sb_write s b = Ok (fst (lstep n w (WWrite b)), s') /\ sb_holds f n x (snd (lstep n w (WWrite b))) s'.
Proof.
  intros f n x w s b H X HL HB. unfold sb_write. rewrite (sb_available_holds f n x w s) by auto.
  cbn [lstep]. destruct (Z.ltb_spec (len w) (Z.of_nat n)).
  - destruct (Z.ltb_spec 0 (Z.of_nat n - len w)); [|lia].
    destruct H as (L & B & ->). cbn [sb_fmt sb_buf sb_cur].
    assert (B' : bytes_ok (w ++ [b])) by (apply bytes_ok_app; split; auto; repeat constructor; apply HB).
    assert (L' : (length (w ++ [b]) <= n)%nat) by (rewrite app_length; unfold len in *; cbn; lia).
    unfold len in H0. destruct f; cbn [enc scale] in *.
    + replace (1 * (n - length w) + x)%nat with (S (1 * (n - (length w + 1)) + x)) by lia.
      cbn [zeros repeat]. fold (zeros (1 * (n - (length w + 1)) + x)). rewrite aset_mid. cbn [bind fst snd].
      eexists. split; [reflexivity|]. split; auto. split; auto.
      cbn [enc scale]. rewrite app_length, len_app. cbn [length]. rewrite <- app_assoc. reflexivity.
    + replace (2 * (n - length w) + x)%nat with (S (S (2 * (n - (length w + 1)) + x))) by lia.
      cbn [zeros repeat]. fold (zeros (2 * (n - (length w + 1)) + x)). rewrite aset_mid. cbn [bind].
      replace (hex_string w ++ sb_digit (Z.land (Z.shiftr b 4) 15) :: 0 :: zeros (2 * (n - (length w + 1)) + x))
        with ((hex_string w ++ [sb_digit (Z.land (Z.shiftr b 4) 15)]) ++ 0 :: zeros (2 * (n - (length w + 1)) + x))
        by (rewrite <- app_assoc; reflexivity).
      replace (len (hex_string w) + 1) with (len (hex_string w ++ [sb_digit (Z.land (Z.shiftr b 4) 15)]))
        by (rewrite len_app; reflexivity).
      rewrite aset_mid. cbn [bind fst snd].
      eexists. split; [reflexivity|]. split; auto. split; auto.
      unfold byte_ok in HB.
      assert (E1 : Z.land (Z.shiftr b 4) 15 = b / 16).
      { change 15 with (Z.ones 4). rewrite Z.land_ones, Z.shiftr_div_pow2 by lia. change (2^4) with 16.
        apply Z.mod_small. dlia. }
      assert (E2 : Z.land b 15 = b mod 16) by (change 15 with (Z.ones 4); rewrite Z.land_ones by lia; reflexivity).
      rewrite E1, E2, !sb_digit_spec by dlia.
      cbn [enc scale]. rewrite app_length, hex_string_app, <- !app_assoc. cbn [length app hex_string flat_map].
      f_equal. rewrite !len_app, !len_cons, len_nil. lia.
  - destruct (Z.ltb_spec 0 (Z.of_nat n - len w)); [lia|]. cbn [fst snd]. eauto.
Qed.
Lemma sb_write_n_holds : forall f n x l w s, sb_holds f n x w s -> (x < scale f)%nat ->
  Z.of_nat (scale f * n + x) < 2^64 -> bytes_ok l ->
  exists s', sb_write_n s l = Ok (fst (lstep n w (WWriteN l)), s') /\ sb_holds f n x (snd (lstep n w (WWriteN l))) s'.
Proof.
  intros f n x. induction l as [|b t IH]; intros w s H X HL HB; cbn [sb_write_n].
  - cbn [lstep length Nat.min firstn fst snd]. rewrite app_nil_r. eauto.
  - inversion HB as [|? ? HB1 HB2]; subst.
    rewrite (sb_available_holds f n x w s) by auto.
    destruct (Z.ltb_spec 0 (Z.of_nat n - len w)).
    + destruct (sb_write_holds f n x w s b H X HL HB1) as (s1 & E1 & H1).
      cbn [lstep] in E1, H1. destruct (Z.ltb_spec (len w) (Z.of_nat n)); [|lia]. cbn [fst snd] in E1, H1.
      rewrite E1. cbn [bind snd]. destruct (IH _ _ H1 X HL HB2) as (s2 & E2 & H2').
      rewrite E2. cbn [bind fst snd lstep] in *. unfold len in *. rewrite app_length in *. cbn [length] in *.
      replace (n - length w)%nat with (Datatypes.S (n - (length w + 1))) by lia. cbn [Nat.min firstn].
      eexists. split; [f_equal; f_equal; lia|]. rewrite <- app_assoc in H2'. exact H2'.
    + cbn [lstep fst snd]. unfold len in *. replace (n - length w)%nat with 0%nat by lia. rewrite Nat.min_0_r.
      cbn [firstn]. rewrite app_nil_r. eauto.
Qed.
Lemma sb_trace : forall f n x ops w s, sb_holds f n x w s -> (x < scale f)%nat ->
  Z.of_nat (scale f * n + x) < 2^64 -> Forall wop_ok ops ->
  let r := ltrace n w ops in
  wtrace s ops = Ok (fst r, enc f (snd r) ++ zeros (scale f * (n - length (snd r)) + x)).
Proof.
  intros f n x. induction ops as [|o t IH]; intros w s H X HL HO; cbn [wtrace ltrace].
  - destruct H as (L & B & ->). reflexivity.
  - inversion HO; subst.
    assert (S : exists s', wstep s o = Ok (fst (lstep n w o), s') /\ sb_holds f n x (snd (lstep n w o)) s').
    { destruct o; cbn [wstep].
      - rewrite (sb_available_holds f n x w s) by auto. cbn [lstep fst snd]. eauto.
      - apply sb_write_holds; auto.
      - apply sb_write_n_holds; auto. }
    destruct S as (s' & E & H'). rewrite E. cbn [bind fst snd]. rewrite (IH _ _ H' X HL) by auto. reflexivity.
Qed.
(** A stream over a buffer of [size] bytes. *)
Lemma stream_writes : forall f buf ops, len buf < 2^64 -> Forall wop_ok ops ->
  let n := (length buf / scale f)%nat in
  let r := ltrace n [] ops in
  wtrace (sb_new buf f) ops = Ok (fst r, enc f (snd r) ++ zeros (length buf - scale f * length (snd r))).
Proof.
  intros f buf ops HL HO n r.
  pose proof (Nat.div_mod (length buf) (scale f) ltac:(destruct f; cbn; lia)) as D.
  pose proof (Nat.mod_upper_bound (length buf) (scale f) ltac:(destruct f; cbn; lia)) as M.
  fold n in D. set (x := (length buf mod scale f)%nat) in *.
  assert (LR : forall ops w, (length w <= n)%nat -> (length (snd (ltrace n w ops)) <= n)%nat).
  { clear. induction ops as [|o t IH]; intros w H; cbn [ltrace snd]; auto. apply IH.
    destruct o; cbn [lstep snd]; auto.
    - destruct (Z.ltb_spec (len w) (Z.of_nat n)); cbn [snd]; auto. rewrite app_length. unfold len in *. cbn. lia.
    - rewrite app_length, firstn_length. lia. }
  unfold sb_new. rewrite (sb_trace f n x ops []); auto.
  - fold r. do 4 f_equal. specialize (LR ops [] ltac:(cbn; lia)). fold r in LR. nia.
  - repeat split; [cbn; lia|constructor|]. f_equal.
    + destruct f; cbn [enc hex_string flat_map app length]; f_equal; lia.
    + destruct f; reflexivity.
  - unfold len in HL. lia.
Qed.
