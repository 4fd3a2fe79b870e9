(** Decoding: a digit string without leading zero digit is the encoding of what it decodes to. *)
From Coq Require Import Lia.
From Verif Require Import Base.Bytes Base.BytesFacts Model.Conversion Spec.Codecs Proof.BaseN.
Open Scope Z_scope.

Lemma be_val_len_lt : forall b x y, 1 < b -> digits_ok b x -> digits_ok b y -> hd 1 y <> 0 -> len x < len y ->
  be_val b x < be_val b y.
Proof.
  intros b x y B X Y H L. destruct y as [|d y]; [rewrite len_nil in L; pose proof (len_nonneg _ x); lia|].
  cbn in H. pose proof (Forall_inv Y) as D. pose proof (Forall_inv_tail Y) as D'. cbv beta in D.
  pose proof (be_val_lower b d y ltac:(lia) D' ltac:(lia)). pose proof (be_val_bound b x ltac:(lia) X).
  rewrite len_cons in L. assert (b ^ len x <= b ^ len y) by (apply Z.pow_le_mono_r; lia). lia.
Qed.
Lemma be_val_canonical : forall b x y, 1 < b -> digits_ok b x -> digits_ok b y -> hd 1 x <> 0 -> hd 1 y <> 0 ->
  be_val b x = be_val b y -> x = y.
Proof.
  intros b x y B X Y HX HY E. apply (be_val_inj b); auto; [lia|].
  destruct (Z.lt_total (len x) (len y)) as [L|[L|L]].
  - pose proof (be_val_len_lt b x y B X Y HY L). lia.
  - unfold len in L. lia.
  - pose proof (be_val_len_lt b y x B Y X HX L). lia.
Qed.
(** The encoding is determined by the bytes. *)
Lemma base_text_unique : forall b al bs t1 t2, 1 < b -> base_text b al bs t1 -> base_text b al bs t2 -> t1 = t2.
Proof.
  intros b al bs t1 t2 B (z & r & d & E & H & D & HD & V & T) (z' & r' & d' & E' & H' & D' & HD' & V' & T').
  assert (Z : z = z' /\ r = r').
  { rewrite E in E'. clear - E' H H'. revert z' E'. induction z as [|z IH]; intros [|z'] E'; cbn [repeat app] in E'.
    - auto.
    - subst r. cbn in H. congruence.
    - subst r'. cbn in H'. congruence.
    - injection E' as E'. apply IH in E' as [-> ->]. auto. }
  destruct Z as [-> ->]. assert (d = d') by (apply (be_val_canonical b); auto; congruence). congruence.
Qed.

Section Dec.
Variable p : base_params.
Hypothesis OK : bp_ok p.
Notation base := (bp_base p).
Notation ch := (fun d : Z => char_at (bp_chars p) d).

Lemma valid_digits : forall s, ~ In 0 s -> valid_prefix (bp_chars p) s = s -> exists ds, digits_ok base ds /\ s = map ch ds.
Proof.
  induction s as [|c t IH]; intros NZ V.
  - exists []. split; [constructor|reflexivity].
  - cbn [valid_prefix] in V. destruct (strchr (bp_chars p) c) as [i|] eqn:S; [|discriminate].
    injection V as V. destruct (IH ltac:(intro; apply NZ; right; auto) V) as (ds & D & ->).
    unfold strchr in S. apply index_of_some in S as [R N]. rewrite len_app in R. cbn in R.
    pose proof (ok_len _ OK) as L. change (len [0]) with 1 in R. rewrite L in R.
    assert (i <> base).
    { intros ->. apply NZ. left. rewrite app_nth2 in N by (unfold len in L; lia).
      replace (Z.to_nat base - length (bp_chars p))%nat with O in N by (unfold len in L; lia). cbn in N. auto. }
    exists (i :: ds). split; [constructor; [lia|auto]|]. cbn [map]. f_equal.
    rewrite app_nth1 in N by (unfold len in L; lia). symmetry. exact N.
Qed.

Lemma decode_canonical : forall ds out l out', digits_ok base ds -> ds <> [] -> hd 1 ds <> 0 -> len ds < 2^40 -> fromBaseLength p (len ds) < 256 ->
  fromBase p (map ch ds) out = (l, out') -> l <> 0 ->
  exists bs, bytes_ok bs /\ hd 1 bs <> 0 /\ (len bs = l /\ l < 256) /\ out' = bs ++ zeros (length out - length bs) /\
    map ch ds = enc_text p bs.
Proof.
  intros ds out l out' D NE H L L256 E NZ. pose proof (ok_base _ OK) as HB.
  pose proof (len_nonneg _ ds) as LN. pose proof (ok_dnum _ OK) as DN. pose proof (ok_dden _ OK) as DD.
  unfold fromBase in E. rewrite (valid_prefix_ch p OK) in E by auto.
  rewrite (strip_map p OK) in E by auto.
  replace (count_while (fun d => d =? 0) ds) with O in E.
  2:{ destruct ds as [|d ds]; [congruence|]. cbn in H |- *. destruct (Z.eqb_spec d 0); [congruence|auto]. }
  change (Z.to_nat (u8 (Z.of_nat 0))) with O in E. cbn [skipn] in E.
  rewrite len_map in E. set (size := fromBaseLength p (len ds)) in *.
  assert (SZ : size = len ds * bp_dnum p / bp_dden p + 1).
  { unfold size, fromBaseLength. rewrite u64_id by nia. reflexivity. }
  assert (0 <= len ds * bp_dnum p / bp_dden p) by (apply Z.div_pos; nia).
  destruct (mul_loop_spec p OK ds (zeros (Z.to_nat size)) D (bytes_ok_zeros _)) as (ML & MB & MV).
  set (tmp := rev (mul_loop p (map ch ds) (zeros (Z.to_nat size)))) in *.
  assert (TL : length tmp = Z.to_nat size).
  { unfold tmp. rewrite rev_length, ML. unfold zeros. apply repeat_length. }
  assert (TB : bytes_ok tmp) by (apply bytes_ok_rev; auto).
  assert (TV : be_val 256 tmp = be_val base ds).
  { unfold tmp. rewrite <- le_val_be_val, MV, le_val_be_val.
    assert (rev (zeros (Z.to_nat size)) = zeros (Z.to_nat size)) as ->.
    { unfold zeros. generalize (Z.to_nat size). induction n; cbn; auto. rewrite IHn.
      clear. induction n; cbn; congruence. }
    rewrite be_val_zeros0. change (be_acc base 0 ds) with (be_val base ds). apply Z.mod_small.
    pose proof (be_val_bound base ds ltac:(lia) D). split; [lia|]. rewrite len_zeros, Z2Nat.id by lia.
    eapply Z.lt_le_trans; [apply H1|]. rewrite SZ. apply size_bound; try lia. apply OK. }
  change (count_while (fun b => b =? 0) tmp) with (zero_count tmp) in E.
  assert (ZL : (zero_count tmp <= length tmp)%nat) by apply count_while_le.
  assert (NT : tmp <> []). { intros Q. rewrite Q in TL. cbn in TL. lia. }
  assert (VP : 0 < be_val base ds).
  { destruct ds as [|d ds]; [congruence|]. cbn in H. pose proof (Forall_inv D) as Q. cbv beta in Q.
    pose proof (be_val_lower base d ds ltac:(lia) (Forall_inv_tail D) ltac:(lia)).
    assert (0 < base ^ len ds) by (apply Z.pow_pos_nonneg; [lia|apply len_nonneg]). lia. }
  rewrite u8_id in E by lia. rewrite Nat2Z.id in E.
  destruct (len out <? size - Z.of_nat (zero_count tmp)); injection E as <- <-; [congruence|].
  exists (skipn (zero_count tmp) tmp).
  assert (SB : bytes_ok (skipn (zero_count tmp) tmp)) by (apply bytes_ok_skipn; auto).
  assert (SV : be_val 256 (skipn (zero_count tmp) tmp) = be_val base ds).
  { rewrite <- TV. transitivity (be_val 256 (zeros (zero_count tmp) ++ skipn (zero_count tmp) tmp)).
    - rewrite be_val_zeros. reflexivity.
    - f_equal. symmetry. apply count_while_zeros. }
  assert (SH : hd 1 (skipn (zero_count tmp) tmp) <> 0) by apply (strip0_hd p tmp).
  assert (SL : len (skipn (zero_count tmp) tmp) = size - Z.of_nat (zero_count tmp)).
  { unfold len. rewrite skipn_length. lia. }
  split; auto. split; auto. split; [split; [auto|lia]|]. split; auto.
  assert (ZC : zero_count (skipn (zero_count tmp) tmp) = O).
  { unfold zero_count at 1. destruct (skipn (zero_count tmp) tmp) as [|x r]; auto. cbn in SH |- *.
    destruct (Z.eqb_spec x 0); congruence. }
  destruct (enc_digits_spec p OK (skipn (zero_count tmp) tmp) SB ltac:(lia)) as (A & B & C).
  unfold enc_text. rewrite ZC in *. cbn [repeat app skipn] in *. f_equal.
  apply (be_val_canonical base); auto; lia.
Qed.
End Dec.
