(** ECPoint in pieces, alone and with another one in between. *)
From Coq Require Import Lia.
From Verif Require Import Base.Bytes Base.BytesFacts Spec.Codecs Spec.Wire Spec.Objects Spec.Bignum Spec.Point Model.Bignum Model.Scalar Model.Stream Model.Point
  Proof.StreamFacts Proof.IoProps Proof.Chunks Proof.IntVarint Proof.KeyFacts Proof.SigProps Proof.BipBits Proof.PointFacts Proof.PointProps.
Open Scope Z_scope.

(** * One point *)
Definition pt_ok (st : ecpoint * Z) : Prop := length (pt_xy (fst st)) = 64%nat /\
  (pt_status (fst st) = INCOMPLETE -> 0 < pt_parsed (fst st) < pt_length (pt_comp (fst st))).
Lemma data_two : forall g xy c first start pos a b, pos < pt_length c ->
  pt_data g xy c first start pos (a ++ b) =
  (let! x := pt_data g xy c first start pos a in
   let '(st1, n1, r1) := x in
   match pt_state_status st1 with
   | INCOMPLETE => let! y := pt_data g (pt_xy (fst st1)) c first (pt_parsed (fst st1)) (pt_parsed (fst st1)) b in
                   let '(st2, n2, r2) := y in Ok (st2, n1 + n2, r2)
   | _ => Ok (st1, n1, r1 ++ b)
   end).
Proof.
  intros g xy c first start pos a b HP. unfold pt_data at 1 2. rewrite read_loop_o_app.
  destruct (read_loop_o (pt_length c) pos _ xy a) as [[[xy1 p1] r]|] eqn:E; [|reflexivity].
  rewrite !bind_Ok. cbv beta iota. apply read_loop_o_pos in E as (Q1 & Q2 & Q3 & Q4 & _).
  destruct (Z.eqb_spec p1 (pt_length c)) as [->|N].
  - assert (R : forall l, read_loop_o (pt_length c) (pt_length c) (fun a0 p c0 => aset a0 (p - 1) c0) xy1 l = Ok (xy1, pt_length c, l)).
    { intros l. apply read_loop_o_stop. lia. }
    replace (match r with [] => _ | _ :: _ => _ end) with (@Ok (list Z * Z * list Z) (xy1, pt_length c, r ++ b)) by (destruct r; [rewrite R|]; reflexivity).
    rewrite bind_Ok. cbv beta iota. rewrite Z.eqb_refl.
    destruct (if c then uncompress_pubkey (first :: firstn 32 xy1) g else Ok xy1) as [xy2|]; [|reflexivity]. rewrite !bind_Ok. cbv beta.
    destruct (pt_is_valid (mkPt xy2 c DONE start)) as [ok|]; [|reflexivity]. rewrite !bind_Ok. cbv beta.
    unfold pt_state_status. cbn [fst pt_status]. destruct ok; reflexivity.
  - assert (r = []) as -> by (destruct Q4; [auto|lia]). rewrite bind_Ok. cbv beta iota. unfold pt_state_status. cbn [fst pt_status pt_xy pt_parsed].
    unfold pt_data. destruct (read_loop_o (pt_length c) p1 _ xy1 b) as [[[xy2 p2] r2]|]; [|reflexivity]. rewrite !bind_Ok. cbv beta iota.
    destruct (p2 =? pt_length c).
    + destruct (if c then uncompress_pubkey (first :: firstn 32 xy2) g else Ok xy2) as [xy3|]; [|reflexivity]. rewrite !bind_Ok. cbv beta.
      replace (pt_is_valid (mkPt xy3 c DONE p1)) with (pt_is_valid (mkPt xy3 c DONE start)) by reflexivity.
      destruct (pt_is_valid (mkPt xy3 c DONE start)) as [ok|]; [|reflexivity]. rewrite !bind_Ok. cbv beta iota.
      apply (f_equal (@Ok _)). f_equal. f_equal. lia.
    + rewrite bind_Ok. apply (f_equal (@Ok _)). f_equal. f_equal. lia.
Qed.
(** What one call with at least one byte leaves. *)
Lemma data_result : forall g xy c first start pos s st1 n1 r1, length xy = 64%nat -> 1 <= pos <= pt_length c ->
  pt_data g xy c first start pos s = Ok (st1, n1, r1) ->
  pt_state_status st1 = INCOMPLETE -> r1 = [] /\ snd st1 = first /\ pt_comp (fst st1) = c /\ length (pt_xy (fst st1)) = 64%nat /\
    pos <= pt_parsed (fst st1) < pt_length c.
Proof.
  intros g xy c first start pos s st1 n1 r1 L HP E S. unfold pt_data in E.
  destruct (read_loop_o (pt_length c) pos _ xy s) as [[[xy1 p1] r]|] eqn:F; [|discriminate]. rewrite bind_Ok in E. cbv beta iota in E.
  pose proof (fill_len (pt_length c) 1 _ _ _ _ _ _ _ ltac:(intros; reflexivity) F) as FL.
  apply read_loop_o_pos in F as (Q1 & Q2 & Q3 & Q4 & _).
  destruct (Z.eqb_spec p1 (pt_length c)) as [->|N].
  - exfalso. destruct (if c then uncompress_pubkey (first :: firstn 32 xy1) g else Ok xy1) as [xy2|]; [|discriminate]. rewrite bind_Ok in E. cbv beta in E.
    destruct (pt_is_valid (mkPt xy2 c DONE start)) as [ok|]; [|discriminate]. rewrite bind_Ok in E. cbv beta in E.
    injection E as <- _ _. unfold pt_state_status in S. cbn [fst pt_status] in S. destruct ok; discriminate.
  - injection E as <- _ <-. cbn [fst snd pt_comp pt_xy pt_parsed]. split; [destruct Q4; [auto|lia]|]. repeat split; auto; lia.
Qed.
Lemma pt_two : forall g s a b, pt_ok s -> a <> [] -> b <> [] -> bytes_ok a -> bytes_ok b ->
  pt_parse g s (a ++ b) <> UB -> same_result pt_state_status (pt_parse g s (a ++ b)) (chain (pt_parse g) pt_state_status (pt_parse g s a) b).
Proof.
  intros g [k fb] a b [L OK] NA NB _ _ _. left. cbn [fst] in *. unfold chain.
  assert (K : forall xy c first start pos a', length xy = 64%nat -> 1 <= pos < pt_length c ->
    pt_data g xy c first start pos (a' ++ b) = (let! x := pt_data g xy c first start pos a' in
     let '(st1, n1, r1) := x in
     match pt_state_status st1 with
     | INCOMPLETE => let! y := pt_parse g st1 b in let '(st2, n2, r2) := y in Ok (st2, n1 + n2, r2)
     | _ => Ok (st1, n1, r1 ++ b) end)).
  { intros xy c first start pos a' LX P. rewrite data_two by lia.
    destruct (pt_data g xy c first start pos a') as [[[[k1 f1] n1] r1]|] eqn:E; [|reflexivity]. rewrite !bind_Ok. cbv beta iota.
    destruct (pt_state_status (k1, f1)) eqn:S; auto.
    destruct (data_result g xy c first start pos a' (k1, f1) n1 r1 LX ltac:(lia) E S) as (_ & E1 & E2 & E3 & E4). cbn [fst snd] in *. subst f1 c.
    unfold pt_state_status in S. cbn [fst] in S. unfold pt_parse. rewrite S. destruct (Z.ltb_spec 0 (pt_parsed k1)); [reflexivity|lia]. }
  unfold pt_parse at 1 2. destruct (pt_status k) eqn:S.
  - change (0 <? 0) with false. cbv iota beta zeta. destruct a as [|c t]; [congruence|]. cbn [app].
    destruct ((c <? 2) || (4 <? c)) eqn:R.
    + rewrite bind_Ok. unfold pt_state_status. cbn [fst pt_status]. reflexivity.
    + apply K; auto. rewrite length_data. destruct (negb (c =? 4)); cbn [data_len]; lia.
  - specialize (OK eq_refl). cbv zeta. destruct (Z.ltb_spec 0 (pt_parsed k)); [|lia]. apply K; auto. lia.
  - rewrite bind_Ok. unfold pt_state_status. cbn [fst]. rewrite S. reflexivity.
Qed.
Lemma pt_inc : forall g s a s1 n1 r1, pt_ok s -> a <> [] -> bytes_ok a -> pt_parse g s a = Ok (s1, n1, r1) ->
  pt_state_status s1 = INCOMPLETE -> r1 = [] /\ pt_ok s1.
Proof.
  intros g [k fb] a s1 n1 r1 [L OK] NA _ E SI. cbn [fst] in *.
  assert (K : forall xy c first start pos a', length xy = 64%nat -> 1 <= pos < pt_length c -> pt_data g xy c first start pos a' = Ok (s1, n1, r1) -> r1 = [] /\ pt_ok s1).
  { intros xy c first start pos a' LX P E'. destruct (data_result g xy c first start pos a' s1 n1 r1 LX ltac:(lia) E' SI) as (E0 & _ & E2 & E3 & E4).
    split; auto. split; auto. intros _. rewrite E2. lia. }
  unfold pt_parse in E. destruct (pt_status k) eqn:S.
  - change (0 <? 0) with false in E. cbv iota beta zeta in E. destruct a as [|c t]; [congruence|]. destruct ((c <? 2) || (4 <? c)).
    + injection E as <- _ _. discriminate.
    + apply K in E; auto. rewrite length_data. destruct (negb (c =? 4)); cbn [data_len]; lia.
  - specialize (OK eq_refl). cbv zeta in E. destruct (Z.ltb_spec 0 (pt_parsed k)); [|lia]. apply K in E; auto. lia.
  - injection E as <- _ _. unfold pt_state_status in SI. cbn [fst] in SI. congruence.
Qed.
Lemma pt_chunks : forall g k fb, pt_ready k -> chunk_invariant (pt_parse g) pt_state_status (k, fb).
Proof.
  intros g k fb (SD & L & Hb) chunks NE F D. eapply (feed_same (pt_parse g) pt_state_status pt_ok); eauto using pt_two, pt_inc.
  split; auto. cbn [fst]. congruence.
Qed.

(** * Two points *)
(** The state after the bytes [l] of an encoding. *)
Definition part (k : ecpoint) (c : bool) (x y : Z) (l : list Z) : ecpoint :=
  match l with
  | [] => k
  | _ :: d => if (length l <? sec_len c)%nat then mkPt (d ++ skipn (length d) (pt_xy k)) c INCOMPLETE (1 + len d)
              else mkPt (coords x y) c DONE (pt_length c)
  end.
Lemma app_cancel : forall (l ch r e : list Z), (l ++ ch) ++ r = e -> length (l ++ ch) = length e -> r = [] /\ l ++ ch = e.
Proof.
  intros l ch r e E L. assert (r = []). { apply (f_equal (@length Z)) in E. rewrite app_length in E. destruct r; auto. cbn [length] in E. lia. }
  subst. rewrite app_nil_r in *. auto.
Qed.
Lemma part_step : forall g k c x y l ch r v, pt_ready k -> on_curve x y -> (l ++ ch) ++ r = sec_bytes c x y -> ch <> [] ->
  l = [] \/ v = hd 0 (sec_bytes c x y) ->
  exists n, pt_parse g (part k c x y l, v) ch = Ok ((part k c x y (l ++ ch), hd 0 (sec_bytes c x y)), n, []).
Proof.
  intros g k c x y l ch r v HR O E NC HV. pose proof HR as (SD & L & Hb). destruct (sec_head c x y) as [H1 H2].
  pose proof (sec_ok c x y) as HB. rewrite sec_cons in HB. apply Forall_inv_tail in HB.
  (* the pieces without the first byte *)
  assert (LS : sec_len c = S (data_len c)) by (destruct c; reflexivity).
  assert (FULL : forall pre arr d start, length (pre ++ arr) = 64%nat -> bytes_ok (pre ++ arr) -> pre ++ d = @List.tl Z (sec_bytes c x y) ->
    pt_data g (pre ++ arr) c (hd 0 (sec_bytes c x y)) start (1 + len pre) d =
    Ok ((mkPt (coords x y) c DONE (pt_length c), hd 0 (sec_bytes c x y)), pt_length c - start, [])).
  { intros pre arr d start LX BX ED. assert (LD : (length pre + length d = data_len c)%nat) by (rewrite <- app_length, ED; apply sec_tl).
    rewrite <- (app_nil_r d) at 1. rewrite data_full by auto. apply end_curve; auto.
    - rewrite app_assoc. apply bytes_ok_app. split; [rewrite ED; auto|]. apply bytes_ok_skipn. apply bytes_ok_app in BX. apply BX.
    - rewrite !app_length, skipn_length. rewrite app_length in LX. destruct c; cbn [data_len] in *; lia.
    - rewrite app_assoc, firstn_app_len by (rewrite app_length; lia). rewrite ED. apply sec_cons. }
  destruct l as [|b pre].
  - cbn [part app] in *. destruct ch as [|b d]; [congruence|]. rewrite sec_cons in E. cbn [app] in E. injection E as Eb Ed. rewrite Eb.
    rewrite parse_first, H2 by auto. cbn [part]. destruct (Nat.ltb_spec (length (hd 0 (sec_bytes c x y) :: d)) (sec_len c)) as [LT|GE].
    + cbn [length] in LT. rewrite data_short by (auto; cbn [length]; lia). cbn [app]. eexists. reflexivity.
    + destruct (app_cancel [] d r (@List.tl Z (sec_bytes c x y)) Ed) as [-> Ed'].
      { cbn [app length] in *. apply (f_equal (@length Z)) in Ed. rewrite app_length, sec_tl in Ed. rewrite sec_tl. lia. }
      rewrite FULL; auto. eexists. reflexivity.
  - destruct HV as [HV|HV]; [discriminate|]. subst v. rewrite sec_cons in E. cbn [app] in E. injection E as Eb Ed. rewrite Eb in *. clear Eb b.
    assert (LT : (length (hd 0%Z (sec_bytes c x y) :: pre) < sec_len c)%nat).
    { apply (f_equal (@length Z)) in Ed. rewrite !app_length, sec_tl in Ed. cbn [length]. destruct ch; [congruence|]. cbn [length] in Ed. lia. }
    cbn [part app]. destruct (Nat.ltb_spec (length (hd 0 (sec_bytes c x y) :: pre)) (sec_len c)) as [_|X]; [|lia].
    unfold pt_parse. cbn [pt_status pt_parsed pt_xy pt_comp]. cbv zeta. destruct (Z.ltb_spec 0 (1 + len pre)) as [_|X]; [|unfold len in X; lia].
    assert (LX : length (pre ++ skipn (length pre) (pt_xy k)) = 64%nat).
    { rewrite app_length, skipn_length. cbn [length] in LT. destruct c; cbn [sec_len] in LT; lia. }
    destruct (Nat.ltb_spec (length (hd 0 (sec_bytes c x y) :: pre ++ ch)) (sec_len c)) as [LT2|GE2].
    + cbn [length] in LT2. rewrite app_length in LT2. rewrite data_short by (auto; lia). eexists.
      apply (f_equal (@Ok _)). f_equal. f_equal. f_equal. f_equal. rewrite <- app_assoc. do 2 f_equal. rewrite skipn_add, app_length. reflexivity.
    + destruct (app_cancel pre ch r (@List.tl Z (sec_bytes c x y)) Ed) as [-> Ed'].
      { cbn [length] in GE2. apply (f_equal (@length Z)) in Ed. rewrite app_length, sec_tl in Ed. rewrite sec_tl. lia. }
      rewrite FULL; auto; [eexists; reflexivity|]. apply bytes_ok_app. split; [|apply bytes_ok_skipn; auto].
      rewrite <- Ed' in HB. apply bytes_ok_app in HB. apply HB.
Qed.
(** With equal first bytes the order of the chunks does not matter. *)
Lemma two_same : forall g ka kb ca xa ya cb xb yb, pt_ready ka -> pt_ready kb -> on_curve xa ya -> on_curve xb yb ->
  hd 0 (sec_bytes ca xa ya) = hd 0 (sec_bytes cb xb yb) ->
  forall sched la lb v, Forall (fun s => snd s <> []) sched ->
  la ++ concat (chunks_for false sched) = sec_bytes ca xa ya -> lb ++ concat (chunks_for true sched) = sec_bytes cb xb yb ->
  la = [] \/ v = hd 0 (sec_bytes ca xa ya) -> lb = [] \/ v = hd 0 (sec_bytes cb xb yb) ->
  run_two (pt_parse g) sched (part ka ca xa ya la) (part kb cb xb yb lb) v =
  Ok (mkPt (coords xa ya) ca DONE (pt_length ca), mkPt (coords xb yb) cb DONE (pt_length cb)).
Proof.
  intros g ka kb ca xa ya cb xb yb Ha Hb Oa Ob EH. induction sched as [|[w ch] t IH]; intros la lb v F EA EB VA VB.
  - cbn [run_two chunks_for filter map concat] in *. rewrite app_nil_r in *. subst la lb.
    assert (Q : forall k c x y, part k c x y (sec_bytes c x y) = mkPt (coords x y) c DONE (pt_length c)).
    { intros k c x y. rewrite sec_cons. unfold part. rewrite <- sec_cons, sec_bytes_len, Nat.ltb_irrefl. reflexivity. }
    rewrite !Q. reflexivity.
  - inversion F as [|? ? F1 F2]; subst. cbn [snd] in F1. unfold chunks_for in *. cbn [filter map fst snd run_two] in *. destruct w; cbn [Bool.eqb map concat snd] in *.
    + rewrite app_assoc in EB. destruct (part_step g kb cb xb yb lb ch _ v Hb Ob EB F1 VB) as (n & S). rewrite S, bind_Ok. cbv beta iota.
      apply IH; auto.
    + rewrite app_assoc in EA. destruct (part_step g ka ca xa ya la ch _ v Ha Oa EA F1 VA) as (n & S). rewrite S, bind_Ok. cbv beta iota.
      apply IH; auto.
Qed.
(** A first byte from the other point is used for the missing coordinate ... *)
Lemma part_other : forall k x y y' b b' d, (length d < 32)%nat -> part k true x y (b :: d) = part k true x y' (b' :: d).
Proof.
  intros k x y y' b b' d H. unfold part. cbn [length sec_len]. destruct (Nat.ltb_spec (S (length d)) 33); [reflexivity|lia].
Qed.
Lemma firstn_S : forall (b : Z) d i, firstn (S i) (b :: d) = b :: firstn i d.
Proof. reflexivity. Qed.
Lemma two_wrong : forall g ka kb xa ya xb yb v i, pt_ready ka -> pt_ready kb -> on_curve xa ya -> on_curve xb yb ->
  ya mod 2 <> yb mod 2 -> (0 < i < 33)%nat ->
  let ea := sec_bytes true xa ya in
  run_two (pt_parse g) [(false, firstn i ea); (true, sec_bytes true xb yb); (false, skipn i ea)] ka kb v =
    if ya =? 0 then run_two (pt_parse g) [(false, firstn i ea); (true, sec_bytes true xb yb); (false, skipn i ea)] ka kb v
    else Ok (mkPt (coords xa (P - ya)) true DONE 33, mkPt (coords xb yb) true DONE 33).
Proof.
  intros g ka kb xa ya xb yb v i Ha Hb Oa Ob Hp Hi ea. destruct (Z.eqb_spec ya 0) as [Z0|Z0]; [reflexivity|].
  assert (On : on_curve xa (P - ya)) by (apply on_curve_neg; auto).
  assert (Hn : (P - ya) mod 2 = yb mod 2) by (pose proof P_odd; clear - H Hp; dlia).
  destruct i as [|i]; [lia|].
  assert (EA : ea = (2 + ya mod 2) :: be_bytes 32 xa) by reflexivity.
  assert (LB : length (be_bytes 32 xa) = 32%nat) by apply be_bytes_length.
  destruct (part_step g ka true xa ya [] (firstn (S i) ea) (skipn (S i) ea) v Ha Oa) as (n1 & S1).
  { cbn [app]. apply firstn_skipn. } { rewrite EA. discriminate. } { left. reflexivity. }
  cbn [run_two]. change (part ka true xa ya []) with ka in S1. rewrite S1, bind_Ok. cbv beta iota. cbn [app].
  pose proof (pt_whole g kb (hd 0 (sec_bytes true xa ya)) true xb yb [] Hb Ob) as S2. rewrite app_nil_r in S2. rewrite S2, bind_Ok. cbv beta iota.
  rewrite EA, firstn_S. rewrite (part_other ka xa ya (P - ya) _ (2 + (P - ya) mod 2)) by (rewrite firstn_length; lia).
  destruct (part_step g ka true xa (P - ya) ((2 + (P - ya) mod 2) :: firstn i (be_bytes 32 xa)) (skipn i (be_bytes 32 xa)) [] (hd 0 (sec_bytes true xb yb)) Ha On) as (n3 & S3).
  { rewrite app_nil_r. cbn [app sec_bytes]. f_equal. apply firstn_skipn. }
  { intros E. apply (f_equal (@length Z)) in E. rewrite skipn_length, LB in E. cbn [length] in E. lia. }
  { right. cbn [sec_bytes hd]. rewrite Hn. reflexivity. }
  cbn [skipn]. rewrite S3, bind_Ok. cbv beta iota. cbn [app]. rewrite firstn_skipn. unfold part. cbn [length]. rewrite LB. reflexivity.
Qed.
(** ... and one of an uncompressed point sends the reader past the end of its buffer. *)
Lemma read_short : forall xs, length xs = 32%nat -> read_pubkey (4 :: xs) = UB.
Proof.
  intros xs L. unfold read_pubkey. change (aget (4 :: xs) 0) with (@Ok Z 4). rewrite bind_Ok. cbv beta. change (4 =? 4) with true. cbv iota.
  rewrite slice_ok, bind_Ok by (cbn [length]; lia). cbv beta. unfold slice. cbn [length]. rewrite L. reflexivity.
Qed.
Lemma two_ub : forall g ka kb xa ya xb yb v i, pt_ready ka -> pt_ready kb -> on_curve xa ya -> on_curve xb yb -> (0 < i < 33)%nat ->
  let ea := sec_bytes true xa ya in
  run_two (pt_parse g) [(false, firstn i ea); (true, sec_bytes false xb yb); (false, skipn i ea)] ka kb v = UB.
Proof.
  intros g ka kb xa ya xb yb v i Ha Hb Oa Ob Hi ea. destruct i as [|i]; [lia|].
  assert (EA : ea = (2 + ya mod 2) :: be_bytes 32 xa) by reflexivity.
  assert (LB : length (be_bytes 32 xa) = 32%nat) by apply be_bytes_length.
  destruct (part_step g ka true xa ya [] (firstn (S i) ea) (skipn (S i) ea) v Ha Oa) as (n1 & S1).
  { cbn [app]. apply firstn_skipn. } { rewrite EA. discriminate. } { left. reflexivity. }
  cbn [run_two]. change (part ka true xa ya []) with ka in S1. rewrite S1, bind_Ok. cbv beta iota. cbn [app].
  pose proof (pt_whole g kb (hd 0 (sec_bytes true xa ya)) false xb yb [] Hb Ob) as S2. rewrite app_nil_r in S2. rewrite S2, bind_Ok. cbv beta iota.
  rewrite EA, firstn_S. unfold part. assert (LF : length (firstn i (be_bytes 32 xa)) = i) by (rewrite firstn_length; lia). cbn [length]. rewrite LF.
  destruct (Nat.ltb_spec (S i) (sec_len true)) as [_|X]; [|cbn [sec_len] in X; lia]. cbn [skipn sec_bytes hd].
  unfold pt_parse. cbn [pt_status pt_parsed pt_xy pt_comp]. cbv zeta. destruct (Z.ltb_spec 0 (1 + len (firstn i (be_bytes 32 xa)))) as [_|X]; [|unfold len in X; lia].
  destruct Ha as (_ & L & _). rewrite <- (app_nil_r (skipn i (be_bytes 32 xa))).
  rewrite data_full; [|rewrite app_length, skipn_length, LF; lia|rewrite LF, skipn_length, LB; cbn [data_len]; lia].
  unfold pt_end. rewrite app_assoc, firstn_skipn, firstn_app_len by (rewrite LB; reflexivity).
  unfold uncompress_pubkey. rewrite read_short by auto. reflexivity.
Qed.

(** * Statements *)
Lemma two_points_same : forall g ka kb ca xa ya cb xb yb sched v, pt_ready ka -> pt_ready kb -> on_curve xa ya -> on_curve xb yb ->
  hd 0 (sec_bytes ca xa ya) = hd 0 (sec_bytes cb xb yb) -> Forall (fun s => snd s <> []) sched ->
  concat (chunks_for false sched) = sec_bytes ca xa ya -> concat (chunks_for true sched) = sec_bytes cb xb yb ->
  run_two (pt_parse g) sched ka kb v = Ok (mkPt (coords xa ya) ca DONE (pt_length ca), mkPt (coords xb yb) cb DONE (pt_length cb)).
Proof.
  intros g ka kb ca xa ya cb xb yb sched v Ha Hb Oa Ob EH F EA EB.
  apply (two_same g ka kb ca xa ya cb xb yb Ha Hb Oa Ob EH sched [] [] v F EA EB); left; reflexivity.
Qed.
Lemma two_points_wrong : forall g ka kb xa ya xb yb v i, pt_ready ka -> pt_ready kb -> on_curve xa ya -> on_curve xb yb ->
  ya <> 0 -> ya mod 2 <> yb mod 2 -> (0 < i < 33)%nat ->
  run_two (pt_parse g) [(false, firstn i (sec_bytes true xa ya)); (true, sec_bytes true xb yb); (false, skipn i (sec_bytes true xa ya))] ka kb v =
    Ok (mkPt (coords xa (P - ya)) true DONE 33, mkPt (coords xb yb) true DONE 33) /\
  coords xa (P - ya) <> coords xa ya.
Proof.
  intros g ka kb xa ya xb yb v i Ha Hb Oa Ob Z0 Hp Hi. split.
  - pose proof (two_wrong g ka kb xa ya xb yb v i Ha Hb Oa Ob Hp Hi) as T. cbv zeta in T. rewrite T. destruct (Z.eqb_spec ya 0); [congruence|reflexivity].
  - intros E. destruct Oa as (_ & Hy & _). unfold coords in E. apply app_inj_len in E as [_ E]; [|rewrite !be_bytes_length; reflexivity].
    apply (f_equal (be_val 256)) in E. rewrite !be_round in E by lia. pose proof P_odd. clear - E H. dlia.
Qed.
(** Parsing in one piece accepts the encodings of points. *)
Lemma not_x_not_valid : forall g, (forall y, ~ on_curve (xpart g) y) -> ~ valid_spec g true.
Proof. intros g H (y & O & _). exact (H y O). Qed.
Definition is_encoding (s : list Z) : Prop := exists c x y rest, on_curve x y /\ s = sec_bytes c x y ++ rest.
Lemma accepts_exact : forall g k fb s, pt_ready k -> bytes_ok s -> bytes_ok g -> length g = 64%nat ->
  (forall y, ~ on_curve (xpart g) y) \/ nth 0 s 0 = 4 ->
  exists k' fb' n rest, pt_parse g (k, fb) s = Ok ((k', fb'), n, rest) /\ (pt_status k' = DONE <-> is_encoding s) /\
   (pt_status k' = DONE -> exists x y, on_curve x y /\ pt_xy k' = coords x y /\ s = sec_bytes (pt_comp k') x y ++ rest).
Proof.
  intros g k fb s HR Bs Hg Lg Q. destruct (pt_any g k fb s HR Bs Hg Lg) as (k' & fb' & n & rest & E & _ & _ & C).
  exists k', fb', n, rest. split; auto. destruct C as [(SD & x & y & O & X & ES)|[(SN & N)|(C1 & X & SV & S23 & _ & N)]].
  - split; [|intros _; eauto]. split; auto. intros _. exists (pt_comp k'), x, y, rest. auto.
  - split; [|intros; congruence]. split; [congruence|]. intros (c & x & y & r & O & ES). exfalso. exact (N c x y r O ES).
  - destruct Q as [Q|Q]; [|destruct S23; lia]. split.
    + split; [intros D; apply SV in D; destruct (not_x_not_valid g Q D)|]. intros (c & x & y & r & O & ES). exfalso. exact (N c x y r O ES).
    + intros D. apply SV in D. destruct (not_x_not_valid g Q D).
Qed.
Lemma accepts_garbage : forall k fb b xs gx gy, pt_ready k -> b = 2 \/ b = 3 -> bytes_ok xs -> length xs = 32%nat ->
  (forall y, ~ on_curve (be_val 256 xs) y) -> on_curve gx gy ->
  exists n, pt_parse (coords gx gy) (k, fb) (b :: xs) = Ok ((mkPt (coords gx gy) true DONE 33, b), n, []).
Proof.
  intros k fb b xs gx gy (SD & L & Hb) B2 Bx Lx N O. rewrite parse_first by (auto; lia).
  replace (negb (b =? 4)) with true by (destruct B2 as [->| ->]; reflexivity).
  rewrite <- (app_nil_r xs). rewrite data_full by (auto; cbn [length data_len]; lia). cbn [app]. unfold pt_end. rewrite firstn_app_len by auto.
  destruct (uncompress_33 b xs (coords gx gy) B2 Bx Lx) as [(y & O' & _)|[_ U]]; [destruct (N y O')|].
  rewrite U, bind_Ok. cbv beta. destruct (is_valid_ok (coords gx gy) true 0 (coords_ok gx gy) (coords_len gx gy)) as (ok & V & Hv). rewrite V, bind_Ok. cbv beta.
  assert (ok = true) as -> by (apply Hv, valid_coords; auto). eexists. reflexivity.
Qed.
Lemma valid_exact : forall x y c n, 0 <= x < 2^256 -> 0 <= y < 2^256 ->
  exists b, pt_is_valid (mkPt (coords x y) c DONE n) = Ok b /\
    (b = true <-> if c then exists y', on_curve x y' /\ y' mod 2 = y mod 2 else on_curve x y).
Proof.
  intros x y c n Hx Hy. destruct (is_valid_ok (coords x y) c n (coords_ok x y) (coords_len x y)) as (b & V & Hv). exists b. split; auto.
  assert (R : forall z, 0 <= z < 2^256 -> be_val 256 (be_bytes 32 z) = z).
  { intros z Hz. rewrite be_val_be_bytes. apply Z.mod_small. exact Hz. }
  rewrite Hv. unfold valid_spec, xpart, ypart, coords. rewrite firstn_app_len, skipn_app_len, !R by (auto; rewrite be_bytes_length; reflexivity).
  rewrite app_nth2; rewrite be_bytes_length; [|lia]. change (63 - 32)%nat with 31%nat. rewrite be_last.
  replace ((y mod 256) mod 2) with (y mod 2) by (clear; dlia). reflexivity.
Qed.
Lemma valid_wrong : forall x y y' n, on_curve x y -> 0 <= y' < 2^256 -> y' mod 2 = y mod 2 -> y' <> y ->
  pt_is_valid (mkPt (coords x y') true DONE n) = Ok true /\ ~ on_curve x y'.
Proof.
  intros x y y' n O Hy Hp NE. pose proof P_range. destruct (valid_exact x y' true n) as (b & V & Hv); auto; [destruct O; lia|]. split.
  - rewrite V. f_equal. apply Hv. eauto.
  - intros O'. apply NE. symmetry. apply (curve_unique x); auto.
Qed.
Lemma pt_slices_coords : forall k x y, pt_xy k = coords x y -> gives_slices (pt_to_stream k) (sec_bytes (pt_comp k) x y).
Proof. intros k x y E. rewrite <- pt_bytes_coords, <- E. apply pt_slices. rewrite E. apply coords_len. Qed.
