(** Text of transactions, scripts, scalars, Schnorr signatures and PSBT (C83). *)
From Coq Require Import Lia.
From Verif Require Import Base.Bytes Base.BytesFacts Model.Conversion Model.Stream Model.Keys Model.Script Model.Tx Model.Signature Model.PSBT Model.Text
  Spec.Codecs Spec.Wire Spec.Objects Spec.Keys Spec.PSBT Spec.StreamOps Spec.Text Proof.HexBin Proof.Base64 Proof.StreamTrace Proof.TextFacts
  Proof.KeyFacts Proof.IntVarint Proof.StreamFacts Proof.ScriptFacts Proof.IoProps Proof.SigProps Proof.TxParse Proof.TxProps Proof.PsbtEntries Proof.PsbtProps Proof.PsbtMore.
Open Scope Z_scope.

(** * Transactions *)
Lemma wire_tx_bytes : forall v, tx_ok v -> Forall wit_ok (s_ins v) -> 1 <= len (s_ins v) < 253 -> len (s_outs v) < 253 -> bytes_ok (wire_tx v).
Proof.
  intros v (V & L & FI & FO) W NI NO. pose proof (len_nonneg _ (s_outs v)).
  assert (CI : bytes_ok (wire_list wire_in (s_ins v))).
  { apply bytes_ok_app. split; [apply compact_size_ok; lia|]. apply flat_ok. eapply Forall_impl; [|exact FI]. intros; apply wire_in_ok; auto. }
  assert (CO : bytes_ok (wire_list wire_out (s_outs v))).
  { apply bytes_ok_app. split; [apply compact_size_ok; lia|]. apply flat_ok. eapply Forall_impl; [|exact FO]. intros; apply wire_out_ok; auto. }
  assert (CW : bytes_ok (flat_map (fun i => wire_witness (si_wit i)) (s_ins v))).
  { apply flat_ok. eapply Forall_impl; [|exact W]. intros i (N & B & LW). pose proof (len_nonneg _ (si_wit i)). apply bytes_ok_app. split; [apply compact_size_ok; lia|].
    apply flat_ok. rewrite Forall_forall in *. intros e I. apply wire_bytes_ok; [auto|]. pose proof (flat_len_in _ _ I). lia. }
  assert (C2 : bytes_ok [0; 1]) by (repeat constructor; unfold byte_ok; lia).
  unfold wire_tx, wire_segwit, wire_legacy. destruct (has_witness v); repeat first [assumption | apply le_bytes_ok | apply bytes_ok_app; split].
Qed.
Lemma tx_text_round : forall t v t0 n, tx_holds t v -> small_tx v -> len (wire_tx v) < 2^62 -> t_status t0 = DONE -> (length (wire_tx v) <= n)%nat ->
  to_string (tx_to_stream t) (tx_length t) = Ok (hex_string (wire_tx v)) /\
  exists t', text_parse tx_parse n t0 (hex_string (wire_tx v)) = Ok (t', tx_length t, []) /\ t_status t' = DONE /\ tx_holds t' v.
Proof.
  intros t v t0 n H SM L D N. destruct (tx_round_trip t v t0 [] H SM D) as (S & t' & P & DN & H').
  destruct (tx_slices t v H SM) as (_ & TL). rewrite TL in *.
  assert (B : bytes_ok (wire_tx v)).
  { destruct SM as (A1 & A2 & A3). apply wire_tx_bytes; auto; [eapply holds_ok; eauto|eapply holds_wit_ok; eauto]. }
  split.
  - apply to_string_hex; auto. rewrite <- S. f_equal. unfold len. lia.
  - exists t'. split; auto. rewrite (text_parse_ok _ _ _ _ _ (wire_tx v)); auto.
    + rewrite app_nil_r in P. auto.
    + apply hex_string_text; auto.
    + rewrite hex_string_len. lia.
Qed.
Lemma top_ones_range : forall j x, 1 <= j <= 4 -> 0 <= top_ones j x < 2^32.
Proof.
  intros j x J. unfold top_ones. assert (0 < 256 ^ (4 - j) <= 2^32) by (assert (j = 1 \/ j = 2 \/ j = 3 \/ j = 4) as [->|[->|[->| ->]]] by lia; vm_compute; split; congruence).
  pose proof (Z.mod_pos_bound x (256^(4-j)) ltac:(lia)). lia.
Qed.
Lemma low_byte : forall b q, 0 <= b < 256 -> (b + 256 * q) mod 256 = b /\ (b + 256 * q) / 256 = q.
Proof. intros. dlia. Qed.
Lemma le_bytes4 : forall b0 b1 b2 b3, 0 <= b0 < 256 -> 0 <= b1 < 256 -> 0 <= b2 < 256 -> 0 <= b3 < 256 ->
  le_bytes 4 (b0 + 256 * (b1 + 256 * (b2 + 256 * (b3 + 256 * 0)))) = [b0; b1; b2; b3].
Proof.
  intros b0 b1 b2 b3 H0 H1 H2 H3. cbn [le_bytes].
  repeat match goal with |- context [(?b + 256 * ?q) mod 256] => destruct (low_byte b q ltac:(assumption)) as [E1 E2]; rewrite E1, ?E2; clear E1 E2 end. reflexivity.
Qed.
Lemma top_ones_bytes : forall j x, 1 <= j <= 4 -> 0 <= x < 2^32 ->
  le_bytes 4 (top_ones j x) = firstn (4 - Z.to_nat j) (le_bytes 4 x) ++ repeat 255 (Z.to_nat j).
Proof.
  intros j x J X.
  assert (E : exists b0 b1 b2 b3, (0 <= b0 < 256) /\ (0 <= b1 < 256) /\ (0 <= b2 < 256) /\ (0 <= b3 < 256) /\ x = b0 + 256 * (b1 + 256 * (b2 + 256 * (b3 + 256 * 0)))).
  { exists (x mod 256), (x / 256 mod 256), (x / 256 / 256 mod 256), (x / 256 / 256 / 256). dlia. }
  destruct E as (b0 & b1 & b2 & b3 & H0 & H1 & H2 & H3 & E). rewrite E at 2. rewrite le_bytes4 by auto.
  assert (C : top_ones j x = match j with
    | 1 => b0 + 256 * (b1 + 256 * (b2 + 256 * (255 + 256 * 0))) | 2 => b0 + 256 * (b1 + 256 * (255 + 256 * (255 + 256 * 0)))
    | 3 => b0 + 256 * (255 + 256 * (255 + 256 * (255 + 256 * 0))) | _ => 255 + 256 * (255 + 256 * (255 + 256 * (255 + 256 * 0))) end).
  { unfold top_ones. assert (j = 1 \/ j = 2 \/ j = 3 \/ j = 4) as [->|[->|[->| ->]]] by lia.
    - change (256 ^ (4 - 1)) with 16777216. rewrite E. replace ((b0 + 256 * (b1 + 256 * (b2 + 256 * (b3 + 256 * 0)))) mod 16777216) with (b0 + 256 * (b1 + 256 * b2)); [lia|]. apply Zmod_unique with (q := b3); lia.
    - change (256 ^ (4 - 2)) with 65536. rewrite E. replace ((b0 + 256 * (b1 + 256 * (b2 + 256 * (b3 + 256 * 0)))) mod 65536) with (b0 + 256 * b1); [lia|]. apply Zmod_unique with (q := b2 + 256 * b3); lia.
    - change (256 ^ (4 - 3)) with 256. rewrite E. replace ((b0 + 256 * (b1 + 256 * (b2 + 256 * (b3 + 256 * 0)))) mod 256) with b0; [lia|]. apply Zmod_unique with (q := b1 + 256 * (b2 + 256 * b3)); lia.
    - change (256 ^ (4 - 4)) with 1. rewrite Z.mod_1_r. lia. }
  rewrite C. assert (j = 1 \/ j = 2 \/ j = 3 \/ j = 4) as [->|[->|[->| ->]]] by lia; rewrite le_bytes4 by (auto; lia); reflexivity.
Qed.
Lemma wire_tx_lock : forall v, exists w, forall l, wire_tx (with_lock v l) = w ++ le_bytes 4 l.
Proof.
  intros v. unfold wire_tx. change (has_witness (with_lock v 0)) with (has_witness v).
  destruct (has_witness v) eqn:E.
  - eexists. intros l. change (has_witness (with_lock v l)) with (has_witness v). rewrite E. unfold wire_segwit. cbn [with_lock s_version s_ins s_outs s_lock].
    rewrite !app_assoc. reflexivity.
  - eexists. intros l. change (has_witness (with_lock v l)) with (has_witness v). rewrite E. unfold wire_legacy. cbn [with_lock s_version s_ins s_outs s_lock].
    rewrite !app_assoc. reflexivity.
Qed.
Lemma with_lock_same : forall v, with_lock v (s_lock v) = v.
Proof. intros []. reflexivity. Qed.
Lemma tx_text_stuck : forall t v j x y rest n, t_status t = DONE -> tx_ok v -> Forall wit_ok (s_ins v) ->
  1 <= len (s_ins v) < 253 -> len (s_outs v) < 253 -> len (wire_tx v) < 2^60 -> 1 <= j <= 4 -> not_hex x y -> no_nul (x :: y :: rest) -> len rest < 2^60 ->
  (length (wire_tx v) <= n)%nat ->
  let text := hex_string (firstn (length (wire_tx v) - Z.to_nat j) (wire_tx v)) ++ x :: y :: rest in
  exists t' r, text_parse tx_parse n t text = Ok (t', len (wire_tx v), r) /\ t_status t' = DONE /\ tx_holds t' (with_lock v (top_ones j (s_lock v))).
Proof.
  intros t v j x y rest n D OK W NI NO L J NH NN LR N text.
  destruct (wire_tx_lock v) as (w & E).
  assert (E0 : wire_tx v = w ++ le_bytes 4 (s_lock v)) by (rewrite <- E, with_lock_same; auto).
  assert (B : bytes_ok (wire_tx v)) by (apply wire_tx_bytes; auto).
  assert (LK : 0 <= s_lock v < 2^32) by (destruct OK as (? & ? & _); auto).
  set (v' := with_lock v (top_ones j (s_lock v))).
  assert (L4 : forall z, length (le_bytes 4 z) = 4%nat) by (intros; reflexivity).
  assert (E1 : wire_tx v' = firstn (length (wire_tx v) - Z.to_nat j) (wire_tx v) ++ repeat 255 (Z.to_nat j)).
  { unfold v'. rewrite E, top_ones_bytes by auto. rewrite E0, app_length, L4, firstn_app.
    rewrite (firstn_all2 w) by lia. rewrite <- app_assoc. f_equal. f_equal. f_equal. lia. }
  set (bs := firstn (length (wire_tx v) - Z.to_nat j) (wire_tx v)) in *.
  assert (LV : length (wire_tx v) = (length w + 4)%nat) by (rewrite E0, app_length, L4; auto).
  assert (LB : length bs = (length (wire_tx v) - Z.to_nat j)%nat) by (unfold bs; rewrite firstn_length; lia).
  assert (BB : bytes_ok bs) by (apply firstn_bytes; auto).
  unfold text. rewrite (text_parse_stuck _ _ _ _ _ bs); auto; try (apply hex_string_text; auto); try (rewrite hex_string_len; auto).
  2:{ rewrite len_app, hex_string_len, !len_cons. unfold len in *. lia. }
  2: lia.
  replace (n - length bs)%nat with (Z.to_nat j + (n - length (wire_tx v)))%nat by lia.
  rewrite repeat_app, app_assoc, <- E1.
  assert (LE : len (wire_tx v') = len (wire_tx v)) by (rewrite E1; unfold len; rewrite app_length, repeat_length; lia).
  rewrite <- LE.
  destruct (tx_round t v' (repeat 255 (n - length (wire_tx v))) D) as (t' & P & DN & H'); auto.
  - destruct OK as (O1 & O2 & O3 & O4). split; [exact O1|]. split; [|split; [exact O3|exact O4]]. apply top_ones_range; auto.
  - eexists. eexists. split; [exact P|]. auto.
Qed.

(** * Scripts *)
Lemma script_text_stuck : forall s old bs k x y rest n, sc_status s = DONE -> script_holds s old -> bytes_ok bs -> len bs < 2^31 ->
  (k <= length bs)%nat -> not_hex x y -> no_nul (x :: y :: rest) -> len rest < 2^60 -> (length (wire_bytes bs) <= n)%nat ->
  let text := hex_string (compact_size (len bs) ++ firstn k bs) ++ x :: y :: rest in
  exists s' r, text_parse script_parse n s text = Ok (s', len (wire_bytes bs), r) /\ sc_status s' = DONE /\
    script_holds s' (firstn k bs ++ repeat 255 (length bs - k)).
Proof.
  intros s old bs k x y rest n D H B L K NH NN LR N text.
  set (bs' := firstn k bs ++ repeat 255 (length bs - k)).
  assert (LB : length bs' = length bs) by (unfold bs'; rewrite app_length, firstn_length, repeat_length; lia).
  assert (LZ : len bs' = len bs) by (unfold len; rewrite LB; auto).
  assert (BB : bytes_ok bs').
  { apply bytes_ok_app. split; [apply firstn_bytes; auto|]. apply Forall_forall. intros z I. apply repeat_spec in I as ->. unfold byte_ok. lia. }
  assert (WW : length (wire_bytes bs) = length (wire_bytes bs')) by (unfold wire_bytes; rewrite LZ, !app_length, LB; auto).
  assert (CB : bytes_ok (compact_size (len bs))) by (apply compact_size_ok; pose proof (len_nonneg _ bs); lia).
  set (p := compact_size (len bs) ++ firstn k bs) in *.
  assert (PB : bytes_ok p) by (apply bytes_ok_app; split; [auto|apply firstn_bytes; auto]).
  assert (E : wire_bytes bs' = p ++ repeat 255 (length bs - k)).
  { unfold wire_bytes, p. rewrite LZ. unfold bs'. rewrite app_assoc. reflexivity. }
  assert (LP : (length p + (length bs - k) = length (wire_bytes bs))%nat) by (rewrite WW, E, app_length, repeat_length; auto).
  assert (LC : (length (compact_size (len bs)) <= 9)%nat).
  { unfold compact_size. destruct (len bs <? 253), (len bs <? 2^16), (len bs <? 2^32); cbn; lia. }
  unfold text. rewrite (text_parse_stuck _ _ _ _ _ p); auto; try (apply hex_string_text; auto); try (rewrite hex_string_len; auto).
  2:{ rewrite len_app, hex_string_len, !len_cons. unfold p. rewrite len_app. unfold len in *. rewrite firstn_length. lia. }
  2: lia.
  replace (n - length p)%nat with ((length bs - k) + (n - length (wire_bytes bs)))%nat by lia.
  rewrite repeat_app, app_assoc, <- E.
  assert (LE : len (wire_bytes bs) = len (wire_bytes bs')) by (unfold len; rewrite WW; auto). rewrite LE.
  destruct (script_parse_back s old bs' (repeat 255 (n - length (wire_bytes bs))) D H BB ltac:(lia)) as (s' & P & DN & H').
  eexists. eexists. split; [exact P|]. auto.
Qed.

(** * Schnorr signatures *)
Lemma sch_text_stuck : forall g bs x y rest n, sn_status g = DONE -> bytes_ok bs -> (length bs < 64)%nat -> not_hex x y -> no_nul (x :: y :: rest) -> len rest < 2^60 -> (64 <= n)%nat ->
  exists g' r, text_parse sch_parse n g (hex_string bs ++ x :: y :: rest) = Ok (g', 64, r) /\ sn_status g' = DONE /\ sn_r g' ++ sn_s g' = bs ++ repeat 255 (64 - length bs).
Proof.
  intros g bs x y rest n D B L NH NN LR N.
  rewrite (text_parse_stuck _ _ _ _ _ bs); auto; try (apply hex_string_text; auto); try (rewrite hex_string_len; auto); try lia.
  2:{ rewrite len_app, hex_string_len, !len_cons. unfold len in *. lia. }
  set (f := bs ++ repeat 255 (64 - length bs)).
  assert (LF : length f = 64%nat) by (unfold f; rewrite app_length, repeat_length; lia).
  replace (n - length bs)%nat with ((64 - length bs) + (n - 64))%nat by lia. rewrite repeat_app, app_assoc. fold f.
  assert (P : forall z, sch_parse g (f ++ z) = Ok (mkSch (firstn 32 f) (skipn 32 f) DONE 64, 64, z)).
  { intros z. pose proof (sch_parses g (firstn 32 f) (skipn 32 f) z D ltac:(rewrite firstn_length; lia) ltac:(rewrite skipn_length; lia)) as P.
    rewrite app_assoc, firstn_skipn in P. exact P. }
  rewrite P. eexists. eexists. split; [reflexivity|]. split; [reflexivity|]. cbn [sn_r sn_s]. apply firstn_skipn.
Qed.

(** * Scalars *)
Lemma sc_text_stuck : forall k bs x y rest n, length (sc_num k) = 32%nat -> Keys.sc_status k = DONE -> bytes_ok bs -> (length bs < 32)%nat -> not_hex x y -> no_nul (x :: y :: rest) -> len rest < 2^60 -> (32 <= n)%nat ->
  text_parse sc_parse n k (hex_string bs ++ x :: y :: rest) = sc_parse k (bs ++ repeat 255 (32 - length bs) ++ repeat 255 (n - 32)).
Proof.
  intros k bs x y rest n LK D B L NH NN LR N.
  rewrite (text_parse_stuck _ _ _ _ _ bs); auto; try (apply hex_string_text; auto); try (rewrite hex_string_len; auto); try lia.
  2:{ rewrite len_app, hex_string_len, !len_cons. unfold len in *. lia. }
  rewrite <- repeat_app. do 3 f_equal. lia.
Qed.
Lemma be_val_last : forall l x, be_val 256 (l ++ [x]) = 256 * be_val 256 l + x.
Proof. intros l x. rewrite be_val_app. change (len [x]) with 1. change (be_val 256 [x]) with (0 * 256 + x). lia. Qed.
Lemma sc_text_accepts : forall k bs x y rest n, length (sc_num k) = 32%nat -> Keys.sc_status k = DONE -> bytes_ok bs -> (length bs < 32)%nat -> not_hex x y -> no_nul (x :: y :: rest) -> len rest < 2^60 -> (32 <= n)%nat ->
  exists k' r, text_parse sc_parse n k (hex_string bs ++ x :: y :: rest) = Ok (k', 32, r) /\ Keys.sc_status k' = DONE /\ length (sc_num k') = 32%nat /\
    be_val 256 (sc_num k') = be_val 256 (bs ++ repeat 255 (32 - length bs)) mod group_order.
Proof.
  intros k bs x y rest n LK D B L NH NN LR N. rewrite sc_text_stuck by auto. rewrite app_assoc.
  set (f := bs ++ repeat 255 (32 - length bs)).
  assert (LF : length f = 32%nat) by (unfold f; rewrite app_length, repeat_length; lia).
  assert (BF : bytes_ok f) by (apply bytes_ok_app; split; [auto|apply Forall_forall; intros z I; apply repeat_spec in I as ->; unfold byte_ok; lia]).
  assert (BV : forall l, bytes_ok l -> 0 <= be_val 256 l < 256 ^ len l) by (intros; apply be_val_bound; [lia|auto]).
  assert (V : 0 < be_val 256 f < 2^256).
  { split.
    - unfold f. replace (32 - length bs)%nat with ((31 - length bs) + 1)%nat by lia. rewrite repeat_app, app_assoc. cbn [repeat]. rewrite be_val_last.
      assert (BG : bytes_ok (bs ++ repeat 255 (31 - length bs))) by (apply bytes_ok_app; split; [auto|apply Forall_forall; intros z I; apply repeat_spec in I as ->; unfold byte_ok; lia]).
      pose proof (BV _ BG). lia.
    - pose proof (BV f BF) as Q. unfold len in Q. rewrite LF in Q. change (256 ^ Z.of_nat 32) with (2^256) in Q. lia. }
  assert (O : 2^255 < group_order < 2^256) by (split; reflexivity).
  destruct (Z.lt_ge_cases (be_val 256 f) group_order) as [S|S].
  - rewrite (sc_parses_small k f _ LK D LF BF S). eexists. eexists. split; [reflexivity|]. cbn [Keys.sc_status sc_num].
    destruct (Z.eqb_spec (be_val 256 f) 0); [lia|]. split; [reflexivity|]. split; [auto|]. symmetry. apply Z.mod_small. lia.
  - destruct (sc_parses_large k f (repeat 255 (n - 32)) LK D LF BF S) as (num & E & LN & _ & VN). rewrite E. eexists. eexists. split; [reflexivity|]. cbn [Keys.sc_status sc_num].
    split; [reflexivity|]. split; [auto|]. rewrite VN. apply Zmod_unique with (q := 1); lia.
Qed.
