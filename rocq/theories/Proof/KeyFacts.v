(** Scalars and the wallet import format. *)
From Coq Require Import Lia.
From Verif Require Import Base.Bytes Base.BytesFacts Model.Conversion Model.Stream Model.Networks Model.Keys
  Spec.Codecs Spec.StreamOps Spec.Wire Spec.Objects Spec.Keys
  Proof.StreamFacts Proof.Chunks Proof.IoProps Proof.BaseN Proof.BaseDec Proof.Base58 Proof.SigFacts Proof.SigProps.
Open Scope Z_scope.

(** * Scalars *)
Lemma order_value : secp_order = group_order.
Proof. vm_compute. reflexivity. Qed.
Lemma be_write_spec : forall n x, be_write n x = be_bytes n x.
Proof.
  unfold be_write, be_bytes. induction n as [|n IH]; intros x; [reflexivity|].
  cbn [le_bytes rev]. rewrite <- IH, seq_S, map_app. f_equal.
  - apply map_ext_in. intros i Hi. apply in_seq in Hi.
    replace (S n - 1 - i)%nat with (S (n - 1 - i)) by lia.
    rewrite Nat2Z.inj_succ, Z.pow_succ_r, Z.div_div by (try apply Z.pow_pos_nonneg; lia). reflexivity.
  - cbn [map]. replace (S n - 1 - (0 + n))%nat with O by lia. cbn. rewrite Z.div_1_r. reflexivity.
Qed.
Lemma reduce_num_spec : forall num, bytes_ok num -> length num = 32%nat ->
  reduce_num num = be_bytes 32 (be_val 256 num mod group_order).
Proof.
  intros num B L. unfold reduce_num.
  assert (V : bn_mod_order (be_val 256 num) = be_val 256 num mod group_order).
  { pose proof (be_val_bound 256 num ltac:(lia) (proj1 (bytes_digits num) B)) as R.
    unfold len in R. rewrite L in R. unfold bn_mod_order. rewrite order_value.
    destruct (Z.ltb_spec (be_val 256 num) group_order) as [H|H].
    - symmetry. apply Z.mod_small. lia.
    - apply Z.mod_unique with 1; [|lia]. left. split; [lia|].
      assert (256 ^ Z.of_nat 32 < 2 * group_order) by (vm_compute; reflexivity). lia. }
  rewrite V. apply be_write_spec.
Qed.

Definition sc_ok (k : scalar) : Prop := length (sc_num k) = 32%nat /\ (sc_status k = INCOMPLETE -> 0 <= sc_parsed k < 32).

Lemma sc_body_two : forall k a b, 0 <= sc_parsed k < 32 ->
  sc_parse_body k (a ++ b) =
  (let! x := sc_parse_body k a in
   let '(k1, n1, r1) := x in
   match sc_status k1 with
   | INCOMPLETE => let! y := sc_parse_body k1 b in let '(k2, n2, r2) := y in Ok (k2, n1 + n2, r2)
   | _ => Ok (k1, n1, r1 ++ b)
   end).
Proof.
  intros k a b P. unfold sc_parse_body. rewrite read_loop_o_app.
  destruct (read_loop_o 32 (sc_parsed k) _ (sc_num k) a) as [[[num pos] r]|] eqn:E; cbn [bind]; auto.
  apply read_loop_o_pos in E as (Q1 & Q2 & Q3 & Q4 & _).
  destruct (Z.eqb_spec pos 32) as [->|N].
  - assert (R : forall l, read_loop_o 32 32 (fun a0 p c => aset a0 p c) num l = Ok (num, 32, l)).
    { intros l. apply read_loop_o_stop. lia. }
    replace (match r with [] => _ | _ :: _ => _ end) with (Ok (num, 32, r ++ b)) by (destruct r; [rewrite R|]; reflexivity).
    cbn [bind]. destruct (list_eq_dec Z.eq_dec num (zeros 32)); reflexivity.
  - assert (r = []) as -> by (destruct Q4; [auto|lia]). cbn [sc_status sc_parsed sc_num bind].
    destruct (read_loop_o 32 pos _ num b) as [[[num2 pos2] r2]|]; cbn [bind]; [|reflexivity].
    destruct (pos2 =? 32); cbn [bind]; do 3 f_equal; lia.
Qed.
Lemma sc_two : forall k a b, sc_ok k -> a <> [] -> b <> [] -> bytes_ok a -> bytes_ok b ->
  sc_parse k (a ++ b) <> UB -> same_result sc_status (sc_parse k (a ++ b)) (chain sc_parse sc_status (sc_parse k a) b).
Proof.
  intros k a b OK _ _ _ _ D. left. unfold chain, sc_parse in *.
  assert (K : forall h, 0 <= sc_parsed h < 32 -> sc_parse_body h (a ++ b) = (let! x := sc_parse_body h a in
     let '(g1, n1, r1) := x in
     match sc_status g1 with
     | INCOMPLETE => let! y := sc_parse g1 b in let '(g2, n2, r2) := y in Ok (g2, n1 + n2, r2)
     | _ => Ok (g1, n1, r1 ++ b) end)).
  { intros h P. rewrite sc_body_two by auto. destruct (sc_parse_body h a) as [[[g1 n1] r1]|]; cbn [bind]; auto.
    destruct (sc_status g1) eqn:E; auto. unfold sc_parse. rewrite E. reflexivity. }
  destruct (sc_status k) eqn:E.
  - apply K. cbn. lia.
  - apply K. destruct OK as [_ OK]. auto.
  - cbn [bind]. rewrite E. reflexivity.
Qed.
Lemma sc_inc : forall k a k1 n1 r1, sc_ok k -> a <> [] -> bytes_ok a -> sc_parse k a = Ok (k1, n1, r1) ->
  sc_status k1 = INCOMPLETE -> r1 = [] /\ sc_ok k1.
Proof.
  intros k a k1 n1 r1 OK _ _ H S.
  assert (K : forall h, length (sc_num h) = 32%nat -> 0 <= sc_parsed h < 32 -> sc_parse_body h a = Ok (k1, n1, r1) -> r1 = [] /\ sc_ok k1).
  { intros h LN P E. unfold sc_parse_body in E.
    destruct (read_loop_o 32 (sc_parsed h) _ (sc_num h) a) as [[[num pos] r]|] eqn:F; cbn [bind] in E; [|discriminate].
    pose proof (fill_len 32 0 _ _ _ _ _ _ _ ltac:(intros; rewrite Z.sub_0_r; reflexivity) F) as FL.
    apply read_loop_o_pos in F as (Q1 & Q2 & Q3 & Q4 & _).
    destruct (Z.eqb_spec pos 32) as [->|N].
    - injection E as <- _ _. cbn [sc_status] in S. destruct (list_eq_dec _ _ _); discriminate.
    - injection E as <- _ <-. split; [destruct Q4; [auto|lia]|]. split; cbn [sc_num sc_status sc_parsed]; [congruence|intros _; lia]. }
  unfold sc_parse in H. destruct OK as [LN OK]. destruct (sc_status k) eqn:E.
  - apply K in H; auto. cbn. lia.
  - apply K in H; auto.
  - injection H as <- _ _. congruence.
Qed.
Lemma sc_chunks : forall k, length (sc_num k) = 32%nat -> sc_status k <> INCOMPLETE -> chunk_invariant sc_parse sc_status k.
Proof.
  intros k L H chunks NE F D. eapply (feed_same sc_parse sc_status sc_ok); eauto using sc_two, sc_inc.
  split; auto. congruence.
Qed.
Lemma sc_slices : forall k, length (sc_num k) = 32%nat -> gives_slices (sc_to_stream k) (sc_num k).
Proof.
  intros k L. apply serializes_slices.
  apply (writes_serializes _ (write_loop 32 0 32 (sc_num k))); [|reflexivity].
  apply writes_loop_all; [unfold len|]; lia.
Qed.
(** A whole scalar in one piece. *)
Lemma sc_parses : forall k num rest, length (sc_num k) = 32%nat -> sc_status k = DONE -> length num = 32%nat -> bytes_ok num ->
  sc_parse k (num ++ rest) =
  Ok (mkSc (be_bytes 32 (be_val 256 num mod group_order)) (if be_val 256 num =? 0 then FAILED else DONE) 32, 32, rest).
Proof.
  intros k num rest LK SK LN B. unfold sc_parse. rewrite SK. unfold sc_parse_body. cbn [sc_parsed sc_num].
  change (sc_num k) with ([] ++ sc_num k).
  rewrite (fill_loop 0 32) by (intros; rewrite ?Z.sub_0_r; auto; rewrite ?len_nil; unfold len; lia).
  replace (Nat.min _ _) with (length num) by (rewrite !app_length; lia).
  rewrite firstn_app_len, skipn_app_len by auto. rewrite (skipn_all2 (sc_num k)) by lia.
  cbn [app bind]. rewrite app_nil_r, LN. change (0 + Z.of_nat 32 =? 32) with true. cbv iota.
  rewrite reduce_num_spec by auto. change (0 + Z.of_nat 32) with 32. change (32 - 0) with 32. do 4 f_equal.
  destruct (list_eq_dec Z.eq_dec num (zeros 32)) as [->|N].
  - rewrite be_val_zeros0. reflexivity.
  - destruct (Z.eqb_spec (be_val 256 num) 0) as [E|E]; auto. exfalso. apply N.
    apply (be_val_inj 256); [lia|apply bytes_digits; auto|apply bytes_digits, bytes_ok_zeros|exact LN|].
    rewrite be_val_zeros0. auto.
Qed.

(** * WIF *)
Section Wif.
Variable dsha : list Z -> list Z.
Hypothesis dsha_len : forall m, length (dsha m) = 32%nat.
Hypothesis dsha_ok : forall m, bytes_ok (dsha m).

Definition first_net (net : network) : network := if n_wif net =? 128 then Mainnet else Testnet.
Lemma first_net_spec : forall net, In net networks ->
  net_of_wif (n_wif net) = Some (first_net net) /\ n_wif (first_net net) = n_wif net /\ In (first_net net) networks /\
  byte_ok (n_wif net) /\ n_wif net <> 0.
Proof.
  intros net H. cbn [networks In] in H. unfold byte_ok.
  destruct H as [<-|[<-|[<-|[<-|[]]]]]; (split; [reflexivity|]); (split; [reflexivity|]);
    (split; [cbn; auto|]); cbn; lia.
Qed.
Lemma wif_accepts : forall net num flag text k0, In net networks -> length num = 32%nat -> bytes_ok num ->
  bytes_ok flag -> (length flag <= 1)%nat ->
  wif_text dsha (n_wif net) num flag text ->
  fromWIF dsha k0 text = (1, mkPk num (first_net net) (0 <? nth 0 flag 0)).
Proof.
  intros net num flag text k0 IN LN BN BF LF T.
  destruct (first_net_spec net IN) as (N1 & N2 & N3 & N4 & N5).
  set (payload := n_wif net :: num ++ flag) in *.
  assert (BP : bytes_ok payload).
  { unfold payload. constructor; auto. apply bytes_ok_app; auto. }
  assert (LP : len payload = 33 + len flag).
  { unfold payload. rewrite len_cons, len_app. unfold len at 1. rewrite LN. lia. }
  assert (LF' : 0 <= len flag <= 1) by (unfold len; lia).
  pose proof (base58check_roundtrip_nozero dsha dsha_len dsha_ok payload (zeros 40) BP ltac:(lia) N5 ltac:(rewrite len_zeros; lia)) as R.
  assert (text = text58check dsha payload) as ->.
  { apply (base_text_unique 58 base58_alphabet (payload ++ firstn 4 (dsha payload))); [lia|exact T|].
    apply (enc_text_spec p58 p58_ok); [apply (with_check_ok dsha dsha_ok); auto|].
    change (payload ++ firstn 4 (dsha payload)) with (with_check dsha payload). rewrite (with_check_len dsha dsha_len). lia. }
  unfold fromWIF. rewrite R.
  destruct (Z.ltb_spec (len payload) 33); [lia|]. destruct (Z.ltb_spec 34 (len payload)); [lia|]. cbn [orb].
  unfold payload at 1. cbn [app nth]. rewrite N1. f_equal. f_equal.
  - unfold payload. cbn [app skipn]. rewrite <- !app_assoc. rewrite <- LN at 1. apply firstn_app_len. auto.
  - destruct flag as [|f flag].
    + change (len []) with 0 in LP. rewrite LP. reflexivity.
    + destruct flag; [|cbn in LF; lia]. change (len [f]) with 1 in LP. rewrite LP. change (33 + 1 =? 34) with true. cbn [andb].
      unfold payload. cbn [app nth]. rewrite <- !app_assoc. rewrite app_nth2 by lia. rewrite LN.
      change (32 - 32)%nat with O. reflexivity.
Qed.
Lemma wif_writes : forall k out, In (pk_net k) networks -> length (pk_num k) = 32%nat -> bytes_ok (pk_num k) -> 53 <= len out ->
  exists text, wif dsha k out = (len text, text ++ zeros (length out - length text)) /\
    wif_text dsha (n_wif (pk_net k)) (pk_num k) (if pk_compressed k then [1] else []) text.
Proof.
  intros k out IN LN BN LO. destruct (first_net_spec _ IN) as (_ & _ & _ & N4 & N5).
  unfold wif. set (payload := wif_payload k) in *.
  assert (BP : bytes_ok payload).
  { unfold payload, wif_payload. constructor; auto. apply bytes_ok_app; split; auto.
    destruct (pk_compressed k); [|constructor]. constructor; [unfold byte_ok; lia|constructor]. }
  assert (LP : 33 <= len payload <= 34).
  { unfold payload, wif_payload. rewrite len_cons, len_app. unfold len at 1 3. rewrite LN. destruct (pk_compressed k); cbn; lia. }
  exists (text58check dsha payload). split.
  - assert (TL : toBaseLength p58 (with_check dsha payload) <= 53).
    { unfold toBaseLength, enc_size. rewrite (with_check_len dsha dsha_len).
      replace (zero_count (with_check dsha payload)) with O.
      2:{ unfold payload, wif_payload, with_check, zero_count. cbn [app count_while].
          destruct (Z.eqb_spec (n_wif (pk_net k)) 0); [congruence|reflexivity]. }
      assert (len payload = 33 \/ len payload = 34) as [->| ->] by lia; vm_compute; congruence. }
    rewrite (toBase58Check_spec dsha dsha_len dsha_ok) by (auto; try lia; rewrite len_zeros; unfold len in LO; lia).
    unfold zeros at 2. rewrite repeat_length. reflexivity.
  - unfold wif_text. change (n_wif (pk_net k) :: pk_num k ++ (if pk_compressed k then [1] else [])) with payload. cbv zeta.
    apply (enc_text_spec p58 p58_ok); [apply (with_check_ok dsha dsha_ok); auto|].
    change (payload ++ firstn 4 (dsha payload)) with (with_check dsha payload). rewrite (with_check_len dsha dsha_len). lia.
Qed.
Lemma wif_roundtrip : forall k out, In (pk_net k) networks -> length (pk_num k) = 32%nat -> bytes_ok (pk_num k) -> 53 <= len out ->
  exists text net', wif dsha k out = (len text, text ++ zeros (length out - length text)) /\
    wif_text dsha (n_wif (pk_net k)) (pk_num k) (if pk_compressed k then [1] else []) text /\
    In net' networks /\ n_wif net' = n_wif (pk_net k) /\
    forall k0, fromWIF dsha k0 text = (1, mkPk (pk_num k) net' (pk_compressed k)).
Proof.
  intros k out IN LN BN LO. destruct (wif_writes k out IN LN BN LO) as (text & W & T).
  destruct (first_net_spec _ IN) as (N1 & N2 & N3 & N4 & N5).
  exists text, (first_net (pk_net k)). split; auto. split; auto. split; auto. split; auto.
  intros k0. rewrite (wif_accepts (pk_net k) (pk_num k) _ text k0) with (6 := T); auto.
  - destruct (pk_compressed k); reflexivity.
  - destruct (pk_compressed k); [|constructor]. constructor; [unfold byte_ok; lia|constructor].
  - destruct (pk_compressed k); cbn; lia.
Qed.
Lemma wif_exists : forall v num flag, byte_ok v -> bytes_ok num -> bytes_ok flag -> len num + len flag < 2^30 ->
  exists text, wif_text dsha v num flag text.
Proof.
  intros v num flag V BN BF L. exists (text58check dsha (v :: num ++ flag)).
  unfold wif_text. cbv zeta.
  assert (B : bytes_ok (v :: num ++ flag)) by (constructor; [auto|apply bytes_ok_app; auto]).
  apply (enc_text_spec p58 p58_ok); [apply (with_check_ok dsha dsha_ok (v :: num ++ flag)); auto|].
  change ((v :: num ++ flag) ++ firstn 4 (dsha (v :: num ++ flag))) with (with_check dsha (v :: num ++ flag)).
  rewrite (with_check_len dsha dsha_len), len_cons, len_app. lia.
Qed.
(** Any flag byte is accepted; only 1 is ever written. *)
Lemma wif_flag_refuted : forall net num f, In net networks -> length num = 32%nat -> bytes_ok num -> 1 < f < 256 ->
  exists text, (forall k0, fst (fromWIF dsha k0 text) = 1 /\ pk_num (snd (fromWIF dsha k0 text)) = num) /\
    forall k out, In (pk_net k) networks -> length (pk_num k) = 32%nat -> bytes_ok (pk_num k) -> 53 <= len out ->
      wif dsha k out <> (len text, text ++ zeros (length out - length text)).
Proof.
  intros net num f IN LN BN F. destruct (first_net_spec _ IN) as (_ & _ & _ & N4 & N5).
  assert (BF : bytes_ok [f]) by (constructor; [unfold byte_ok; lia|constructor]).
  destruct (wif_exists (n_wif net) num [f] N4 BN BF) as (text & T).
  { unfold len. rewrite LN. cbn. lia. }
  exists text. split.
  - intros k0. rewrite (wif_accepts net num [f] text k0); auto.
  - intros k out INk LNk BNk LO E. destruct (wif_writes k out INk LNk BNk LO) as (text' & W & T').
    rewrite W in E. injection E as E1 E2.
    assert (text' = text).
    { unfold len in E1. apply (f_equal (firstn (length text))) in E2. rewrite firstn_app_len in E2 by lia.
      rewrite firstn_app_len in E2 by lia. auto. }
    subst text'. destruct (first_net_spec _ INk) as (_ & _ & _ & M4 & M5).
    assert (P : forall v num flag, byte_ok v -> v <> 0 -> length num = 32%nat -> bytes_ok num -> bytes_ok flag ->
        (length flag <= 1)%nat -> wif_text dsha v num flag text ->
        exists t, fromBase58Check dsha text (zeros 40) = (33 + len flag, (v :: num ++ flag) ++ t)).
    { clear - dsha_len dsha_ok. intros v num flag V NZ LN BN BF LF T. set (payload := v :: num ++ flag) in *.
      assert (BP : bytes_ok payload) by (constructor; [auto|apply bytes_ok_app; auto]).
      assert (LP : len payload = 33 + len flag).
      { unfold payload. rewrite len_cons, len_app. unfold len at 1. rewrite LN. lia. }
      assert (LF' : 0 <= len flag <= 1) by (unfold len; lia).
      pose proof (base58check_roundtrip_nozero dsha dsha_len dsha_ok payload (zeros 40) BP ltac:(lia) NZ ltac:(rewrite len_zeros; lia)) as R.
      assert (text = text58check dsha payload) as ->.
      { apply (base_text_unique 58 base58_alphabet (payload ++ firstn 4 (dsha payload))); [lia|exact T|].
        apply (enc_text_spec p58 p58_ok); [apply (with_check_ok dsha dsha_ok); auto|].
        change (payload ++ firstn 4 (dsha payload)) with (with_check dsha payload). rewrite (with_check_len dsha dsha_len). lia. }
      rewrite R, LP. eauto. }
    destruct (P _ _ _ N4 N5 LN BN BF ltac:(cbn; lia) T) as (t1 & P1).
    destruct (P _ _ (if pk_compressed k then [1] else []) M4 M5 LNk BNk) as (t2 & P2); auto.
    { destruct (pk_compressed k); [|constructor]. constructor; [unfold byte_ok; lia|constructor]. }
    { destruct (pk_compressed k); cbn; lia. }
    rewrite P1 in P2. apply pair_equal_spec in P2 as [L2 E3].
    destruct (pk_compressed k); [|cbn in L2; lia].
    apply (f_equal (fun l => nth 33 l 0)) in E3. cbn [app nth] in E3. rewrite <- !app_assoc in E3.
    rewrite (app_nth2 num) in E3 by lia. rewrite (app_nth2 (pk_num k)) in E3 by lia. rewrite LN, LNk in E3. cbn in E3. lia.
Qed.
(** Out of range secrets are accepted. *)
Lemma wif_range_refuted : forall net num, In net networks -> length num = 32%nat -> bytes_ok num ->
  exists text, forall k0, exists net' c, fromWIF dsha k0 text = (1, mkPk num net' c).
Proof.
  intros net num IN LN BN. destruct (first_net_spec _ IN) as (_ & _ & _ & N4 & N5).
  destruct (wif_exists (n_wif net) num [] N4 BN) as (text & T); [constructor|unfold len; rewrite LN; cbn; lia|].
  exists text. intros k0. rewrite (wif_accepts net num [] text k0); auto; [eauto|constructor].
Qed.

(** A string of base 58 characters that does not start with the zero digit and passes the
    checksum test is the Base58Check encoding of the payload returned. *)
Lemma base58check_canonical : forall s out l out', fromBase58Check dsha s out = (l, out') -> l <> 0 ->
  Forall (fun c => In c base58_alphabet) s -> hd 0 s <> nth 0 base58_alphabet 0 -> len s <= 300 ->
  exists payload, len payload = l /\ bytes_ok payload /\ out' = payload ++ skipn (Z.to_nat l) out /\
    base_text 58 base58_alphabet (payload ++ firstn 4 (dsha payload)) s.
Proof.
  intros s out l out' D L0 AL H1 LS.
  assert (NS : s <> []).
  { intros ->. unfold fromBase58Check in D. generalize dependent (out ++ zeros 4). intros o D.
    change (fromBase58 [] o) with (if len o <? 0 then (0, zeros (length o)) else (0, [] ++ zeros (length o - 0))) in D.
    destruct (len o <? 0); cbn [Z.ltb Z.compare] in D; injection D as <- _; congruence. }
  destruct (valid_digits p58 p58_ok s) as (ds & DS & ->).
  { intros I. rewrite Forall_forall in AL. apply AL in I. revert I. clear. intros I.
    assert (Q : existsb (Z.eqb 0) base58_alphabet = true) by (apply existsb_exists; exists 0; auto).
    vm_compute in Q. discriminate. }
  { clear - AL. induction AL as [|c t C _ IH]; [reflexivity|]. cbn [valid_prefix].
    destruct (strchr (bp_chars p58) c) eqn:S; [f_equal; auto|]. exfalso.
    unfold strchr in S. apply index_of_none in S. apply S. apply in_or_app. left. exact C. }
  assert (ND : ds <> []) by (intros ->; apply NS; reflexivity).
  assert (HD : hd 1 ds <> 0).
  { destruct ds as [|d ds]; [congruence|]. cbn. intros ->. apply H1. reflexivity. }
  rewrite len_map in LS.
  unfold fromBase58Check in D. unfold fromBase58 in D.
  destruct (fromBase p58 (map (fun d => char_at (bp_chars p58) d) ds) (out ++ zeros 4)) as [n arr] eqn:F.
  destruct (Z.ltb_spec n 4); [injection D as <- _; lia|].
  destruct (decode_canonical p58 p58_ok ds (out ++ zeros 4) n arr DS ND HD ltac:(lia)) as (bs & BB & HB & [LB LB2] & -> & T); auto; try lia.
  { unfold fromBaseLength. cbn [p58 bp_dnum bp_dden]. pose proof (len_nonneg _ ds). rewrite u64_id by lia.
    assert (LD : len ds * 361 / 493 <= 220) by (apply Z.div_le_upper_bound; lia). lia. }
  destruct (list_eq_dec _ _ _) as [Q|Q]; [|injection D as <- _; lia].
  injection D as <- <-.
  assert (LP : exists pl ck, bs = pl ++ ck /\ length pl = Z.to_nat (n - 4) /\ length ck = 4%nat).
  { exists (firstn (Z.to_nat (n - 4)) bs), (skipn (Z.to_nat (n - 4)) bs). unfold len in LB.
    rewrite firstn_skipn, firstn_length, skipn_length. repeat split; lia. }
  destruct LP as (pl & ck & -> & LPL & LCK).
  rewrite <- !app_assoc in Q.
  rewrite !firstn_app_len, skipn_app_len, firstn_app_len in Q by auto.
  exists pl. apply bytes_ok_app in BB as [BP BC]. rewrite <- !app_assoc, firstn_app_len by auto.
  split; [unfold len; lia|]. split; auto. split; auto.
  rewrite <- Q. rewrite T. apply (enc_text_spec p58 p58_ok); [apply bytes_ok_app; auto|].
  lia.
Qed.
(** What is accepted is Base58Check of a version byte, a secret and at most one flag byte. *)
Lemma wif_sound : forall k s k', fromWIF dsha k s = (1, k') -> Forall (fun c => In c base58_alphabet) s ->
  hd 0 s <> nth 0 base58_alphabet 0 -> len s <= 300 ->
  exists flag, wif_text dsha (n_wif (pk_net k')) (pk_num k') flag s /\ In (pk_net k') networks /\
    length (pk_num k') = 32%nat /\ bytes_ok (pk_num k') /\
    (flag = [] /\ pk_compressed k' = false \/
     exists f, flag = [f] /\ byte_ok f /\ pk_compressed k' = (0 <? f)).
Proof.
  intros k s k' E AL H1 LS. unfold fromWIF in E.
  destruct (fromBase58Check dsha s (zeros 40)) as [l arr] eqn:D.
  destruct (Z.ltb_spec l 33); [cbn [orb] in E; discriminate|].
  destruct (Z.ltb_spec 34 l); [cbn [orb] in E; discriminate|]. cbn [orb] in E.
  apply base58check_canonical in D as (pl & LPL & BP & -> & TXT); auto; [|lia].
  unfold len in LPL.
  destruct pl as [|v pl]; [cbn in LPL; lia|]. cbn [app nth skipn] in E.
  destruct (net_of_wif v) as [net|] eqn:NV; [|discriminate].
  unfold net_of_wif in NV. apply find_some in NV as [NI NV]. apply Z.eqb_eq in NV. subst v.
  apply pair_equal_spec in E as [_ <-]. cbn [pk_net pk_num pk_compressed].
  cbn [length] in LPL. pose proof (Forall_inv_tail BP) as BP'.
  assert (l = 33 \/ l = 34) as [N|N] by lia; rewrite N in *.
  - assert (L32 : length pl = 32%nat) by lia. rewrite <- L32. rewrite firstn_app_len by auto.
    exists []. unfold wif_text. rewrite app_nil_r. rewrite L32. change (33 =? 34) with false. cbn [andb]. auto 10.
  - assert (exists num f, pl = num ++ [f] /\ length num = 32%nat) as (num & f & -> & L32).
    { exists (firstn 32 pl), (nth 32 pl 0). split.
      - rewrite <- (firstn_skipn 32 pl) at 1. f_equal.
        assert (length (skipn 32 pl) = 1%nat) by (rewrite skipn_length; lia).
        rewrite <- (firstn_skipn 32 pl) at 2. rewrite app_nth2 by (rewrite firstn_length; lia).
        rewrite firstn_length. replace (32 - Nat.min 32 (length pl))%nat with O by lia.
        destruct (skipn 32 pl) as [|x [|]]; cbn in *; try lia. reflexivity.
      - rewrite firstn_length. lia. }
    rewrite <- !app_assoc. rewrite firstn_app_len by auto. apply bytes_ok_app in BP' as [BN BF].
    exists [f]. split; [exact TXT|]. split; auto. split; auto. split; auto. right. exists f.
    split; auto. split; [apply (Forall_inv BF)|]. change (34 =? 34) with true. cbn [andb].
    rewrite app_nth2 by lia. rewrite L32. reflexivity.
Qed.
End Wif.
Lemma wif_regtest : forall dsha, (forall m, length (dsha m) = 32%nat) -> (forall m, bytes_ok (dsha m)) ->
  forall num c out k0, length num = 32%nat -> bytes_ok num -> 53 <= len out ->
  let '(l, t) := wif dsha (mkPk num Regtest c) out in
  fromWIF dsha k0 (firstn (Z.to_nat l) t) = (1, mkPk num Testnet c) /\ n_bech32 Testnet <> n_bech32 Regtest.
Proof.
  intros dsha DL DO num c out k0 LN BN LO.
  assert (IN : In Regtest networks) by (cbn; auto).
  destruct (wif_writes dsha DL DO (mkPk num Regtest c) out IN LN BN LO) as (text & W & T).
  rewrite W. unfold len. rewrite Nat2Z.id, firstn_app_len by auto. split; [|vm_compute; congruence].
  cbn [pk_net pk_num pk_compressed] in T.
  rewrite (wif_accepts dsha DL DO Regtest num _ text k0) with (6 := T); auto.
  - destruct c; reflexivity.
  - destruct c; [|constructor]. constructor; [unfold byte_ok; lia|constructor].
  - destruct c; cbn; lia.
Qed.
Lemma be_bytes_of_val : forall num, bytes_ok num -> be_bytes (length num) (be_val 256 num) = num.
Proof.
  intros num B. destruct (be_bytes_spec (length num) (be_val 256 num)) as (A & C & D).
  pose proof (be_val_bound 256 num ltac:(lia) (proj1 (bytes_digits num) B)) as R.
  apply (be_val_inj 256); [lia|apply bytes_digits; auto|apply bytes_digits; auto|auto|apply D; unfold len in R; auto].
Qed.
Lemma sc_parses_small : forall k num rest, length (sc_num k) = 32%nat -> sc_status k = DONE ->
  length num = 32%nat -> bytes_ok num -> be_val 256 num < group_order ->
  sc_parse k (num ++ rest) =
  Ok (mkSc num (if be_val 256 num =? 0 then FAILED else DONE) 32, 32, rest).
Proof.
  intros k num rest LK SK LN B R. rewrite sc_parses by auto.
  pose proof (be_val_bound 256 num ltac:(lia) (proj1 (bytes_digits num) B)).
  rewrite Z.mod_small by lia. rewrite <- LN at 1. rewrite be_bytes_of_val by auto. reflexivity.
Qed.
Lemma sc_parses_large : forall k num rest, length (sc_num k) = 32%nat -> sc_status k = DONE ->
  length num = 32%nat -> bytes_ok num -> group_order <= be_val 256 num ->
  exists num', sc_parse k (num ++ rest) = Ok (mkSc num' DONE 32, 32, rest) /\ length num' = 32%nat /\ bytes_ok num' /\
    be_val 256 num' = be_val 256 num - group_order.
Proof.
  intros k num rest LK SK LN B R. rewrite sc_parses by auto.
  pose proof (be_val_bound 256 num ltac:(lia) (proj1 (bytes_digits num) B)) as U. unfold len in U. rewrite LN in U.
  assert (256 ^ Z.of_nat 32 < 2 * group_order) by (vm_compute; reflexivity).
  assert (0 < group_order) by (vm_compute; reflexivity).
  replace (be_val 256 num mod group_order) with (be_val 256 num - group_order)
    by (apply Z.mod_unique with 1; [left; lia|lia]).
  destruct (Z.eqb_spec (be_val 256 num) 0); [lia|].
  destruct (be_bytes_spec 32 (be_val 256 num - group_order)) as (A & C & D).
  eexists. split; [reflexivity|]. split; auto. split; auto. apply D. lia.
Qed.
