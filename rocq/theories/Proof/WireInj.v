(** Wire forms determine what they encode. *)
From Coq Require Import Lia.
From Verif Require Import Base.Bytes Base.BytesFacts Spec.Codecs Spec.Wire Spec.Objects Spec.Sighash Proof.IntVarint Proof.StreamFacts Proof.WitnessFacts Proof.TxHash.
Open Scope Z_scope.

Definition pfree {X Y} (P : X -> Prop) (wire : X -> list Z) (key : X -> Y) : Prop :=
  forall x y r r', P x -> P y -> wire x ++ r = wire y ++ r' -> key x = key y /\ r = r'.

Lemma app_same : forall {A} (a b r r' : list A), length a = length b -> a ++ r = b ++ r' -> a = b /\ r = r'.
Proof.
  intros A a. induction a as [|x a IH]; intros [|y b] r r' L E; cbn in *; try discriminate; auto.
  injection E as -> E. destruct (IH b r r') as (-> & ->); auto.
Qed.
Lemma le_inj : forall n x y, 0 <= x < 256 ^ Z.of_nat n -> 0 <= y < 256 ^ Z.of_nat n -> le_bytes n x = le_bytes n y -> x = y.
Proof.
  intros n x y X Y E. rewrite <- (Z.mod_small x (256 ^ Z.of_nat n)), <- (Z.mod_small y (256 ^ Z.of_nat n)) by auto.
  now rewrite <- !le_val_le_bytes, E.
Qed.
Lemma le_pfree : forall n, pfree (fun x => 0 <= x < 256 ^ Z.of_nat n) (le_bytes n) (fun x => x).
Proof.
  intros n x y r r' X Y E. apply app_same in E as (E & ->); [|now rewrite !le_bytes_length].
  split; auto. apply le_inj in E; auto.
Qed.
Lemma le4_pfree : forall x y r r', 0 <= x < 2^32 -> 0 <= y < 2^32 -> le_bytes 4 x ++ r = le_bytes 4 y ++ r' -> x = y /\ r = r'.
Proof. intros x y r r' X Y. apply (le_pfree 4); auto. Qed.
Lemma le8_pfree : forall x y r r', 0 <= x < 2^64 -> 0 <= y < 2^64 -> le_bytes 8 x ++ r = le_bytes 8 y ++ r' -> x = y /\ r = r'.
Proof. intros x y r r' X Y. apply (le_pfree 8); auto. Qed.
Lemma size_pfree : forall x y r r', 0 <= x < 2^64 -> 0 <= y < 2^64 -> compact_size x ++ r = compact_size y ++ r' -> x = y /\ r = r'.
Proof.
  intros x y r r' X Y E. exact (compact_size_prefix_free x y r r' X Y E).
Qed.
Lemma bytes_pfree : pfree (fun bs => len bs < 2^64) wire_bytes (fun bs => bs).
Proof.
  intros a b r r' A B E. unfold wire_bytes in E. rewrite <- !app_assoc in E. pose proof (len_nonneg _ a). pose proof (len_nonneg _ b).
  apply size_pfree in E as (E1 & E2); try lia. apply app_same in E2; auto. unfold len in E1. lia.
Qed.
(** Everything in an input except its witness. *)
Definition in_key (i : s_txin) := (si_prev i, si_vout i, si_sig i, si_seq i).
Lemma in_pfree : pfree in_ok wire_in in_key.
Proof.
  intros a b r r' (A1 & A2 & A3 & A4 & A5 & A6 & _) (B1 & B2 & B3 & B4 & B5 & B6 & _) E. unfold wire_in in E. rewrite <- !app_assoc in E.
  apply app_same in E as (E1 & E); [|lia]. apply le4_pfree in E as (E2 & E); auto.
  apply bytes_pfree in E as (E3 & E); try lia. apply le4_pfree in E as (E4 & E); auto.
  unfold in_key. rewrite E1, E2, E3, E4. auto.
Qed.
Lemma out_pfree : pfree out_ok wire_out (fun o => o).
Proof.
  intros a b r r' (A1 & A2 & A3) (B1 & B2 & B3) E. unfold wire_out in E. rewrite <- !app_assoc in E.
  apply le8_pfree in E as (E2 & E); auto. apply bytes_pfree in E as (E3 & E); try lia.
  destruct a, b; cbn in *. subst. auto.
Qed.
Lemma flat_pfree : forall {X Y} (P : X -> Prop) wire (key : X -> Y) l m r r', pfree P wire key ->
  Forall P l -> Forall P m -> length l = length m -> flat_map wire l ++ r = flat_map wire m ++ r' -> map key l = map key m /\ r = r'.
Proof.
  intros X Y P wire key l m r r' PF FL. revert m. induction FL as [|x l Px FL IH]; intros [|y m] FM L E; cbn in *; try discriminate; auto.
  inversion FM; subst. rewrite <- !app_assoc in E. apply PF in E as (K & E); auto.
  destruct (IH m) as (K2 & ->); auto. rewrite K, K2. auto.
Qed.
Lemma list_pfree : forall {X Y} (P : X -> Prop) wire (key : X -> Y) l m r r', pfree P wire key ->
  Forall P l -> Forall P m -> len l < 2^64 -> len m < 2^64 -> wire_list wire l ++ r = wire_list wire m ++ r' -> map key l = map key m /\ r = r'.
Proof.
  intros X Y P wire key l m r r' PF FL FM L M E. pose proof (len_nonneg _ l). pose proof (len_nonneg _ m).
  unfold wire_list in E. rewrite <- !app_assoc in E. apply size_pfree in E as (E1 & E); try lia.
  apply (flat_pfree P wire key) in E; auto. unfold len in E1. lia.
Qed.
Lemma legacy_pfree : forall a b r r', tx_ok a -> tx_ok b -> len (s_ins a) < 2^64 -> len (s_ins b) < 2^64 ->
  len (s_outs a) < 2^64 -> len (s_outs b) < 2^64 -> wire_legacy a ++ r = wire_legacy b ++ r' ->
  s_version a = s_version b /\ map in_key (s_ins a) = map in_key (s_ins b) /\ s_outs a = s_outs b /\ s_lock a = s_lock b /\ r = r'.
Proof.
  intros a b r r' (A1 & A2 & A3 & A4) (B1 & B2 & B3 & B4) LA LB MA MB E. unfold wire_legacy in E. rewrite <- !app_assoc in E.
  apply le4_pfree in E as (E1 & E); auto.
  apply (list_pfree in_ok wire_in in_key) in E as (E2 & E); auto; [|apply in_pfree].
  apply (list_pfree out_ok wire_out (fun o => o)) in E as (E3 & E); auto; [|apply out_pfree].
  apply le4_pfree in E as (E4 & E); auto. rewrite !map_id in E3. auto.
Qed.

Lemma sig_ins_ok : forall l k idx code, Forall in_ok l -> bytes_ok code -> len code < 2^31 -> Forall in_ok (sig_ins l k idx code).
Proof.
  intros l k idx code F B L. revert k. induction F as [|i l P F IH]; intros k; cbn [sig_ins]; constructor; auto.
  destruct P as (P1 & P2 & P3 & P4 & P5 & P6 & P7). unfold in_ok, with_sig. cbn [si_prev si_vout si_sig si_seq si_wit].
  destruct (Nat.eqb k idx); repeat split; auto; try lia; try constructor.
Qed.
Lemma sig_ins_key : forall l m k idx idx' code code',
  map in_key (sig_ins l k idx code) = map in_key (sig_ins m k idx' code') -> map op_key l = map op_key m.
Proof.
  induction l as [|i l IH]; intros [|j m] k idx idx' code code' E; cbn [sig_ins map] in *; try discriminate; auto.
  injection E as E1 E2 E3 E4 E5. apply IH in E5. rewrite E5. f_equal. unfold op_key. congruence.
Qed.
Lemma sig_ins_at : forall l k idx code j, (j < length l)%nat ->
  nth_error (map si_sig (sig_ins l k idx code)) j = Some (if Nat.eqb (k + j) idx then code else []).
Proof.
  induction l as [|i l IH]; intros k idx code [|j] J; cbn [sig_ins map nth_error length] in *; try lia.
  - rewrite Nat.add_0_r. reflexivity.
  - rewrite IH by lia. replace (S k + j)%nat with (k + S j)%nat by lia. reflexivity.
Qed.
Lemma key_sig : forall l, map si_sig l = map (fun k => snd (fst k)) (map in_key l).
Proof. intros. rewrite map_map. reflexivity. Qed.
Lemma preimage_commits : forall a b idx idx' code code' ty ty',
  tx_ok a -> tx_ok b -> len (s_ins a) < 2^64 -> len (s_ins b) < 2^64 -> len (s_outs a) < 2^64 -> len (s_outs b) < 2^64 ->
  signs_all ty -> signs_all ty' -> 0 <= ty < 2^32 -> 0 <= ty' < 2^32 ->
  (idx < length (s_ins a))%nat -> (idx' < length (s_ins b))%nat ->
  bytes_ok code -> bytes_ok code' -> len code < 2^31 -> len code' < 2^31 ->
  legacy_preimage a idx code ty = legacy_preimage b idx' code' ty' ->
  s_version a = s_version b /\ map op_key (s_ins a) = map op_key (s_ins b) /\ s_outs a = s_outs b /\ s_lock a = s_lock b /\
  code = code' /\ ty = ty' /\ (code <> [] -> idx = idx').
Proof.
  intros a b idx idx' code code' ty ty' OA OB LA LB MA MB S1 S2 T1 T2 I1 I2 B1 B2 C1 C2 E.
  rewrite !all_preimage_spec in E by auto. unfold all_preimage in E.
  assert (K : forall v i c, tx_ok v -> bytes_ok c -> len c < 2^31 ->
    tx_ok {| s_version := s_version v; s_ins := sig_ins (s_ins v) 0 i c; s_outs := s_outs v; s_lock := s_lock v |}).
  { intros v i c (V1 & V2 & V3 & V4) B L. unfold tx_ok. cbn [s_version s_ins s_outs s_lock]. repeat split; auto; try lia. apply sig_ins_ok; auto. }
  apply legacy_pfree in E as (E1 & E2 & E3 & E4 & E5); try (apply K; auto); cbn [s_version s_ins s_outs s_lock]; rewrite ?sig_ins_len; auto.
  cbn [s_version s_ins s_outs s_lock] in *.
  assert (E2' := E2). apply sig_ins_key in E2'. apply le_inj in E5; auto.
  assert (LL : length (s_ins a) = length (s_ins b)) by (apply (f_equal (@length _)) in E2'; rewrite !map_length in E2'; auto).
  apply (f_equal (map (fun k => snd (fst k)))) in E2. rewrite <- !key_sig in E2.
  pose proof (sig_ins_at (s_ins a) 0 idx code idx I1) as X1. pose proof (sig_ins_at (s_ins b) 0 idx' code' idx' I2) as X2.
  rewrite E2 in X1. rewrite <- E2 in X2. rewrite sig_ins_at in X1, X2 by lia. cbn [Nat.add] in *.
  rewrite Nat.eqb_refl in X1, X2. injection X1 as X1. injection X2 as X2.
  destruct (Nat.eqb_spec idx idx') as [->|N]; [rewrite Nat.eqb_refl in X2|].
  - repeat split; auto.
  - destruct (Nat.eqb_spec idx' idx); [congruence|]. subst code code'. repeat split; auto; congruence.
Qed.

(** ** BIP 143: equal preimages mean equal contents, or a collision of the hash. *)
Lemma flat_all : forall {X Y} (P : X -> Prop) wire (key : X -> Y) l m, pfree P wire key -> (forall x, P x -> wire x <> []) ->
  Forall P l -> Forall P m -> flat_map wire l = flat_map wire m -> map key l = map key m.
Proof.
  intros X Y P wire key l m PF NE FL. revert m. induction FL as [|x l Px FL IH]; intros m FM E.
  - destruct FM as [|y m Py FM]; auto. cbn in E. symmetry in E. apply app_eq_nil in E as (E & _). destruct (NE y Py E).
  - destruct FM as [|y m Py FM].
    + cbn in E. apply app_eq_nil in E as (E & _). destruct (NE x Px E).
    + cbn in *. apply PF in E as (K & E); auto. rewrite K. f_equal. auto.
Qed.
Lemma no_coll : forall h a b, h a = h b -> collides h a b \/ a = b.
Proof. intros h a b E. destruct (list_eq_dec Z.eq_dec a b); auto. left. split; auto. Qed.
Lemma bip143_commits : forall dsha a b idx idx' i j code code' amt amt' ty ty',
  (forall m, length (dsha m) = 32%nat) ->
  tx_ok a -> tx_ok b -> In i (s_ins a) -> In j (s_ins b) ->
  signs_all ty -> signs_all ty' -> 0 <= ty < 2^32 -> 0 <= ty' < 2^32 -> 0 <= amt < 2^64 -> 0 <= amt' < 2^64 ->
  len code < 2^31 -> len code' < 2^31 ->
  bip143_preimage dsha a idx i code amt ty = bip143_preimage dsha b idx' j code' amt' ty' ->
  collides dsha (flat_map outpoint (s_ins a)) (flat_map outpoint (s_ins b)) \/
  collides dsha (flat_map (fun i => le_bytes 4 (si_seq i)) (s_ins a)) (flat_map (fun i => le_bytes 4 (si_seq i)) (s_ins b)) \/
  collides dsha (flat_map wire_out (s_outs a)) (flat_map wire_out (s_outs b)) \/
  (s_version a = s_version b /\ map op_key (s_ins a) = map op_key (s_ins b) /\ s_outs a = s_outs b /\ s_lock a = s_lock b /\
   op_key i = op_key j /\ code = code' /\ amt = amt' /\ ty = ty').
Proof.
  intros dsha a b idx idx' i j code code' amt amt' ty ty' HL (A1 & A2 & A3 & A4) (B1 & B2 & B3 & B4) I J (S1 & S2 & S3) (S1' & S2' & S3') T T' M M' C C' E.
  unfold bip143_preimage, bip143_body in E. rewrite S1, S2, S3, S1', S2', S3' in E. cbn [orb] in E. cbv zeta in E. rewrite <- !app_assoc in E.
  assert (OI := proj1 (Forall_forall _ _) A3 i I). assert (OJ := proj1 (Forall_forall _ _) B3 j J).
  destruct OI as (P1 & P2 & P3 & P4 & _). destruct OJ as (Q1 & Q2 & Q3 & Q4 & _).
  apply le4_pfree in E as (E1 & E); auto.
  apply app_same in E as (E2 & E); [|now rewrite !HL]. apply app_same in E as (E3 & E); [|now rewrite !HL].
  unfold outpoint in E. rewrite <- !app_assoc in E.
  apply app_same in E as (E4 & E); [|lia]. apply le4_pfree in E as (E5 & E); auto.
  apply bytes_pfree in E as (E6 & E); try lia. apply le8_pfree in E as (E7 & E); auto.
  apply le4_pfree in E as (E8 & E); auto. apply app_same in E as (E9 & E); [|now rewrite !HL].
  apply le4_pfree in E as (E10 & E); auto. apply le_inj in E; auto.
  destruct (no_coll _ _ _ E2) as [|F2]; auto. destruct (no_coll _ _ _ E3) as [|F3]; auto. destruct (no_coll _ _ _ E9) as [|F9]; auto.
  right. right. right.
  apply (flat_all in_ok outpoint (fun i => (si_prev i, si_vout i))) in F2; auto.
  2:{ intros x y r r' (X1 & X2 & X3 & _) (Y1 & Y2 & Y3 & _) G. unfold outpoint in G. rewrite <- !app_assoc in G.
      apply app_same in G as (G1 & G); [|lia]. apply le4_pfree in G as (G2 & G); auto. rewrite G1, G2. auto. }
  2:{ intros x (X1 & _) G. apply (f_equal (@length Z)) in G. unfold outpoint in G. rewrite app_length, X1 in G. discriminate. }
  apply (flat_all in_ok (fun i => le_bytes 4 (si_seq i)) si_seq) in F3; auto.
  2:{ intros x y r r' (_ & _ & _ & X4 & _) (_ & _ & _ & Y4 & _) G. apply le4_pfree in G; auto. }
  2:{ intros x _ G. discriminate. }
  apply (flat_all out_ok wire_out (fun o => o)) in F9; auto; [|apply out_pfree|].
  2:{ intros x _ G. discriminate. }
  rewrite !map_id in F9.
  assert (KK : map op_key (s_ins a) = map op_key (s_ins b)).
  { revert F2 F3. clear. revert b. intros b. generalize (s_ins a) (s_ins b). intros l. induction l as [|x l IH]; intros [|y m] F2 F3; cbn in *; try discriminate; auto.
    injection F2 as G1 G2 G3. injection F3 as G4 G5. f_equal; [unfold op_key; congruence|auto]. }
  assert (op_key i = op_key j) by (unfold op_key; congruence). repeat split; auto.
Qed.

(** ** Types other than ALL *)
Lemma all_body : forall v idx code, legacy_body v idx code 1 = all_preimage v idx code.
Proof.
  intros v idx code. pose proof (all_preimage_spec v idx code 1 (conj eq_refl (conj eq_refl eq_refl))) as H. unfold legacy_preimage in H.
  apply app_inv_tail in H. auto.
Qed.
Lemma all143_body : forall dsha v idx i code amount, bip143_body dsha v idx i code amount 1 = all143_preimage dsha v i code amount.
Proof. reflexivity. Qed.
Lemma none_differs : forall v idx code, tx_ok v -> len (s_ins v) < 2^64 -> len (s_outs v) < 2^64 -> bytes_ok code -> len code < 2^31 ->
  s_outs v <> [] -> legacy_body v idx code 1 ++ le_bytes 4 2 <> legacy_preimage v idx code 2.
Proof.
  intros v idx code OK NI NO B L NE E. rewrite all_body in E. unfold legacy_preimage in E. apply app_inv_tail in E.
  unfold all_preimage, legacy_body, signed_outs in E. change (is_none 2) with true in E. cbv iota in E.
  destruct OK as (V1 & V2 & V3 & V4).
  rewrite <- (app_nil_r (wire_legacy _)) in E. symmetry in E. rewrite <- (app_nil_r (wire_legacy _)) in E.
  assert (K : forall l k, Forall in_ok l -> Forall in_ok (map (fun p => let '(k, i) := p in
                   if Nat.eqb k idx then with_sig i code (si_seq i) else with_sig i [] 0) (combine (seq k (length l)) l))).
  { intros l k F. revert k. induction F as [|i l P F IH]; intros k; cbn [length seq combine map]; constructor; auto.
    destruct P as (P1 & P2 & P3 & P4 & P5 & P6 & P7). destruct (Nat.eqb k idx); unfold in_ok, with_sig; cbn [si_prev si_vout si_sig si_seq si_wit]; repeat split; auto; try lia; constructor. }
  assert (KL : forall l k, len (map (fun p => let '(k, i) := p in
                   if Nat.eqb k idx then with_sig i code (si_seq i) else with_sig i [] 0) (combine (seq k (length l)) l)) = len l).
  { intros l k. unfold len. rewrite map_length, combine_length, seq_length. lia. }
  apply legacy_pfree in E as (_ & _ & E & _); cbn [s_ins s_outs s_version s_lock] in *; unfold signed_ins; change (anyonecanpay 2) with false; cbv iota; change (is_none 2 || is_single 2) with true; cbv iota; rewrite ?sig_ins_len; rewrite ?KL; auto.
  - unfold tx_ok. cbn [s_ins s_outs s_version s_lock]. repeat split; auto; try lia.
  - unfold tx_ok. cbn [s_ins s_outs s_version s_lock]. repeat split; auto; try lia. apply sig_ins_ok; auto.
  - cbn. lia.
Qed.
Lemma single_differs : forall v idx code, tx_ok v -> len (s_ins v) < 2^64 -> len (s_outs v) < 2^64 -> bytes_ok code -> len code < 2^31 ->
  (S idx < length (s_outs v))%nat -> legacy_body v idx code 1 ++ le_bytes 4 3 <> legacy_preimage v idx code 3.
Proof.
  intros v idx code OK NI NO B L NE E. rewrite all_body in E. unfold legacy_preimage in E. apply app_inv_tail in E.
  unfold all_preimage, legacy_body, signed_outs in E. change (is_none 3) with false in E. change (is_single 3) with true in E. cbv iota in E.
  destruct OK as (V1 & V2 & V3 & V4).
  rewrite <- (app_nil_r (wire_legacy _)) in E. symmetry in E. rewrite <- (app_nil_r (wire_legacy _)) in E.
  assert (K : forall l k, Forall in_ok l -> Forall in_ok (map (fun p => let '(k, i) := p in
                   if Nat.eqb k idx then with_sig i code (si_seq i) else with_sig i [] 0) (combine (seq k (length l)) l))).
  { intros l k F. revert k. induction F as [|i l P F IH]; intros k; cbn [length seq combine map]; constructor; auto.
    destruct P as (P1 & P2 & P3 & P4 & P5 & P6 & P7). destruct (Nat.eqb k idx); unfold in_ok, with_sig; cbn [si_prev si_vout si_sig si_seq si_wit]; repeat split; auto; try lia; constructor. }
  assert (KL : forall l k, len (map (fun p => let '(k, i) := p in
                   if Nat.eqb k idx then with_sig i code (si_seq i) else with_sig i [] 0) (combine (seq k (length l)) l)) = len l).
  { intros l k. unfold len. rewrite map_length, combine_length, seq_length. lia. }
  assert (OL : len (repeat blank_out idx ++ firstn 1 (skipn idx (s_outs v))) = Z.of_nat idx + 1).
  { unfold len. rewrite app_length, repeat_length, firstn_length, skipn_length. lia. }
  assert (OK : Forall out_ok (repeat blank_out idx ++ firstn 1 (skipn idx (s_outs v)))).
  { apply Forall_app. split.
    - clear. induction idx; cbn [repeat]; constructor; auto. unfold out_ok, blank_out. cbn [so_value so_script]. split; [lia|]. split; [constructor|cbn; lia].
    - rewrite <- (firstn_skipn idx (s_outs v)) in V4. apply Forall_app in V4 as (_ & V4). rewrite <- (firstn_skipn 1 (skipn idx (s_outs v))) in V4. apply Forall_app in V4. tauto. }
  apply legacy_pfree in E as (_ & _ & E & _); cbn [s_ins s_outs s_version s_lock] in *; unfold signed_ins; change (anyonecanpay 3) with false; cbv iota; change (is_none 3 || is_single 3) with true; cbv iota; rewrite ?sig_ins_len; rewrite ?KL; auto.
  - apply (f_equal len) in E. rewrite OL in E. unfold len in E. lia.
  - unfold tx_ok. cbn [s_ins s_outs s_version s_lock]. repeat split; auto; try lia.
  - unfold tx_ok. cbn [s_ins s_outs s_version s_lock]. repeat split; auto; try lia. apply sig_ins_ok; auto.
  - rewrite OL. unfold len in NO. lia.
Qed.
Lemma none143_differs : forall dsha v idx i code amount, (forall m, length (dsha m) = 32%nat) ->
  dsha (flat_map wire_out (s_outs v)) <> repeat 0 32 ->
  bip143_body dsha v idx i code amount 1 ++ le_bytes 4 2 <> bip143_preimage dsha v idx i code amount 2.
Proof.
  intros dsha v idx i code amount HL NE E. unfold bip143_preimage in E. apply app_inv_tail in E. unfold bip143_body in E.
  change (anyonecanpay 2) with false in E. change (anyonecanpay 1) with false in E. change (is_none 2) with true in E. change (is_none 1) with false in E. change (is_single 1) with false in E.
  cbn [orb] in E. cbv iota zeta in E.
  apply app_same in E as (_ & E); auto. apply app_same in E as (_ & E); auto. apply app_same in E as (_ & E); [|now rewrite HL].
  apply app_inv_head in E. apply app_inv_head in E. apply app_inv_head in E. apply app_inv_head in E.
  apply app_same in E as (E & _); [|now rewrite HL]. auto.
Qed.
