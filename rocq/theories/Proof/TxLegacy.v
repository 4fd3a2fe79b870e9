(** Transactions without witnesses can be fed in any pieces. *)
From Coq Require Import Lia.
From Verif Require Import Base.Bytes Base.BytesFacts Model.Conversion Model.Stream Model.Script Model.Tx
  Spec.Codecs Spec.Wire Spec.Objects Proof.StreamFacts Proof.Chunks Proof.Phases Proof.TxIo Proof.ListPhase Proof.TxPhases Proof.TxChunks Proof.TxParse.
Open Scope Z_scope.

Notation I0 := (tI 0).
Definition off2 (s : tx) : Z := 5 + zsum (map txin_length (t_ins s)) + 1 + zsum (map txout_length (t_outs s)).
Definition q8 : @phase tx := fun s st =>
  match t_status s with
  | FAILED => Ok (s, st)
  | _ => let! x := read_loop_o (off2 s + 4) (t_parsed s) (acc32 (off2 s)) (t_lock s) st in
         let '(a, p, r) := x in
         Ok (mkTx (t_version s) (t_ins s) (t_outs s) a (t_segflag s) (t_status s) p, r)
  end.
Definition D8 (s : tx) : Prop := t_bad s \/ off2 s + 4 <= t_parsed s.
Lemma SG0 : 0 = 0 \/ 0 = 1.
Proof. auto. Qed.
Lemma off2_done : forall s, live 0 s -> ldone ti_status (t_ins s) -> ldone to_status (t_outs s) ->
  off2 s = 5 + ins_at (t_ins s) + 1 + outs_at (t_outs s).
Proof. intros s (_ & L2 & _ & L4 & _) D E. unfold off2. rewrite ins_at_done, outs_at_done; auto. Qed.

Lemma ph8 : ph t_bad I0 (D7 0) D8 q8.
Proof.
  split.
  - intros s a b IS PS BA BB NB. unfold q8 at 1 2. destruct (t_status s) eqn:S.
    3:{ intros _. left. unfold go_on, q8. rewrite S. cbn [bind fst snd]. rewrite S. destruct a; reflexivity. }
    all: unfold go_on; unfold q8 at 1; rewrite S; rewrite read_loop_o_app;
      (destruct (read_loop_o _ (t_parsed s) _ _ a) as [[[q p] r]|]; cbn [bind]; [|congruence]);
      intros _; left; cbn [fst snd]; (destruct r; [|reflexivity]);
      unfold q8; t_cbn; reflexivity.
  - intros [ver ins outs lk sf st p] IS. unfold q8. t_cbn. destruct st; reflexivity.
  - intros [ver ins outs lk sf st p] x IS D. unfold q8, D8, t_bad in *. t_cbn. destruct D as [D|D].
    + rewrite D. auto.
    + destruct st; auto; rewrite read_loop_o_stop by exact D; reflexivity.
  - intros s a s1 r IS PS BA E. unfold q8 in E. destruct (t_status s) eqn:S.
    + destruct IS as [_ IS]. rewrite S in IS. tauto.
    + destruct PS as [PS|(P1 & P2 & P3 & P4)]; [unfold t_bad in PS; congruence|].
      destruct (read_loop_o _ (t_parsed s) _ _ a) as [[[q p] r1]|] eqn:R; cbn [bind] in E; [|discriminate].
      injection E as <- <-. apply read_loop_o_pos in R as (Q1 & Q2 & Q3 & Q4 & Q5).
      destruct IS as [I1 I2]. rewrite S in I2. pose proof I2 as (L1 & L2 & L3 & L4 & L5 & L6).
      rewrite (off2_done s) in * by auto. pose proof (ins_at_nonneg _ L2 L3). pose proof (outs_at_nonneg _ L4 L5).
      split; [|split; [|split]].
      * split; t_cbn; [lia|]. split; t_cbn.
        { destruct (Z.ltb_spec (t_parsed s) 5), (Z.ltb_spec p 5); try lia; auto. }
        split; [auto|]. split; [auto|]. split; [auto|]. split; [auto|].
        destruct L6 as [L6|[[L6 L7]|[[L6 L7]|(L6 & L7 & L8 & L9)]]]; [lia|lia| |].
        -- destruct (Z.eq_dec p (t_parsed s)) as [->|]; [right; right; left; auto|].
           right. right. right. split; [auto|]. split; [auto|]. split; [auto|]. lia.
        -- right. right. right. split; [auto|]. split; [auto|]. split; [auto|]. lia.
      * right. t_cbn. repeat split; auto; lia.
      * rewrite Q5 in BA. apply bytes_ok_app in BA. tauto.
      * intros N. right. unfold off2. t_cbn. fold (off2 s). rewrite (off2_done s) by auto. destruct Q4; [congruence|auto].
    + injection E as <- <-. split; [auto|split; [auto|split; [auto|]]]. intros _. left. exact S.
  - intros s IS B. left. exact B.
Qed.
Definition F8 : @phase tx := seq (F7 0) q8.
Definition D08 (s : tx) : Prop := D7 0 s /\ D8 s.
Lemma ph_F8 : ph t_bad I0 (fun _ => True) D08 F8.
Proof. eapply ph_then; [apply ph_F7, SG0|apply ph8|]. intros s _. unfold D08. tauto. Qed.

Definition fin (s : tx) : tx :=
  match t_status s with
  | FAILED => s
  | _ => mkTx (t_version s) (t_ins s) (t_outs s) (t_lock s) (t_segflag s)
           (if (t_parsed s =? off2 s + 4) && tx_completed 0 (t_ins s) (t_outs s) then DONE else INCOMPLETE) (t_parsed s)
  end.
Definition start (s : tx) : tx :=
  match t_status s with DONE => mkTx 0 [] [] 0 0 INCOMPLETE 0 | _ => s end.
Definition ptx (s : tx) (st : list Z) : outcome (tx * Z * list Z) :=
  match t_status s with
  | FAILED => Ok (s, 0, st)
  | _ => let! x := F8 (start s) st in Ok (fin (fst x), t_parsed (fst x) - t_parsed (start s), snd x)
  end.
Definition tok (s : tx) : Prop := t_status s = INCOMPLETE -> I0 s.
Lemma completed0 : forall ins outs, tx_completed 0 ins outs = true <-> ldone ti_status ins /\ ldone to_status outs.
Proof.
  intros ins outs. unfold tx_completed. rewrite andb_true_iff, !forallb_forall. unfold ldone. rewrite !Forall_forall.
  change (0 <? 0) with false. cbv iota. split; intros [H1 H2]; split; intros x X.
  - apply H1 in X. destruct (ti_status x); auto; discriminate.
  - apply H2 in X. destruct (to_status x); auto; discriminate.
  - rewrite H1 by auto. reflexivity.
  - rewrite H2 by auto. reflexivity.
Qed.
Lemma start_I0 : I0 (mkTx 0 [] [] 0 0 INCOMPLETE 0).
Proof.
  split; [cbn; lia|]. cbn [t_status]. split; [reflexivity|]. t_cbn. repeat split; try constructor; try lia. split; [lia|auto].
Qed.
Lemma ptx_both :
  (forall s a b, tok s -> a <> [] -> b <> [] -> bytes_ok a -> bytes_ok b -> ptx s (a ++ b) <> UB ->
     same_result t_status (ptx s (a ++ b)) (chain ptx t_status (ptx s a) b)) /\
  (forall s a s1 n1 r1, tok s -> a <> [] -> bytes_ok a -> ptx s a = Ok (s1, n1, r1) ->
     t_status s1 = INCOMPLETE -> r1 = [] /\ tok s1).
Proof.
  apply (phases_both t_bad ptx t_status t_parsed start F8 fin I0 D08 tok ph_F8).
  - intros s st NF. unfold ptx. destruct (t_status s); congruence.
  - intros s st F. unfold ptx. rewrite F. reflexivity.
  - intros s OK NF. unfold start. destruct (t_status s) eqn:S; [apply start_I0|auto|congruence].
  - intros s IS S _. unfold fin in *. destruct (t_status s) eqn:T; t_cbn.
    + destruct IS as [_ X]. rewrite T in X. tauto.
    + rewrite S. destruct s; t_cbn; subst. exact IS.
    + congruence.
  - intros s IS S. unfold start. rewrite S. unfold fin in *. destruct (t_status s) eqn:T; t_cbn.
    + destruct IS as [_ X]. rewrite T in X. tauto.
    + rewrite S. destruct s; t_cbn; subst; reflexivity.
    + congruence.
  - intros s IS. unfold t_bad, fin. destruct (t_status s) eqn:T; t_cbn; try tauto;
      destruct (_ && _); split; congruence.
  - intros s IS S. unfold fin in S. destruct IS as [I1 I2]. destruct (t_status s) eqn:T; t_cbn; [tauto| |congruence].
    destruct ((t_parsed s =? off2 s + 4) && tx_completed 0 (t_ins s) (t_outs s)) eqn:E; [|discriminate].
    apply andb_true_iff in E as [E1 E2]. apply Z.eqb_eq in E1. apply completed0 in E2 as [E2 E3].
    rewrite off2_done in E1 by auto. pose proof I2 as (L1 & L2 & L3 & L4 & L5 & L6).
    pose proof (ins_at_nonneg _ L2 L3). pose proof (outs_at_nonneg _ L4 L5).
    split; right; [repeat split; auto; lia|]. rewrite off2_done by auto. lia.
  - intros s IS [H7 H8] S. unfold fin in S. destruct IS as [I1 I2]. unfold D7, D8, t_bad in *. destruct (t_status s) eqn:T; t_cbn; [tauto| |congruence].
    destruct H7 as [H7|(P1 & P2 & P3 & P4)]; [congruence|]. destruct H8 as [H8|H8]; [congruence|].
    rewrite off2_done in * by auto. pose proof I2 as (L1 & L2 & L3 & L4 & L5 & L6).
    rewrite (proj2 (completed0 _ _) (conj P3 P4)) in S.
    destruct (Z.eqb_spec (t_parsed s) (5 + ins_at (t_ins s) + 1 + outs_at (t_outs s) + 4)); [discriminate|].
    pose proof (ins_at_nonneg _ L2 L3). pose proof (outs_at_nonneg _ L4 L5).
    destruct L6 as [L6|[[L6 L7]|[[L6 L7]|(L6 & L7 & L8 & L9)]]]; lia.
Qed.

(** The code's end of a transaction without witnesses. *)
Lemma tail0 : forall p0 s r, t_segflag s = 0 -> t_status s = INCOMPLETE ->
  tail p0 s r = let! x := q8 s r in Ok (fin (fst x), t_parsed (fst x) - p0, snd x).
Proof.
  intros p0 s r F S. unfold tail, q8. rewrite F, S. change (0 <? 0) with false. cbn [andb bind]. cbv iota. rewrite Z.add_0_r.
  replace (5 + 2 * 0 + zsum (map txin_length (t_ins s)) + 1 + zsum (map txout_length (t_outs s))) with (off2 s) by (unfold off2; lia).
  destruct (read_loop_o _ (t_parsed s) _ _ r) as [[[a p] r1]|]; cbn [bind fst snd]; auto.
Qed.
Lemma F7_inc : forall sg (SG : sg = 0 \/ sg = 1) s st s3 r3, tI sg s -> bytes_ok st -> F7 sg s st = Ok (s3, r3) ->
  tI sg s3 /\ bytes_ok r3 /\ (r3 <> [] -> D7 sg s3).
Proof.
  intros sg SG s st s3 r3 IS B E. destruct (ph_end _ _ _ _ _ (ph_F7 sg SG) _ _ _ _ IS Logic.I B E) as (X1 & _ & X3 & X4). auto.
Qed.
Lemma body_sf0 : forall s st s3 r3, I0 s -> F7 0 s st = Ok (s3, r3) -> bytes_ok st -> t_status s3 = INCOMPLETE -> t_segflag s3 = 0.
Proof.
  intros s st s3 r3 IS E B S. destruct (F7_inc 0 SG0 _ _ _ _ IS B E) as ([_ X] & _). rewrite S in X. destruct X as (X & _).
  destruct (t_parsed s3 <? 5); exact X.
Qed.
(* what the code runs on *)
Lemma tx_parse_start : forall s st, t_status s <> FAILED -> tx_parse s st = tx_parse_body (start s) st.
Proof. intros s st NF. unfold tx_parse, start. destruct (t_status s); [reflexivity|reflexivity|congruence]. Qed.
Lemma start_tok : forall s, tok s -> t_status s <> FAILED -> I0 (start s) /\ t_status (start s) = INCOMPLETE.
Proof.
  intros s OK NF. unfold start. destruct (t_status s) eqn:S; [split; [apply start_I0|reflexivity]|auto|congruence].
Qed.
Lemma ptx_fwd : forall s st t1 n r, tok s -> bytes_ok st -> ptx s st = Ok (t1, n, r) -> t_status t1 <> FAILED -> tx_parse s st = Ok (t1, n, r).
Proof.
  intros s st t1 n r OK B E NF.
  assert (NS : t_status s <> FAILED) by (intros X; unfold ptx in E; rewrite X in E; injection E as <- _ _; auto).
  destruct (start_tok s OK NS) as [IS S]. rewrite tx_parse_start by auto.
  assert (E' : (let! x := F8 (start s) st in Ok (fin (fst x), t_parsed (fst x) - t_parsed (start s), snd x)) = Ok (t1, n, r)).
  { unfold ptx in E. destruct (t_status s); auto. congruence. }
  unfold F8, seq in E'. destruct (F7 0 (start s) st) as [[s3 r3]|] eqn:E3; cbn [bind fst snd] in E'; [|discriminate].
  destruct (F7_inc 0 SG0 _ _ _ _ IS B E3) as (I3 & B3 & X3).
  assert (S3 : t_status s3 = INCOMPLETE).
  { destruct (t_status s3) eqn:T; auto.
    - destruct I3 as [_ I3]. rewrite T in I3. tauto.
    - unfold q8 in E'. rewrite T in E'. cbn [bind fst snd] in E'. unfold fin in E'. rewrite T in E'. injection E' as <- _ _. congruence. }
  rewrite (M_fwd 0 SG0 _ _ _ _ IS S B E3 S3).
  rewrite tail0; [exact E'|exact (body_sf0 _ _ _ _ IS E3 B S3)|exact S3].
Qed.
Lemma ptx_bwd : forall s st t1 n r, tok s -> bytes_ok st -> tx_parse s st = Ok (t1, n, r) -> t_status t1 <> FAILED ->
  (t_parsed (start s) < 5 -> 5 <= t_parsed (start s) + len st -> t_segflag t1 = 0) -> ptx s st = Ok (t1, n, r).
Proof.
  intros s st t1 n r OK B E NF K.
  assert (NS : t_status s <> FAILED) by (intros X; unfold tx_parse in E; rewrite X in E; injection E as <- _ _; auto).
  destruct (start_tok s OK NS) as [IS S]. rewrite tx_parse_start in E by auto.
  destruct (M_bwd 0 SG0 _ _ _ _ _ IS S B E NF K) as (s3 & r3 & E3 & S3).
  rewrite (M_fwd 0 SG0 _ _ _ _ IS S B E3 S3) in E. rewrite tail0 in E; [|exact (body_sf0 _ _ _ _ IS E3 B S3)|exact S3].
  unfold ptx. destruct (t_status s); [| |congruence]; unfold F8, seq; rewrite E3; exact E.
Qed.
Lemma feed_ptx : forall chunks s t1 n r, tok s -> Forall (fun c => c <> [] /\ bytes_ok c) chunks ->
  feed ptx t_status s chunks = Ok (t1, n, r) -> t_status t1 <> FAILED -> feed tx_parse t_status s chunks = Ok (t1, n, r).
Proof.
  induction chunks as [|c t IH]; intros s t1 n r OK F E NF; [exact E|]. cbn [feed] in *. inversion F as [|? ? [C1 C2] F']; subst.
  destruct (ptx s c) as [[[s1 n1] r1]|] eqn:P; cbn [bind] in E; [|discriminate].
  destruct (t_status s1) eqn:S1.
  - rewrite (ptx_fwd s c s1 n1 r1 OK C2 P) by congruence. cbn [bind]. rewrite S1. exact E.
  - rewrite (ptx_fwd s c s1 n1 r1 OK C2 P) by congruence. cbn [bind]. rewrite S1.
    destruct (proj2 ptx_both s c s1 n1 r1 OK C1 C2 P S1) as [_ OK1].
    destruct (feed ptx t_status s1 t) as [[[s2 n2] r2]|] eqn:FE; cbn [bind] in E; [|discriminate].
    assert (s2 = t1) by congruence. subst s2. rewrite (IH _ _ _ _ OK1 F' FE NF). exact E.
  - injection E as <- _ _. congruence.
Qed.
(* the fifth byte *)
Lemma fifth : forall s st t1 n r, t_status s = DONE -> tx_parse s st = Ok (t1, n, r) -> t_status t1 <> FAILED ->
  5 <= len st -> nth 4 st 0 <> 0 -> t_segflag t1 = 0.
Proof.
  intros s st t1 n r S E NF L N. rewrite tx_parse_start in E by congruence. unfold start in E. rewrite S in E.
  destruct (body_bwd _ _ _ _ _ E NF) as (s1 & r1 & s2 & r2 & s3 & r3 & E1 & E2 & E3).
  rewrite (body_fwd _ _ _ _ _ _ _ _ E1 E2 E3) in E. apply tail_sf in E.
  assert (SF : t_segflag s3 = t_segflag s2).
  { unfold realB in E3.
    match type of E3 with (let! r4 := ?X in _) = _ => destruct X as [[[? ?] ?]|] end; cbn [bind] in E3; [|discriminate].
    destruct (parse_more txout_parse to_status _ _) as [[[[? ?] ?] []]|]; cbn [bind] in E3; try discriminate. injection E3 as <- _. reflexivity. }
  unfold q1 in E1. t_cbn. destruct (read_loop_o 4 0 (acc32 0) 0 st) as [[[v p] rr]|] eqn:R; cbn [bind] in E1; [|discriminate].
  injection E1 as <- <-. apply read_loop_o_pos in R as (Q1 & Q2 & Q3 & Q4 & Q5).
  assert (P : p = 4) by (destruct Q4 as [->|Q4]; [unfold len in Q1 at 2; cbn in Q1; lia|lia]). subst p.
  change (Z.to_nat (4 - 0)) with 4%nat in Q5.
  assert (L4 : length (firstn 4 st) = 4%nat) by (rewrite firstn_length; unfold len in L; lia).
  rewrite Q5, app_nth2 in N by lia. rewrite L4 in N. change (4 - 4)%nat with 0%nat in N.
  destruct rr as [|c rr]; [cbn in N; congruence|]. cbn [nth] in N.
  rewrite realA_fresh4 in E2 by auto. t_cbn.
  destruct (parse_all txin_parse (repeat txin_new (Z.to_nat c)) rr) as [[[? ?] ?]|]; cbn [bind] in E2; [|discriminate].
  destruct (parse_more txin_parse ti_status _ _) as [[[[? ?] ?] []]|]; cbn [bind] in E2; try discriminate.
  injection E2 as <- _. t_cbn. congruence.
Qed.
Theorem legacy_chunks : forall t chunks t' n r, t_status t = DONE -> chunks <> [] -> Forall (fun c => c <> [] /\ bytes_ok c) chunks ->
  nth 4 (concat chunks) 1 <> 0 -> tx_parse t (concat chunks) = Ok (t', n, r) -> t_status t' <> FAILED ->
  feed tx_parse t_status t chunks = Ok (t', n, r).
Proof.
  intros t chunks t' n r S NE F N E NF.
  assert (B : bytes_ok (concat chunks)).
  { clear -F. induction F as [|x l [H1 H2] F IH]; cbn; [constructor|]. apply bytes_ok_app; auto. }
  assert (OK : tok t) by (intros X; congruence).
  assert (P : ptx t (concat chunks) = Ok (t', n, r)).
  { apply ptx_bwd; auto. unfold start. rewrite S. t_cbn. intros _ L. apply (fifth _ _ _ _ _ S E NF); [lia|].
    rewrite (nth_indep _ 0 1) by (unfold len in L; lia). exact N. }
  apply feed_ptx; auto.
  assert (D : ptx t (concat chunks) <> UB) by congruence.
  destruct ptx_both as [T1 T2].
  pose proof (feed_same ptx t_status tok T1 T2 chunks t OK NE F D) as X. rewrite P in X.
  destruct X as [X|[_ (? & ? & ? & X & Y)]]; [exact X|]. injection X as <- _ _. congruence.
Qed.

Lemma no_witness_ok : forall v, has_witness v = false -> Forall wit_ok (s_ins v).
Proof.
  intros v H. apply Forall_forall. intros i X. unfold has_witness in H.
  assert (W : si_wit i = []).
  { destruct (si_wit i) eqn:W; auto. rewrite (proj2 (existsb_exists _ _)) in H; [discriminate|]. exists i. rewrite W. auto. }
  unfold wit_ok. rewrite W. repeat split; try constructor; reflexivity.
Qed.
Theorem legacy_wire_chunks : forall t v rest chunks, t_status t = DONE -> tx_ok v -> 1 <= len (s_ins v) < 253 -> len (s_outs v) < 253 ->
  has_witness v = false -> Forall (fun c => c <> [] /\ bytes_ok c) chunks -> concat chunks = wire_tx v ++ rest ->
  exists t', feed tx_parse t_status t chunks = Ok (t', len (wire_tx v), rest) /\ t_status t' = DONE /\ tx_holds t' v.
Proof.
  intros t v rest chunks S K NI NO W F C.
  destruct (tx_round t v rest S K (no_witness_ok v W) NI NO) as (t' & E & D & H). exists t'. split; [|auto].
  assert (N4 : forall d, nth 4 (wire_tx v ++ rest) d = len (s_ins v)).
  { intros d. unfold wire_tx. rewrite W. unfold wire_legacy, wire_list at 1.
    assert (X : compact_size (len (s_ins v)) = [len (s_ins v)]) by (unfold compact_size; destruct (Z.ltb_spec (len (s_ins v)) 253); [reflexivity|lia]).
    rewrite X. reflexivity. }
  apply legacy_chunks; auto.
  - intros ->. cbn [concat] in C. specialize (N4 0). rewrite <- C in N4. cbn [nth] in N4. lia.
  - rewrite C, N4. lia.
  - rewrite C. exact E.
  - congruence.
Qed.
