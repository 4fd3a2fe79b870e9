(** Transaction inputs and outputs: serialization, parsing, incremental parsing. *)
From Coq Require Import Lia.
From Verif Require Import Base.Bytes Base.BytesFacts Model.Conversion Model.Stream Model.Script Model.Tx
  Spec.Codecs Spec.Wire Proof.IntVarint Proof.StreamFacts Proof.Chunks Proof.Phases Proof.ScriptFacts Proof.ScriptChunks.
Open Scope Z_scope.

(** ** Incremental parsing of TxIn *)
Definition ti_fin (t : txin) : txin :=
  mkTxin (ti_hash t) (ti_index t) (ti_script t) (ti_seq t) (ti_wit t)
    (match sc_status (ti_script t) with
     | FAILED => FAILED
     | DONE => if ti_parsed t =? 40 + script_length (ti_script t) then DONE else INCOMPLETE
     | INCOMPLETE => INCOMPLETE end)
    (ti_parsed t).
Definition ti_start (t : txin) : txin :=
  match ti_status t with
  | DONE => mkTxin (ti_hash t) 0 (script_assign (ti_script t) script_new) 0 (ti_wit t) INCOMPLETE 0
  | _ => mkTxin (ti_hash t) (ti_index t) (ti_script t) (ti_seq t) (ti_wit t) INCOMPLETE (ti_parsed t)
  end.
Definition ti_bad (t : txin) : Prop := sc_status (ti_script t) = FAILED.

Definition ti_p1 : @phase txin := fun t st =>
  let! x := read_loop_o 32 (ti_parsed t) (fun a p c => aset a p c) (ti_hash t) st in
  let '(a, p, r) := x in
  Ok (mkTxin a (ti_index t) (ti_script t) (ti_seq t) (ti_wit t) (ti_status t) p, r).
Definition ti_p2 : @phase txin := fun t st =>
  let! x := read_loop_o 36 (ti_parsed t) (acc32 32) (ti_index t) st in
  let '(a, p, r) := x in
  Ok (mkTxin (ti_hash t) a (ti_script t) (ti_seq t) (ti_wit t) (ti_status t) p, r).
Definition ti_upd3 (t : txin) (q : script) (p : Z) : txin :=
  mkTxin (ti_hash t) (ti_index t) q (ti_seq t) (ti_wit t) (ti_status t) p.
Definition ti_p3 : @phase txin := sub_phase script_parse sc_status ti_script ti_parsed ti_upd3 36.
Definition ti_limit (t : txin) : Z :=
  match sc_status (ti_script t) with FAILED => Z.min (ti_parsed t) 0 | _ => 40 + script_length (ti_script t) end.
Definition ti_p4 : @phase txin := fun t st =>
  match sc_status (ti_script t) with
  | FAILED => Ok (t, st)
  | _ =>
    let! x := read_loop_o (40 + script_length (ti_script t)) (ti_parsed t) (acc32 (36 + script_length (ti_script t))) (ti_seq t) st in
    let '(a, p, r) := x in
    Ok (mkTxin (ti_hash t) (ti_index t) (ti_script t) a (ti_wit t) (ti_status t) p, r)
  end.
Definition ti_F : @phase txin := seq (seq (seq ti_p1 ti_p2) ti_p3) ti_p4.

Lemma txin_parse_eq : forall t st, ti_status t <> FAILED ->
  txin_parse t st = let! x := ti_F (ti_start t) st in Ok (ti_fin (fst x), ti_parsed (fst x) - ti_parsed (ti_start t), snd x).
Proof.
  intros t st NF.
  assert (B : forall t0, ti_status t0 <> FAILED \/ True -> txin_parse_body t0 st =
    let! x := ti_F (mkTxin (ti_hash t0) (ti_index t0) (ti_script t0) (ti_seq t0) (ti_wit t0) INCOMPLETE (ti_parsed t0)) st in
    Ok (ti_fin (fst x), ti_parsed (fst x) - ti_parsed t0, snd x)).
  { intros t0 _. unfold txin_parse_body, ti_F, seq. unfold ti_p1 at 1. cbn [ti_parsed ti_hash ti_index ti_script ti_seq ti_wit].
    destruct (read_loop_o 32 _ _ _ st) as [[[h1 p1] s1]|]; cbn [bind fst snd]; auto.
    unfold ti_p2 at 1. cbn [ti_parsed ti_hash ti_index ti_script ti_seq ti_wit].
    destruct (read_loop_o 36 _ _ _ s1) as [[[i2 p2] s2]|]; cbn [bind fst snd]; auto.
    unfold ti_p3, sub_phase. cbn [ti_parsed ti_hash ti_index ti_script ti_seq ti_wit].
    match goal with |- (let! r3 := ?E in _) = _ => destruct E as [[[q3 n3] s3]|] end; cbn [bind]; auto.
    match goal with |- (let! r3 := ?E in _) = _ => destruct E as [[[q4 n4] s4]|] end; cbn [bind fst snd]; auto.
    unfold ti_p4, ti_upd3. cbn [ti_parsed ti_hash ti_index ti_script ti_seq ti_wit].
    destruct (sc_status q4) eqn:S4.
    3:{ unfold ti_fin. cbn [bind fst snd ti_parsed ti_hash ti_index ti_script ti_seq ti_wit]. rewrite S4. reflexivity. }
    all: destruct (read_loop_o (40 + _) _ _ _ s4) as [[[sq5 p5] s5]|]; cbn [bind fst snd]; auto;
      unfold ti_fin; cbn [ti_parsed ti_hash ti_index ti_script ti_seq ti_wit]; rewrite S4; reflexivity. }
  unfold txin_parse, ti_start. destruct (ti_status t) eqn:S; [| |congruence].
  - rewrite B by auto. reflexivity.
  - rewrite B by auto. reflexivity.
Qed.


Definition ti_I (t : txin) : Prop :=
  ti_status t = INCOMPLETE /\ 0 <= ti_parsed t /\
  sub_inv sc_status script_ok ti_script ti_parsed 36 t /\
  (sc_status (ti_script t) = INCOMPLETE -> ti_parsed t = 36 + sc_parsed (ti_script t)) /\
  (sc_status (ti_script t) = DONE -> 36 < ti_parsed t ->
     36 + script_length (ti_script t) <= ti_parsed t <= 40 + script_length (ti_script t)).

Ltac ti_cbn := cbn [ti_hash ti_index ti_script ti_seq ti_wit ti_status ti_parsed] in *.

Lemma ti_I_upd : forall t h i sq w p, ti_I t -> ti_parsed t <= p -> p <= Z.max 36 (ti_parsed t) ->
  ti_I (mkTxin h i (ti_script t) sq w (ti_status t) p).
Proof.
  intros t h i sq w p (I1 & I2 & (J1 & J2 & J3) & K1 & K2) H H2. split; [exact I1|]. split; ti_cbn; [lia|]. split; [|split].
  - split; [exact J1|]. split; ti_cbn; [intros; apply J2; lia|intros S; specialize (J3 S); lia].
  - ti_cbn. intros S. specialize (K1 S). specialize (J3 S). lia.
  - ti_cbn. intros S L. apply K2 in S; lia.
Qed.
Lemma ti_ph1 : ph ti_bad ti_I (fun _ => True) (fun t => 32 <= ti_parsed t) ti_p1.
Proof.
  apply (ph_loop ti_bad ti_I (fun _ => True) ti_hash ti_parsed
    (fun t a p => mkTxin a (ti_index t) (ti_script t) (ti_seq t) (ti_wit t) (ti_status t) p)
    (fun _ => 32) (fun _ a p c => aset a p c)); auto.
  - intros []; reflexivity.
  - intros s (_ & _ & (_ & J & _) & _) B. unfold ti_bad in B. destruct (Z.le_gt_cases 32 (ti_parsed s)); auto.
    specialize (J ltac:(lia)). congruence.
  - intros s st a p r IS _ _ E. apply read_loop_o_pos in E as (Q1 & Q2 & Q3 & Q4 & _).
    split; auto. apply ti_I_upd; auto. lia.
Qed.
Lemma ti_ph2 : ph ti_bad ti_I (fun t => 32 <= ti_parsed t) (fun t => 36 <= ti_parsed t) ti_p2.
Proof.
  apply (ph_loop ti_bad ti_I (fun t => 32 <= ti_parsed t) ti_index ti_parsed
    (fun t a p => mkTxin (ti_hash t) a (ti_script t) (ti_seq t) (ti_wit t) (ti_status t) p)
    (fun _ => 36) (fun _ => acc32 32)); auto.
  - intros []; reflexivity.
  - intros s (_ & _ & (_ & J & _) & _) B. unfold ti_bad in B. destruct (Z.le_gt_cases 36 (ti_parsed s)); auto.
    specialize (J ltac:(lia)). congruence.
  - intros s st a p r IS Pr _ E. apply read_loop_o_pos in E as (Q1 & Q2 & Q3 & Q4 & _).
    split; [apply ti_I_upd; auto|]. ti_cbn. lia.
Qed.
Definition ti_done3 := sub_done sc_status ti_script ti_parsed 36.
Lemma ti_ph3 : ph ti_bad ti_I (fun t => 36 <= ti_parsed t) ti_done3 ti_p3.
Proof.
  apply (ph_sub ti_bad script_parse sc_status script_ok script_two script_inc script_ok_other script_count
    ti_script ti_parsed ti_upd3 36 ti_I); auto.
  - intros []; reflexivity.
  - intros s. reflexivity.
  - intros s H. apply H.
  - intros s st q n r (I1 & I2 & I3 & I4 & I5) H1 A NE B E N H3. split; [exact I1|]. split; [unfold ti_upd3; ti_cbn; lia|].
    split; [exact H3|]. unfold ti_upd3; ti_cbn.
    assert (X : sc_status q <> FAILED -> ti_parsed s + n = 36 + sc_parsed q /\ (sc_status q = DONE -> script_length q = sc_parsed q)).
    { intros NF. destruct (script_done_len _ _ _ _ _ (proj1 I3) NE B E NF) as [X1 X2]. split; auto.
      unfold active in A. destruct A as [[A1 A2]|A]; [rewrite A2 in X1; lia|]. specialize (I4 A). rewrite A in X1. lia. }
    split.
    + intros S. apply X. congruence.
    + intros S L. destruct (X ltac:(congruence)) as [X1 X2]. rewrite X2 by auto. lia.
  - apply script_parse_failed.
Qed.
Definition ti_done4 (t : txin) : Prop :=
  sc_status (ti_script t) = FAILED \/ (sc_status (ti_script t) = DONE /\ 40 + script_length (ti_script t) <= ti_parsed t).
Lemma ti_ph4 : ph ti_bad ti_I ti_done3 ti_done4 ti_p4.
Proof.
  assert (X : forall s, ti_I s -> ti_done3 s -> sc_status (ti_script s) <> FAILED -> sc_status (ti_script s) = DONE /\ 36 < ti_parsed s).
  { intros s _ [H1 [H2|[H2 H3]]] H; [congruence|auto]. }
  split.
  - intros s a b IS PS BA BB NB. unfold ti_p4 at 1 2. destruct (sc_status (ti_script s)) eqn:S.
    3:{ intros _. left. unfold go_on, ti_p4. rewrite S. cbn [bind fst snd]. rewrite S. destruct a; reflexivity. }
    all: unfold go_on; unfold ti_p4 at 1; rewrite S; rewrite read_loop_o_app;
      (destruct (read_loop_o _ (ti_parsed s) _ _ a) as [[[q p] r]|]; cbn [bind]; [|congruence]);
      intros _; left; cbn [fst snd]; (destruct r; [|reflexivity]);
      unfold ti_p4; ti_cbn; rewrite S; reflexivity.
  - intros [h i sc sq w st p] IS. unfold ti_p4. ti_cbn. destruct (sc_status sc); reflexivity.
  - intros [h i sc sq w st p] x IS D. unfold ti_p4, ti_done4 in *. ti_cbn. destruct D as [D|[D1 D2]]; rewrite ?D, ?D1; auto.
    rewrite read_loop_o_stop by lia. reflexivity.
  - intros s a s1 r IS PS BA E. unfold ti_p4 in E. destruct (sc_status (ti_script s)) eqn:S.
    3:{ injection E as <- <-. split; [auto|split; [auto|split; [auto|]]]. intros _. left. auto. }
    2:{ destruct (X s IS PS); congruence. }
    destruct (X s IS PS ltac:(congruence)) as [_ X2].
    destruct (read_loop_o _ (ti_parsed s) _ _ a) as [[[q p] r1]|] eqn:R; cbn [bind] in E; [|discriminate].
    injection E as <- <-. apply read_loop_o_pos in R as (Q1 & Q2 & Q3 & Q4 & Q5).
    destruct IS as (I1 & I2 & (J1 & J2 & J3) & K1 & K2). destruct PS as [P1 P2]. specialize (K2 S X2).
    split; [|split; [|split]].
    + split; [exact I1|]. split; ti_cbn; [lia|]. split; [split; [exact J1|]; split; ti_cbn; [lia|congruence]|].
      split; [congruence|]. intros _ _. lia.
    + split; ti_cbn; [lia|]. right. split; [lia|auto].
    + rewrite Q5 in BA. apply bytes_ok_app in BA. tauto.
    + intros NR. right. ti_cbn. split; auto. destruct Q4; auto. congruence.
  - intros s IS B. left. exact B.
Qed.

Definition ti_D (t : txin) : Prop := ti_done3 t /\ ti_done4 t.
Lemma ti_phF : ph ti_bad ti_I (fun _ => True) ti_D ti_F.
Proof.
  unfold ti_F, ti_D.
  eapply ph_then; [eapply ph_then; [eapply ph_then; [apply ti_ph1|apply ti_ph2|]|apply ti_ph3|]|apply ti_ph4|]; cbv beta.
  - intros; lia.
  - intros s _. unfold ti_done3, sub_done. tauto.
  - intros; tauto.
Qed.

(** An object whose parsing can be (re)started or continued. *)
Definition txin_ok (t : txin) : Prop :=
  ti_status t = INCOMPLETE -> ti_I t /\ sc_status (ti_script t) <> FAILED.

Lemma script_length_range : forall s, 0 <= script_length s < 2^64.
Proof. intros. unfold script_length, u64. apply Z.mod_pos_bound. lia. Qed.

Lemma txin_both :
  (forall s a b, txin_ok s -> a <> [] -> b <> [] -> bytes_ok a -> bytes_ok b -> txin_parse s (a ++ b) <> UB ->
     same_result ti_status (txin_parse s (a ++ b)) (chain txin_parse ti_status (txin_parse s a) b)) /\
  (forall s a s1 n1 r1, txin_ok s -> a <> [] -> bytes_ok a -> txin_parse s a = Ok (s1, n1, r1) ->
     ti_status s1 = INCOMPLETE -> r1 = [] /\ txin_ok s1).
Proof.
  apply (phases_both ti_bad txin_parse ti_status ti_parsed ti_start ti_F ti_fin ti_I ti_D txin_ok ti_phF).
  - apply txin_parse_eq.
  - intros s st H. unfold txin_parse. rewrite H. reflexivity.
  - intros s OK NF. unfold ti_start. destruct (ti_status s) eqn:S; [| |congruence].
    + assert (SS : sc_status (script_assign (ti_script s) script_new) = DONE).
      { unfold script_assign, script_clear. cbn [sc_len script_new]. destruct (0 <? sc_len (ti_script s)); reflexivity. }
      split; [reflexivity|]. ti_cbn. split; [lia|]. split; [|split]; ti_cbn; try congruence; try lia.
      split; [|split]; ti_cbn; auto; try congruence.
    + destruct (OK S) as [X _]. destruct s. ti_cbn. subst. exact X.
  - intros s IS S _. split.
    + unfold ti_I, sub_inv in *. unfold ti_fin in *. ti_cbn. rewrite S. tauto.
    + unfold ti_fin in *. ti_cbn. destruct (sc_status (ti_script s)); congruence.
  - intros s (I1 & _) S. unfold ti_start. rewrite S. unfold ti_fin. destruct s. ti_cbn. subst. reflexivity.
  - intros s IS. unfold ti_bad, ti_fin. ti_cbn. destruct (sc_status (ti_script s)); split; try congruence.
    destruct (_ =? _); congruence.
  - intros s IS S. unfold ti_fin in S. ti_cbn. pose proof (script_length_range (ti_script s)).
    destruct (sc_status (ti_script s)) eqn:E; try discriminate.
    destruct (Z.eqb_spec (ti_parsed s) (40 + script_length (ti_script s))); [|discriminate].
    split; [split; [lia|right; split; [lia|auto]]|right; split; auto; lia].
  - intros s IS [D3 D4] S. unfold ti_fin in S. ti_cbn. destruct D4 as [D4|[D4 D5]]; rewrite D4 in S; [discriminate|].
    destruct (Z.eqb_spec (ti_parsed s) (40 + script_length (ti_script s))); [discriminate|].
    destruct D3 as [_ [D3|[D3 _]]]; [congruence|].
    destruct IS as (_ & _ & _ & _ & K). specialize (K D4 D3). lia.
Qed.
Lemma txin_chunks : forall t, txin_ok t -> chunk_invariant txin_parse ti_status t.
Proof.
  intros t OK chunks NE F D. eapply feed_same with (ok := txin_ok); eauto; apply txin_both.
Qed.

(** ** Incremental parsing of TxOut *)
Definition to_fin (t : txout) : txout :=
  mkTxout (to_tmp t) (to_amount t) (to_script t)
    (match sc_status (to_script t) with
     | FAILED => FAILED
     | DONE => if to_parsed t =? 8 + script_length (to_script t) then DONE else INCOMPLETE
     | INCOMPLETE => INCOMPLETE end)
    (to_parsed t).
Definition to_start (t : txout) : txout :=
  match to_status t with
  | DONE => let sc := script_clear (to_script t) in
            mkTxout (zeros 8) 0 (mkScript (sc_arr sc) (sc_len sc) (sc_lenLen sc) DONE 0) INCOMPLETE 0
  | _ => mkTxout (to_tmp t) (to_amount t) (to_script t) INCOMPLETE (to_parsed t)
  end.
Definition to_bad (t : txout) : Prop := sc_status (to_script t) = FAILED.
Definition to_p1 : @phase txout := fun t st =>
  let! x := read_loop_o 8 (to_parsed t) txout_amount_step (to_tmp t, to_amount t) st in
  let '(a, p, r) := x in
  Ok (mkTxout (fst a) (snd a) (to_script t) (to_status t) p, r).
Definition to_upd2 (t : txout) (q : script) (p : Z) : txout :=
  mkTxout (to_tmp t) (to_amount t) q (to_status t) p.
Definition to_p2 : @phase txout := sub_phase script_parse sc_status to_script to_parsed to_upd2 8.
Definition to_F : @phase txout := seq to_p1 to_p2.
Ltac to_cbn := cbn [to_tmp to_amount to_script to_status to_parsed] in *.

Lemma txout_parse_eq : forall t st, to_status t <> FAILED ->
  txout_parse t st = let! x := to_F (to_start t) st in Ok (to_fin (fst x), to_parsed (fst x) - to_parsed (to_start t), snd x).
Proof.
  intros t st NF.
  assert (B : forall t0, txout_parse_body t0 st =
    let! x := to_F (mkTxout (to_tmp t0) (to_amount t0) (to_script t0) INCOMPLETE (to_parsed t0)) st in
    Ok (to_fin (fst x), to_parsed (fst x) - to_parsed t0, snd x)).
  { intros t0. unfold txout_parse_body, to_F, seq. unfold to_p1 at 1. to_cbn.
    destruct (read_loop_o 8 _ _ _ st) as [[[a1 p1] s1]|]; cbn [bind fst snd]; auto.
    unfold to_p2, sub_phase. to_cbn.
    match goal with |- (let! r3 := ?E in _) = _ => destruct E as [[[q3 n3] s3]|] end; cbn [bind]; auto.
    match goal with |- (let! r3 := ?E in _) = _ => destruct E as [[[q4 n4] s4]|] end; cbn [bind fst snd]; auto. }
  unfold txout_parse, to_start. destruct (to_status t) eqn:S; [| |congruence].
  - cbv zeta. rewrite B by auto. reflexivity.
  - rewrite B by auto. reflexivity.
Qed.
Definition to_I (t : txout) : Prop :=
  to_status t = INCOMPLETE /\ 0 <= to_parsed t /\
  sub_inv sc_status script_ok to_script to_parsed 8 t /\
  (sc_status (to_script t) = INCOMPLETE -> to_parsed t = 8 + sc_parsed (to_script t)) /\
  (sc_status (to_script t) = DONE -> 8 < to_parsed t -> to_parsed t = 8 + script_length (to_script t)) /\
  (sc_status (to_script t) = DONE -> to_parsed t <= 8 -> sc_len (to_script t) = 0).
Lemma to_ph1 : ph to_bad to_I (fun _ => True) (fun t => 8 <= to_parsed t) to_p1.
Proof.
  apply (ph_loop to_bad to_I (fun _ => True) (fun t => (to_tmp t, to_amount t)) to_parsed
    (fun t a p => mkTxout (fst a) (snd a) (to_script t) (to_status t) p)
    (fun _ => 8) (fun _ => txout_amount_step)); auto.
  - intros []; reflexivity.
  - intros s [? ?] p; reflexivity.
  - intros s (_ & _ & (_ & J & _) & _) B. unfold to_bad in B. destruct (Z.le_gt_cases 8 (to_parsed s)); auto.
    specialize (J ltac:(lia)). congruence.
  - intros s st a p r (I1 & I2 & (J1 & J2 & J3) & K1 & K2 & K3) _ _ E. apply read_loop_o_pos in E as (Q1 & Q2 & Q3 & Q4 & _).
    split; auto. split; [exact I1|]. split; to_cbn; [lia|]. split; [|split; [|split]]; to_cbn.
    + split; [exact J1|]. split; to_cbn; [intros; apply J2; lia|intros S; specialize (J3 S); lia].
    + intros S. specialize (K1 S). specialize (J3 S). lia.
    + intros S L. apply K2 in S; lia.
    + intros S L. apply K3; [auto|lia].
Qed.
Definition to_done := sub_done sc_status to_script to_parsed 8.
Lemma to_ph2 : ph to_bad to_I (fun t => 8 <= to_parsed t) to_done to_p2.
Proof.
  apply (ph_sub to_bad script_parse sc_status script_ok script_two script_inc script_ok_other script_count
    to_script to_parsed to_upd2 8 to_I); auto.
  - intros []; reflexivity.
  - intros s. reflexivity.
  - intros s H. apply H.
  - intros s st q n r (I1 & I2 & I3 & I4 & I5 & I6) H1 A NE B E N H3. split; [exact I1|]. split; [unfold to_upd2; to_cbn; lia|].
    split; [exact H3|]. unfold to_upd2; to_cbn.
    assert (X : sc_status q <> FAILED -> to_parsed s + n = 8 + sc_parsed q /\ (sc_status q = DONE -> script_length q = sc_parsed q)).
    { intros NF. destruct (script_done_len _ _ _ _ _ (proj1 I3) NE B E NF) as [X1 X2]. split; auto.
      unfold active in A. destruct A as [[A1 A2]|A]; [rewrite A2 in X1; lia|]. specialize (I4 A). rewrite A in X1. lia. }
    split; [|split].
    + intros S. apply X. congruence.
    + intros S L. destruct (X ltac:(congruence)) as [X1 X2]. rewrite X2 by auto. lia.
    + intros S L. exfalso. destruct (script_count _ _ _ _ _ (proj1 I3) NE B E) as (C1 & C2 & _).
      destruct A as [[A1 A2]|A]; [destruct (C2 A2); [congruence|lia]|].
      destruct I3 as (_ & _ & I3). specialize (I3 A). lia.
  - apply script_parse_failed.
Qed.
Lemma to_phF : ph to_bad to_I (fun _ => True) to_done to_F.
Proof.
  eapply ph_then; [apply to_ph1|apply to_ph2|]. intros s _. unfold to_done, sub_done. tauto.
Qed.
Definition txout_ok (t : txout) : Prop :=
  match to_status t with
  | DONE => 0 <= sc_len (to_script t)
  | INCOMPLETE => to_I t /\ sc_status (to_script t) <> FAILED /\ (sc_status (to_script t) = DONE -> to_parsed t <= 8)
  | FAILED => True
  end.
Lemma txout_both :
  (forall s a b, txout_ok s -> a <> [] -> b <> [] -> bytes_ok a -> bytes_ok b -> txout_parse s (a ++ b) <> UB ->
     same_result to_status (txout_parse s (a ++ b)) (chain txout_parse to_status (txout_parse s a) b)) /\
  (forall s a s1 n1 r1, txout_ok s -> a <> [] -> bytes_ok a -> txout_parse s a = Ok (s1, n1, r1) ->
     to_status s1 = INCOMPLETE -> r1 = [] /\ txout_ok s1).
Proof.
  apply (phases_both to_bad txout_parse to_status to_parsed to_start to_F to_fin to_I to_done txout_ok to_phF).
  - apply txout_parse_eq.
  - intros s st H. unfold txout_parse. rewrite H. reflexivity.
  - intros s OK NF. unfold to_start. destruct (to_status s) eqn:S; [| |congruence].
    + unfold txout_ok in OK. rewrite S in OK.
      split; [reflexivity|]. to_cbn. split; [lia|]. split; [|split; [|split]]; to_cbn; cbn [sc_status]; try congruence; try lia.
      * split; [|split]; to_cbn; auto; cbn [sc_status]; try congruence. apply script_ok_other. cbn. congruence.
      * intros _ _. unfold script_clear. destruct (Z.ltb_spec 0 (sc_len (to_script s))); cbn [sc_len]; auto. lia.
    + unfold txout_ok in OK. rewrite S in OK. destruct OK as [X _]. destruct s. to_cbn. subst. exact X.
  - intros s IS S. unfold txout_ok. rewrite S. split; [|split].
    + unfold to_I, sub_inv in *. unfold to_fin in *. to_cbn. rewrite S. tauto.
    + unfold to_fin in *. to_cbn. destruct (sc_status (to_script s)); congruence.
    + unfold to_fin in *. to_cbn. intros X. rewrite X in S. destruct IS as (_ & _ & _ & _ & K & _). specialize (K X).
      destruct (Z.eqb_spec (to_parsed s) (8 + script_length (to_script s))); [discriminate|lia].
  - intros s (I1 & _) S. unfold to_start. rewrite S. unfold to_fin. destruct s. to_cbn. subst. reflexivity.
  - intros s IS. unfold to_bad, to_fin. to_cbn. destruct (sc_status (to_script s)); split; try congruence.
    destruct (_ =? _); congruence.
  - intros s IS S. unfold to_fin in S. to_cbn. pose proof (script_length_range (to_script s)).
    destruct (sc_status (to_script s)) eqn:E; try discriminate.
    destruct (Z.eqb_spec (to_parsed s) (8 + script_length (to_script s))); [|discriminate].
    destruct IS as (_ & _ & (J1 & J2 & J3) & _ & _ & K).
    split; [lia|]. right. split; [|auto].
    destruct (Z.eq_dec (to_parsed s) 8) as [E8|]; [|lia].
    specialize (K E ltac:(lia)). exfalso. unfold script_length in e. rewrite K, E8 in e. discriminate.
  - intros s IS D3 S. unfold to_fin in S. to_cbn.
    destruct D3 as [_ [D3|[D3 D4]]]; [rewrite D3 in S; discriminate|].
    rewrite D4 in S. destruct IS as (_ & _ & _ & _ & K & _). specialize (K D4 D3).
    destruct (Z.eqb_spec (to_parsed s) (8 + script_length (to_script s))); [discriminate|]. lia.
Qed.
Lemma txout_chunks : forall t, txout_ok t -> chunk_invariant txout_parse to_status t.
Proof.
  intros t OK chunks NE F D. eapply feed_same with (ok := txout_ok); eauto; apply txout_both.
Qed.

(** ** Serialization *)
Definition txin_wf (t : txin) : Prop :=
  length (ti_hash t) = 32%nat /\ bytes_ok (ti_hash t) /\ 0 <= ti_index t < 2^32 /\ 0 <= ti_seq t < 2^32 /\ script_wf (ti_script t).
Definition txout_wf (t : txout) : Prop := 0 <= to_amount t < 2^64 /\ script_wf (to_script t).
(** What the fields of an object mean. *)
Definition abs_in (t : txin) (w : list (list Z)) : s_txin :=
  {| si_prev := ti_hash t; si_vout := ti_index t; si_sig := sc_arr (ti_script t); si_seq := ti_seq t; si_wit := w |}.
Definition abs_out (t : txout) : s_txout := {| so_value := to_amount t; so_script := sc_arr (to_script t) |}.

Lemma int4 : forall n, 0 <= n < 2^32 -> intToLittleEndian n 4 = Ok (le_bytes 4 n).
Proof. intros. apply intToLittleEndian_ok; lia. Qed.

Lemma wire_bytes_small : forall bs, len bs < 2^31 -> 1 <= len (wire_bytes bs) <= 9 + 2^31.
Proof.
  intros bs H. rewrite len_wire_bytes. pose proof (len_nonneg _ bs). pose proof (compact_size_len (len bs) ltac:(lia)). lia.
Qed.
Lemma len_wire_in : forall i, length (si_prev i) = 32%nat -> len (wire_in i) = 40 + len (wire_bytes (si_sig i)).
Proof.
  intros i H. unfold wire_in. rewrite !len_app, !len_le_bytes. unfold len at 1. lia.
Qed.
Lemma txin_length_wire : forall t w, txin_wf t -> txin_length t = len (wire_in (abs_in t w)).
Proof.
  intros t w (H & _ & _ & _ & S). rewrite len_wire_in by auto. unfold txin_length. rewrite script_length_wire by auto. cbn [abs_in si_sig]. lia.
Qed.
Lemma txin_serializes : forall t w, txin_wf t -> serializes (txin_to_stream t) (wire_in (abs_in t w)).
Proof.
  intros t w (H & B & Hi & Hs & S). unfold wire_in. cbn [abs_in si_prev si_vout si_sig si_seq].
  pose proof (wire_bytes_small _ (proj2 (proj2 S))).
  assert (L32 : len (ti_hash t) = 32) by (unfold len; lia).
  eapply (writes_serializes _ (fun w0 =>
    let! w1 := write_loop 32 0 32 (ti_hash t) w0 in
    let! w2 := write_loop 4 32 4 (le_bytes 4 (ti_index t)) w1 in
    let! w3 := write_obj 36 (len (wire_bytes (sc_arr (ti_script t)))) (script_to_stream (ti_script t)) w2 in
    write_loop 4 (36 + len (wire_bytes (sc_arr (ti_script t)))) 4 (le_bytes 4 (ti_seq t)) w3)).
  - apply writes_seq; [apply writes_loop_all; lia|].
    rewrite L32. apply writes_seq; [apply writes_loop_all; [rewrite len_le_bytes; lia|rewrite le_bytes_length; lia]|].
    rewrite len_le_bytes. apply writes_seq; [apply writes_obj; [apply script_serializes; auto|lia|lia]|].
    apply writes_loop_all; [rewrite len_le_bytes; lia|rewrite le_bytes_length; lia].
  - intros cap off. unfold txin_to_stream. rewrite !int4 by auto. cbn [bind]. rewrite script_length_wire by auto.
    destruct (write_loop 32 _ _ _ _); cbn [bind]; auto. destruct (write_loop 4 _ _ _ _); cbn [bind]; auto.
    destruct (write_obj _ _ _ _); cbn [bind]; auto.
Qed.
Lemma len_wire_out : forall o, len (wire_out o) = 8 + len (wire_bytes (so_script o)).
Proof. intros o. unfold wire_out. rewrite len_app, len_le_bytes. lia. Qed.
Lemma txout_length_wire : forall t, txout_wf t -> txout_length t = len (wire_out (abs_out t)).
Proof.
  intros t (H & S). rewrite len_wire_out. unfold txout_length. rewrite script_length_wire by auto. reflexivity.
Qed.
Lemma txout_serializes : forall t, txout_wf t -> serializes (txout_to_stream t) (wire_out (abs_out t)).
Proof.
  intros t (H & S). unfold wire_out. cbn [abs_out so_value so_script].
  pose proof (wire_bytes_small _ (proj2 (proj2 S))).
  eapply (writes_serializes _ (fun w0 =>
    let! w1 := write_loop 8 0 8 (le_bytes 8 (to_amount t)) w0 in
    write_obj 8 (len (wire_bytes (sc_arr (to_script t)))) (script_to_stream (to_script t)) w1)).
  - apply writes_seq; [apply writes_loop_all; [rewrite len_le_bytes; lia|rewrite le_bytes_length; lia]|].
    rewrite len_le_bytes. apply writes_obj; [apply script_serializes; auto|lia|lia].
  - intros cap off. unfold txout_to_stream. rewrite intToLittleEndian_ok by lia. cbn [bind]. rewrite script_length_wire by auto.
    destruct (write_loop 8 _ _ _ _); cbn [bind]; auto.
Qed.

(** ** Parsing back *)
Lemma acc32_step : forall base acc j c, 0 <= j < 4 ->
  acc32 base acc (base + j) c = Ok (u32 (acc + 2^(8*j) * c)).
Proof.
  intros base acc j c H. unfold acc32, shl_int. replace (base + j - base) with j by lia.
  replace ((0 <=? 8 * j) && (8 * j <? 32)) with true by (symmetry; apply andb_true_intro; lia).
  rewrite Z.shiftl_mul_pow2 by lia. cbn [bind]. f_equal. unfold u32.
  rewrite <- Z.add_mod_idemp_r by lia. rewrite i32_mod. rewrite Z.add_mod_idemp_r by lia. f_equal. lia.
Qed.
Lemma acc32_loop : forall bs base rest j acc, 0 <= j -> j + len bs <= 4 ->
  read_loop_o (base + j + len bs) (base + j) (acc32 base) (u32 acc) (bs ++ rest)
    = Ok (u32 (acc + 2^(8*j) * le_val 256 bs), base + j + len bs, rest).
Proof.
  induction bs as [|c t IH]; intros base rest j acc HJ HL.
  - cbn [app le_val]. rewrite len_nil, read_loop_o_stop by lia. rewrite Z.mul_0_r, !Z.add_0_r. reflexivity.
  - rewrite len_cons in *. pose proof (len_nonneg _ t). cbn [app read_loop_o le_val].
    destruct (Z.ltb_spec (base + j) (base + j + (1 + len t))); [|lia].
    rewrite acc32_step by lia. cbn [bind].
    replace (base + j + (1 + len t)) with (base + (j + 1) + len t) by lia.
    replace (base + j + 1) with (base + (j + 1)) by lia.
    assert (E : u32 (u32 acc + 2^(8*j) * c) = u32 (acc + 2^(8*j) * c)).
    { unfold u32. rewrite Z.add_mod_idemp_l by lia. reflexivity. }
    rewrite E, IH by lia. do 3 f_equal.
    replace (8 * (j + 1)) with (8 * j + 8) by lia. rewrite Z.pow_add_r by lia. change (2^8) with 256. f_equal. lia.
Qed.
Lemma acc32_le4 : forall base n rest, 0 <= n < 2^32 ->
  read_loop_o (base + 4) base (acc32 base) 0 (le_bytes 4 n ++ rest) = Ok (n, base + 4, rest).
Proof.
  intros base n rest H. pose proof (acc32_loop (le_bytes 4 n) base rest 0 0 ltac:(lia)) as L.
  rewrite len_le_bytes, le_val_le_bytes in L. specialize (L ltac:(lia)).
  rewrite !Z.add_0_r in L. change (u32 0) with 0 in L. change (Z.of_nat 4) with 4 in L. rewrite L. do 3 f_equal.
  change (256^4) with (2^32). rewrite (Z.mod_small n) by lia. unfold u32. change (2^(8*0)) with 1. rewrite Z.mod_small; lia.
Qed.
Lemma hash_loop : forall h h0 rest, length h0 = 32%nat -> length h = 32%nat ->
  read_loop_o 32 0 (fun a p c => aset a p c) h0 (h ++ rest) = Ok (h, 32, rest).
Proof.
  intros h h0 rest H0 H.
  pose proof (fill_loop 0 32 (fun a p c => aset a p c)) as F.
  specialize (F ltac:(intros; rewrite Z.sub_0_r; reflexivity) (h ++ rest) 0 [] h0 ltac:(reflexivity)).
  cbn [app] in F. rewrite F by (unfold len; cbn [length]; lia).
  replace (Nat.min (length (h ++ rest)) (Z.to_nat (32 - 0))) with (length h) by (rewrite app_length; change (Z.to_nat (32 - 0)) with 32%nat; lia).
  rewrite firstn_app_len, skipn_app_len by auto. rewrite skipn_all2 by lia. rewrite app_nil_r, H. reflexivity.
Qed.

Definition parsed_in (i : s_txin) (w : witness) : txin :=
  mkTxin (si_prev i) (si_vout i) (parsed_script (si_sig i)) (si_seq i) w DONE (len (wire_in i)).
Lemma parsed_script_length : forall bs, bytes_ok bs -> len bs < 2^31 -> script_length (parsed_script bs) = len (wire_bytes bs).
Proof. intros bs B L. rewrite script_length_wire by (apply parsed_script_wf; auto). reflexivity. Qed.

Lemma assign_new : forall s, let r := script_assign s script_new in
  sc_status r = DONE /\ (sc_len s = len (sc_arr s) -> sc_len r = len (sc_arr r)).
Proof.
  intros s. unfold script_assign. cbn [sc_len script_new]. change (0 <? 0) with false. cbv iota zeta.
  unfold script_clear. cbn [sc_len]. destruct (0 <? sc_len s); cbn [sc_status sc_len sc_arr]; auto.
Qed.
Lemma txin_parse_wire : forall t i rest, ti_status t = DONE -> length (ti_hash t) = 32%nat ->
  sc_len (ti_script t) = len (sc_arr (ti_script t)) -> in_ok i ->
  txin_parse t (wire_in i ++ rest) = Ok (parsed_in i (ti_wit t), len (wire_in i), rest).
Proof.
  intros t i rest HS H32 HL (P1 & P2 & P3 & P4 & P5 & P6 & _).
  unfold txin_parse. rewrite HS. unfold txin_parse_body. ti_cbn.
  unfold parsed_in. rewrite len_wire_in by auto. unfold wire_in. rewrite <- !app_assoc.
  rewrite hash_loop by auto. cbn [bind].
  change (read_loop_o 36 32 (acc32 32) 0) with (read_loop_o (32 + 4) 32 (acc32 32) 0).
  rewrite (acc32_le4 32) by auto. change (32 + 4) with 36. cbn [bind].
  pose proof (wire_bytes_small (si_sig i) P6) as W.
  destruct (wire_bytes (si_sig i) ++ le_bytes 4 (si_seq i) ++ rest) as [|x y] eqn:E.
  { exfalso. destruct (wire_bytes (si_sig i)); [rewrite len_nil in W; lia|discriminate]. }
  rewrite <- E. clear E x y. rewrite Z.eqb_refl.
  rewrite script_parse_wire; auto.
  2,3: apply assign_new; auto.
  cbn [bind parsed_script sc_status].
  assert (X : forall (A : Type) (l : list Z) (u : A), (match l with [] => u | _ :: _ => u end) = u) by (intros ? []; reflexivity).
  rewrite X. cbn [bind sc_status parsed_script]. fold (parsed_script (si_sig i)). rewrite parsed_script_length by auto.
  rewrite Z.add_0_r. replace (40 + len (wire_bytes (si_sig i))) with (36 + len (wire_bytes (si_sig i)) + 4) by lia.
  rewrite acc32_le4 by auto. cbn [bind pstatus_eqb]. rewrite Z.eqb_refl. cbn [andb]. rewrite Z.sub_0_r. reflexivity.
Qed.

Lemma amount_loop8 : forall b0 b1 b2 b3 b4 b5 b6 b7 rest,
  read_loop_o 8 0 txout_amount_step (zeros 8, 0) ([b0; b1; b2; b3; b4; b5; b6; b7] ++ rest) =
    Ok (([b0; b1; b2; b3; b4; b5; b6; b7], littleEndianToInt [b0; b1; b2; b3; b4; b5; b6; b7]), 8, rest).
Proof. intros. destruct rest; reflexivity. Qed.
Lemma amount_loop : forall n rest, 0 <= n < 2^64 ->
  read_loop_o 8 0 txout_amount_step (zeros 8, 0) (le_bytes 8 n ++ rest) = Ok ((le_bytes 8 n, n), 8, rest).
Proof.
  intros n rest H. pose proof (le_val_le_bytes 8 n) as V. pose proof (le_bytes_ok 8 n) as B.
  change (256 ^ Z.of_nat 8) with (2^64) in V. rewrite (Z.mod_small n) in V by lia.
  assert (E : littleEndianToInt (le_bytes 8 n) = n) by (rewrite littleEndianToInt_mod, V by auto; apply Z.mod_small; lia).
  pose proof (le_bytes_length 8 n) as L.
  destruct (le_bytes 8 n) as [|b0 [|b1 [|b2 [|b3 [|b4 [|b5 [|b6 [|b7 [|b8 l]]]]]]]]]; try discriminate.
  rewrite amount_loop8, E. reflexivity.
Qed.
Definition parsed_out (o : s_txout) : txout :=
  mkTxout (le_bytes 8 (so_value o)) (so_value o) (parsed_script (so_script o)) DONE (len (wire_out o)).
Lemma txout_parse_wire : forall t o rest, to_status t = DONE ->
  sc_len (to_script t) = len (sc_arr (to_script t)) -> out_ok o ->
  txout_parse t (wire_out o ++ rest) = Ok (parsed_out o, len (wire_out o), rest).
Proof.
  intros t o rest HS HL (P1 & P2 & P3).
  unfold txout_parse. rewrite HS. cbv zeta. unfold txout_parse_body. to_cbn.
  unfold parsed_out. rewrite len_wire_out. unfold wire_out. rewrite <- !app_assoc.
  rewrite amount_loop by auto. cbn [bind fst snd].
  pose proof (wire_bytes_small (so_script o) P3) as W.
  destruct (wire_bytes (so_script o) ++ rest) as [|x y] eqn:E.
  { exfalso. destruct (wire_bytes (so_script o)); [rewrite len_nil in W; lia|discriminate]. }
  rewrite <- E. clear E x y. rewrite Z.eqb_refl.
  rewrite script_parse_wire; auto; cbn [sc_len sc_arr].
  2:{ unfold script_clear. rewrite HL. destruct (Z.ltb_spec 0 (len (sc_arr (to_script t)))); cbn [sc_len sc_arr]; auto. }
  cbn [bind parsed_script sc_status].
  assert (X : forall (A : Type) (l : list Z) (u : A), (match l with [] => u | _ :: _ => u end) = u) by (intros ? []; reflexivity).
  rewrite X. cbn [bind sc_status parsed_script]. fold (parsed_script (so_script o)). rewrite parsed_script_length by auto.
  rewrite Z.add_0_r, Z.eqb_refl, Z.sub_0_r. reflexivity.
Qed.
