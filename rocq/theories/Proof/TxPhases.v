(** The parts of a transaction up to its outputs as phases. *)
From Coq Require Import Lia.
From Verif Require Import Base.Bytes Base.BytesFacts Model.Conversion Model.Stream Model.Script Model.Tx
  Spec.Wire Proof.StreamFacts Proof.Chunks Proof.Phases Proof.TxIo Proof.ListPhase.
Open Scope Z_scope.

(** ** Elements *)
Definition in1 : txin := mkTxin (zeros 32) 0 (script_assign script_new script_new) 0 witness_new INCOMPLETE 0.
Definition out1 : txout := to_start txout_new.
Definition in_fine (e : txin) : Prop :=
  (ti_status e = INCOMPLETE -> txin_ok e) /\ (ti_status e = DONE -> ti_parsed e = txin_length e) .
Definition out_fine (e : txout) : Prop :=
  (to_status e = INCOMPLETE -> txout_ok e) /\ (to_status e = DONE -> to_parsed e = txout_length e).

Lemma in1_nil : txin_parse txin_new [] = Ok (in1, 0, []).
Proof. reflexivity. Qed.
Lemma in1_same : forall st, st <> [] -> txin_parse txin_new st = txin_parse in1 st.
Proof. reflexivity. Qed.
Lemma in1_fine : in_fine in1.
Proof.
  split; [|discriminate]. intros _ _. split; [|discriminate]. split; [reflexivity|]. cbn [ti_parsed in1]. split; [lia|].
  split; [|split; [discriminate|cbn; lia]]. split; [discriminate|]. split; [reflexivity|discriminate].
Qed.
Lemma out1_nil : txout_parse txout_new [] = Ok (out1, 0, []).
Proof. reflexivity. Qed.
Lemma out1_same : forall st, st <> [] -> txout_parse txout_new st = txout_parse out1 st.
Proof. reflexivity. Qed.
Lemma out1_fine : out_fine out1.
Proof.
  split; [|discriminate]. intros _. unfold txout_ok. cbn [out1 to_start to_status txout_new]. split; [|split; [discriminate|cbn; lia]].
  split; [reflexivity|]. split; [cbn; lia|]. split; [|split; [discriminate|split; [cbn; lia|reflexivity]]].
  split; [discriminate|]. split; [reflexivity|discriminate].
Qed.
Lemma in_two : forall s a b, in_fine s -> ti_status s = INCOMPLETE -> a <> [] -> b <> [] -> bytes_ok a -> bytes_ok b ->
  txin_parse s (a ++ b) <> UB -> same_result ti_status (txin_parse s (a ++ b)) (chain txin_parse ti_status (txin_parse s a) b).
Proof. intros s a b [F _] S. apply txin_both. auto. Qed.
Lemma out_two : forall s a b, out_fine s -> to_status s = INCOMPLETE -> a <> [] -> b <> [] -> bytes_ok a -> bytes_ok b ->
  txout_parse s (a ++ b) <> UB -> same_result to_status (txout_parse s (a ++ b)) (chain txout_parse to_status (txout_parse s a) b).
Proof. intros s a b [F _] S. apply txout_both. auto. Qed.
Lemma in_step : forall s a s1 n1 r1, in_fine s -> ti_status s = INCOMPLETE -> a <> [] -> bytes_ok a -> txin_parse s a = Ok (s1, n1, r1) ->
  in_fine s1 /\ (ti_status s1 = INCOMPLETE -> r1 = []) /\ bytes_ok r1 /\ (ti_status s1 <> FAILED -> ti_parsed s1 = ti_parsed s + n1).
Proof.
  intros s a s1 n1 r1 [F1 F2] S NE B P. pose proof (F1 S) as OK.
  pose proof (fun E => proj2 txin_both s a s1 n1 r1 OK NE B P E) as C.
  rewrite txin_parse_eq in P by congruence. assert (ST : ti_start s = s) by (unfold ti_start; rewrite S; destruct s; ti_cbn; subst; auto).
  rewrite ST in P. destruct (OK S) as [IS _].
  destruct (ti_F s a) as [[x r]|] eqn:E; cbn [bind fst snd] in P; [|discriminate].
  destruct (ph_end _ _ _ _ _ ti_phF _ _ _ _ IS Logic.I B E) as (I1 & _ & B1 & _).
  injection P as <- <- <-. split; [|split; [|split]]; auto.
  - split; [apply C|]. unfold ti_fin, txin_length. ti_cbn. destruct (sc_status (ti_script x)); try discriminate.
    destruct (Z.eqb_spec (ti_parsed x) (40 + script_length (ti_script x))); [lia|discriminate].
  - apply C.
  - intros _. unfold ti_fin. ti_cbn. lia.
Qed.
Lemma out_step : forall s a s1 n1 r1, out_fine s -> to_status s = INCOMPLETE -> a <> [] -> bytes_ok a -> txout_parse s a = Ok (s1, n1, r1) ->
  out_fine s1 /\ (to_status s1 = INCOMPLETE -> r1 = []) /\ bytes_ok r1 /\ (to_status s1 <> FAILED -> to_parsed s1 = to_parsed s + n1).
Proof.
  intros s a s1 n1 r1 [F1 F2] S NE B P. pose proof (F1 S) as OK.
  pose proof (fun E => proj2 txout_both s a s1 n1 r1 OK NE B P E) as C.
  rewrite txout_parse_eq in P by congruence. assert (ST : to_start s = s) by (unfold to_start; rewrite S; destruct s; to_cbn; subst; auto).
  rewrite ST in P. unfold txout_ok in OK. rewrite S in OK. destruct OK as [IS _].
  destruct (to_F s a) as [[x r]|] eqn:E; cbn [bind fst snd] in P; [|discriminate].
  destruct (ph_end _ _ _ _ _ to_phF _ _ _ _ IS Logic.I B E) as (I1 & _ & B1 & _).
  injection P as <- <- <-. split; [|split; [|split]]; auto.
  - split; [apply C|]. unfold to_fin, txout_length. to_cbn. destruct (sc_status (to_script x)); try discriminate.
    destruct (Z.eqb_spec (to_parsed x) (8 + script_length (to_script x))); [lia|discriminate].
  - apply C.
  - intros _. unfold to_fin. to_cbn. lia.
Qed.
Notation ins_at := (zat ti_parsed).
Notation outs_at := (zat to_parsed).
Lemma ins_at_nonneg : forall l, Forall in_fine l -> lclean ti_status l -> 0 <= ins_at l.
Proof.
  induction l as [|e l IH]; intros F C; [reflexivity|]. inversion F as [|? ? [F1 F2] F3]; inversion C; subst.
  specialize (IH F3 ltac:(assumption)). rewrite zat_cons. destruct (ti_status e) eqn:S; [| |congruence].
  - rewrite F2 by auto. unfold txin_length. pose proof (script_length_range (ti_script e)). lia.
  - destruct (F1 eq_refl S) as [(_ & X & _) _]. lia.
Qed.
Lemma outs_at_nonneg : forall l, Forall out_fine l -> lclean to_status l -> 0 <= outs_at l.
Proof.
  induction l as [|e l IH]; intros F C; [reflexivity|]. inversion F as [|? ? [F1 F2] F3]; inversion C; subst.
  specialize (IH F3 ltac:(assumption)). rewrite zat_cons. destruct (to_status e) eqn:S; [| |congruence].
  - rewrite F2 by auto. unfold txout_length. pose proof (script_length_range (to_script e)). lia.
  - specialize (F1 eq_refl). unfold txout_ok in F1. rewrite S in F1. destruct F1 as [(_ & X & _) _]. lia.
Qed.
Lemma ins_at_done : forall l, Forall in_fine l -> ldone ti_status l -> zsum (map txin_length l) = ins_at l.
Proof.
  induction l as [|e l IH]; intros F C; [reflexivity|]. inversion F as [|? ? [F1 F2] F3]; inversion C; subst.
  rewrite zat_cons. cbn [map zsum fold_right]. fold (zsum (map txin_length l)). rewrite IH, F2; auto.
Qed.
Lemma outs_at_done : forall l, Forall out_fine l -> ldone to_status l -> zsum (map txout_length l) = outs_at l.
Proof.
  induction l as [|e l IH]; intros F C; [reflexivity|]. inversion F as [|? ? [F1 F2] F3]; inversion C; subst.
  rewrite zat_cons. cbn [map zsum fold_right]. fold (zsum (map txout_length l)). rewrite IH, F2; auto.
Qed.
Lemma zat_fresh : forall {E} (at_ : E -> Z) e n, at_ e = 0 -> zat at_ (repeat e n) = 0.
Proof. induction n as [|n IH]; intros H; auto. cbn [repeat]. rewrite zat_cons, IH; auto. lia. Qed.

(** ** Phases on transactions *)
Definition t_bad (s : tx) : Prop := t_status s = FAILED.
Definition t_fail (s : tx) (p : Z) : tx := mkTx (t_version s) (t_ins s) (t_outs s) (t_lock s) (t_segflag s) FAILED p.

Definition byte_phase (trig : tx -> bool) (upd : tx -> Z -> tx) : @phase tx := fun s st =>
  match st with
  | c :: t => if trig s then Ok (upd s c, t) else Ok (s, st)
  | [] => Ok (s, [])
  end.
Lemma ph_byte : forall (I Pre D : tx -> Prop) trig upd,
  (forall s, I s -> Pre s -> trig s = false -> D s) -> (forall s, I s -> D s -> trig s = false) ->
  (forall s, I s -> t_bad s -> D s) ->
  (forall s c, I s -> Pre s -> trig s = true -> byte_ok c -> I (upd s c) /\ Pre (upd s c) /\ D (upd s c)) ->
  ph t_bad I Pre D (byte_phase trig upd).
Proof.
  intros I Pre D trig upd H1 H2 H3 H4. split; auto.
  - intros s a b IS PS BA BB NB _. left. destruct a as [|c a]; cbn [app byte_phase].
    + unfold go_on. reflexivity.
    + destruct (trig s) eqn:T; unfold go_on; cbn [bind fst snd].
      * inversion BA; subst. destruct (H4 s c IS PS T) as (X1 & X2 & X3); auto. destruct a; auto.
        cbn [app]. unfold byte_phase. destruct b; [congruence|]. rewrite H2; auto.
      * reflexivity.
  - intros s x IS DS. unfold byte_phase. destruct x; auto. rewrite H2; auto.
  - intros s a s1 r IS PS BA E. unfold byte_phase in E. destruct a as [|c a].
    + injection E as <- <-. repeat split; auto. congruence.
    + inversion BA; subst. destruct (trig s) eqn:T; injection E as <- <-.
      * destruct (H4 s c IS PS T) as (X1 & X2 & X3); auto.
      * repeat split; auto.
Qed.

Section ListPhase.
Context {E : Type}.
Variable parse : E -> list Z -> outcome (E * Z * list Z).
Variable status : E -> pstatus.
Variable fine : E -> Prop.
Variable at_ : E -> Z.
Hypothesis two : forall s a b, fine s -> status s = INCOMPLETE -> a <> [] -> b <> [] -> bytes_ok a -> bytes_ok b ->
  parse s (a ++ b) <> UB -> same_result status (parse s (a ++ b)) (chain parse status (parse s a) b).
Hypothesis step : forall s a s1 n1 r1, fine s -> status s = INCOMPLETE -> a <> [] -> bytes_ok a -> parse s a = Ok (s1, n1, r1) ->
  fine s1 /\ (status s1 = INCOMPLETE -> r1 = []) /\ bytes_ok r1 /\ (status s1 <> FAILED -> at_ s1 = at_ s + n1).
Variable get : tx -> list E.
Variable upd : tx -> list E -> Z -> tx.
Hypothesis U1 : forall s, upd s (get s) (t_parsed s) = s.
Hypothesis U2 : forall s q p q2 p2, upd (upd s q p) q2 p2 = upd s q2 p2.
Hypothesis G : forall s q p, get (upd s q p) = q.
Hypothesis P : forall s q p, t_parsed (upd s q p) = p.
Hypothesis ST : forall s q p, t_status (upd s q p) = t_status s.
Variables I Pre : tx -> Prop.
Hypothesis IF : forall s, I s -> ~ t_bad s -> Forall fine (get s) /\ lclean status (get s).
Hypothesis Ifail : forall s, I s -> Pre s -> I (t_fail s (t_parsed s)) /\ Pre (t_fail s (t_parsed s)).
Hypothesis Iupd : forall s l n r, I s -> Pre s -> ~ t_bad s -> lclean status l -> Forall fine l -> zat at_ l = zat at_ (get s) + n ->
  length l = length (get s) -> (exists a, lrun parse status (get s) a = Ok (l, n, r)) -> I (upd s l (t_parsed s + n)) /\ Pre (upd s l (t_parsed s + n)).

Definition list_phase : @phase tx := fun s st =>
  match t_status s with
  | FAILED => Ok (s, st)
  | _ => let! x := lrun parse status (get s) st in
         let '(l, n, r) := x in
         Ok (if lbadb status l then t_fail s (t_parsed s) else upd s l (t_parsed s + n), r)
  end.
Lemma lrun_stays : forall l a l1 n1 r1, lbad status l -> lrun parse status l a = Ok (l1, n1, r1) -> lbad status l1.
Proof.
  induction l as [|e l IH]; intros a l1 n1 r1 B R; [inversion B|]. cbn [lrun] in R. destruct (status e) eqn:S.
  - destruct (lrun parse status l a) as [[[t2 n2] r2]|] eqn:E2; cbn [bind] in R; [|discriminate]. injection R as <- <- <-.
    inversion B; subst; [congruence|]. right. eapply IH; eauto.
  - inversion B; subst; [congruence|]. destruct a as [|c a].
    { injection R as <- <- <-. exact B. }
    destruct (parse e (c :: a)) as [[[e1 m1] s1]|]; cbn [bind] in R; [|discriminate].
    destruct (status e1).
    + destruct (lrun parse status l s1) as [[[t2 n2] r2]|] eqn:E2; cbn [bind] in R; [|discriminate]. injection R as <- <- <-.
      right. eapply IH; eauto.
    + injection R as <- <- <-. right. auto.
    + injection R as <- <- <-. right. auto.
  - injection R as <- <- <-. exact B.
Qed.
Lemma lp_fail : forall s p x, list_phase (t_fail s p) x = Ok (t_fail s p, x).
Proof. reflexivity. Qed.
Lemma lp_live : forall s st, ~ t_bad s -> list_phase s st =
  let! x := lrun parse status (get s) st in let '(l, n, r) := x in
  Ok (if lbadb status l then t_fail s (t_parsed s) else upd s l (t_parsed s + n), r).
Proof. intros s st NB. unfold list_phase. destruct (t_status s) eqn:S; auto. exfalso. apply NB. exact S. Qed.

Lemma ph_list : ph t_bad I Pre (fun s => t_bad s \/ ldone status (get s)) list_phase.
Proof.
  split.
  - intros s a b IS PS BA BB NE D.
    assert (Dec : t_bad s \/ ~ t_bad s) by (unfold t_bad; destruct (t_status s); auto; right; congruence).
    destruct Dec as [F|NB].
    { left. unfold t_bad in F. unfold list_phase, go_on. rewrite F. cbn [bind fst snd]. destruct a; cbn [app]; rewrite ?F; auto. }
    destruct (IF s IS NB) as [F1 F2]. rewrite !lp_live in * by auto.
    assert (D0 : lrun parse status (get s) (a ++ b) <> UB) by (intros X; rewrite X in D; apply D; reflexivity).
    pose proof (lrun_app parse status fine at_ two step _ _ _ F1 BA BB NE D0) as T.
    destruct (lrun parse status (get s) a) as [[[l1 n1] r1]|] eqn:EA.
    2:{ cbn [lgo bind] in T. destruct T as [T|(? & ? & ? & ? & ? & ? & _ & T & _)]; [congruence|discriminate]. }
    unfold go_on. cbn [bind]. destruct (lbadb status l1) eqn:B1; cbn [fst snd].
    + right. destruct (lrun parse status (get s) (a ++ b)) as [[[lw nw] rw]|] eqn:EW; [|congruence]. cbn [bind].
      assert (BW : lbadb status lw = true).
      { apply lbadb_spec in B1. apply lbadb_spec. destruct T as [T|(? & ? & ? & ? & ? & ? & T & _ & T2 & _)].
        - unfold lgo in T. cbn [bind] in T. destruct r1.
          + destruct (lrun parse status l1 b) as [[[l2 n2] r2]|] eqn:E2; cbn [bind] in T; [|discriminate].
            injection T as -> _ _. eapply lrun_stays; eauto.
          + injection T as -> _ _. auto.
        - injection T as -> _ _. auto. }
      rewrite BW. exists (t_fail s (t_parsed s)), rw, (t_fail s (t_parsed s)), (r1 ++ b). split; [reflexivity|]. split; [|split]; [|reflexivity|].
      * destruct r1; [rewrite lp_fail|]; reflexivity.
      * reflexivity.
    + assert (NB1 : ~ t_bad (upd s l1 (t_parsed s + n1))) by (unfold t_bad; rewrite ST; exact NB).
      destruct T as [T|(lw & nw & rw & l2 & n2 & r2 & T1 & T2 & T3 & T4)].
      * rewrite T. unfold lgo. cbn [bind]. destruct r1; cbn [bind].
        -- rewrite lp_live by auto. rewrite G. destruct (lrun parse status l1 b) as [[[l2 n2] r2]|]; cbn [bind]; [|left; auto].
           destruct (lbadb status l2) eqn:B2.
           ++ right. do 4 eexists. split; [reflexivity|]. split; [reflexivity|]. split; reflexivity.
           ++ left. rewrite P, U2. do 3 f_equal. lia.
        -- left. rewrite B1. reflexivity.
      * right. rewrite T1. cbn [bind]. apply lbadb_spec in T3. rewrite T3. unfold lgo in T2. cbn [bind] in T2. destruct r1.
        -- rewrite lp_live by auto. rewrite G. destruct (lrun parse status l1 b) as [[[l3 n3] r3]|]; cbn [bind] in *; [|discriminate].
           injection T2 as -> _ _. apply lbadb_spec in T4. rewrite T4. do 4 eexists. split; [reflexivity|]. split; [reflexivity|]. split; reflexivity.
        -- injection T2 as <- _ _. apply lbadb_spec in T4. congruence.
  - intros s IS. unfold list_phase. destruct (t_status s) eqn:S; auto; rewrite lrun_idle; cbn [bind];
      (rewrite lclean_bad by (apply IF; auto; unfold t_bad; congruence)); rewrite Z.add_0_r, U1; reflexivity.
  - intros s x IS [D|D]; unfold list_phase.
    + unfold t_bad in D. rewrite D. reflexivity.
    + destruct (t_status s) eqn:S; auto; rewrite lrun_done by auto; cbn [bind];
      (rewrite lclean_bad by (apply ldone_clean; auto)); rewrite Z.add_0_r, U1; reflexivity.
  - intros s a s1 r IS PS BA R.
    assert (Dec : t_bad s \/ ~ t_bad s) by (unfold t_bad; destruct (t_status s); auto; right; congruence).
    destruct Dec as [F|NB].
    { unfold list_phase in R. rewrite F in R. injection R as <- <-. repeat split; auto. }
    destruct (IF s IS NB) as [F1 F2]. rewrite lp_live in R by auto.
    destruct (lrun parse status (get s) a) as [[[l n] r1]|] eqn:EA; cbn [bind] in R; [|discriminate].
    destruct (lrun_end parse status fine at_ step _ _ _ _ _ F1 F2 BA EA) as (X1 & X2 & X3 & X5 & X6).
    destruct (lbadb status l) eqn:B; injection R as <- <-.
    + destruct (Ifail s IS PS). repeat split; auto. intros _. left. reflexivity.
    + apply lbadb_clean in B. destruct (Iupd s l n r1 IS PS NB B X1 (X6 B) X2 ltac:(eauto)) as [Y1 Y2].
      repeat split; auto. intros N. right. rewrite G. destruct (X5 N) as [|Z]; auto.
      apply lbadb_spec in Z. rewrite lclean_bad in Z by auto. discriminate.
  - intros s _ B. left. exact B.
Qed.
End ListPhase.
