(** Parsers made of phases that run one after the other, and why cutting the
    input does not matter for them. *)
From Coq Require Import Lia.
From Verif Require Import Base.Bytes Base.BytesFacts Model.Stream Spec.Wire Proof.StreamFacts Proof.Chunks.
Open Scope Z_scope.

Section Phases.
Context {S : Type}.
Variable bad : S -> Prop.

Definition phase := S -> list Z -> outcome (S * list Z).
Definition both_bad (r1 r2 : outcome (S * list Z)) : Prop :=
  exists s1 t1 s2 t2, r1 = Ok (s1, t1) /\ r2 = Ok (s2, t2) /\ bad s1 /\ bad s2.
Definition same2 (r1 r2 : outcome (S * list Z)) : Prop := r1 = r2 \/ both_bad r1 r2.

(** Run [f] on what is left, or keep what is left. *)
Definition go_on (f : phase) (r : outcome (S * list Z)) (b : list Z) : outcome (S * list Z) :=
  let! x := r in
  match snd x with
  | [] => f (fst x) b
  | _ :: _ => Ok (fst x, snd x ++ b)
  end.

Record ph (I Pre D : S -> Prop) (f : phase) : Prop := {
  ph_app : forall s a b, I s -> Pre s -> bytes_ok a -> bytes_ok b -> b <> [] -> f s (a ++ b) <> UB ->
             same2 (f s (a ++ b)) (go_on f (f s a) b);
  ph_idle : forall s, I s -> f s [] = Ok (s, []);
  ph_done : forall s x, I s -> D s -> f s x = Ok (s, x);
  ph_end : forall s a s1 r, I s -> Pre s -> bytes_ok a -> f s a = Ok (s1, r) ->
             I s1 /\ Pre s1 /\ bytes_ok r /\ (r <> [] -> D s1);
  ph_bad : forall s, I s -> bad s -> D s
}.

Definition seq (f g : phase) : phase := fun s st => let! x := f s st in g (fst x) (snd x).

Lemma ph_seq : forall I P Df Dg f g, ph I P Df f -> ph I Df Dg g ->
  (forall s a s1 r, I s -> Df s -> g s a = Ok (s1, r) -> P s -> P s1) ->
  ph I P (fun s => Df s /\ Dg s) (seq f g).
Proof.
  intros I P Df Dg f g F G PP. split.
  - intros s a b IS PS BA BB NB. unfold seq at 1. intros D.
    destruct (f s (a ++ b)) as [[sw rw]|] eqn:EW; [|exfalso; apply D; reflexivity]. cbn [bind fst snd] in D.
    assert (T : same2 (f s (a ++ b)) (go_on f (f s a) b)).
    { eapply ph_app; eauto. congruence. }
    unfold seq at 1. rewrite EW in *. cbn [bind fst snd].
    unfold go_on in T. unfold go_on, seq at 1.
    destruct (f s a) as [[s1 r1]|] eqn:EA; cbn [bind fst snd] in *.
    2:{ destruct T as [T|(? & ? & ? & ? & _ & T & _)]; discriminate. }
    destruct (ph_end _ _ _ _ F _ _ _ _ IS PS BA EA) as (I1 & P1 & B1 & E1).
    destruct r1 as [|c r1].
    + rewrite (ph_idle _ _ _ _ G) by auto. cbn [bind fst snd]. unfold seq.
      destruct T as [T|(x1 & y1 & x2 & y2 & T1 & T2 & T3 & T4)].
      * rewrite <- T. cbn [bind fst snd]. left. reflexivity.
      * injection T1 as <- <-. rewrite T2. cbn [bind fst snd]. right.
        assert (BAB : bytes_ok (a ++ b)) by (apply bytes_ok_app; auto).
        destruct (ph_end _ _ _ _ F _ _ _ _ IS PS BAB EW) as (I2 & _).
        destruct (ph_end _ _ _ _ F _ _ _ _ I1 P1 BB T2) as (I3 & _).
        exists sw, rw, x2, y2. rewrite !(ph_done _ _ _ _ G); eauto using (ph_bad _ _ _ _ G).
    + specialize (E1 ltac:(discriminate)).
      destruct T as [T|(x1 & y1 & x2 & y2 & T1 & T2 & T3 & T4)].
      * injection T as -> ->.
        pose proof (ph_app _ _ _ _ G s1 (c :: r1) b I1 E1 B1 BB NB D) as T.
        unfold go_on in T. destruct (g s1 (c :: r1)) as [[s2 r2]|] eqn:EG; cbn [bind fst snd] in *.
        2:{ destruct T as [T|(? & ? & ? & ? & _ & T & _)]; [|discriminate].
            exfalso. apply D. exact T. }
        destruct (ph_end _ _ _ _ G _ _ _ _ I1 E1 B1 EG) as (I2 & D2 & B2 & E2).
        destruct r2 as [|c2 r2]; [|exact T].
        unfold seq. rewrite (ph_done _ _ _ _ F) by auto. exact T.
      * injection T1 as <- <-. injection T2 as <- <-.
        assert (BAB : bytes_ok (a ++ b)) by (apply bytes_ok_app; auto).
        destruct (ph_end _ _ _ _ F _ _ _ _ IS PS BAB EW) as (I2 & _).
        rewrite (ph_done _ _ _ _ G sw) by (eauto using (ph_bad _ _ _ _ G)).
        rewrite (ph_done _ _ _ _ G s1) by (eauto using (ph_bad _ _ _ _ G)).
        right. cbn [bind fst snd]. do 4 eexists; repeat split; eauto.
  - intros s IS. unfold seq. rewrite (ph_idle _ _ _ _ F) by auto. cbn [bind fst snd]. apply (ph_idle _ _ _ _ G); auto.
  - intros s x IS [D1 D2]. unfold seq. rewrite (ph_done _ _ _ _ F) by auto. cbn [bind fst snd]. apply (ph_done _ _ _ _ G); auto.
  - intros s a s2 r2 IS PS BA E. unfold seq in E.
    destruct (f s a) as [[s1 r1]|] eqn:EA; cbn [bind fst snd] in E; [|discriminate].
    destruct (ph_end _ _ _ _ F _ _ _ _ IS PS BA EA) as (I1 & P1 & B1 & E1).
    destruct r1 as [|c r1].
    + rewrite (ph_idle _ _ _ _ G) in E by auto. injection E as <- <-. repeat split; auto; congruence.
    + specialize (E1 ltac:(discriminate)).
      destruct (ph_end _ _ _ _ G _ _ _ _ I1 E1 B1 E) as (I2 & D2 & B2 & E2).
      repeat split; eauto.
  - intros s IS B. split; [eapply ph_bad with (1 := F)|eapply ph_bad with (1 := G)]; auto.
Qed.

Lemma ph_iff : forall I P D D' f, ph I P D f -> (forall s, I s -> (D s <-> D' s)) -> ph I P D' f.
Proof.
  intros I P D D' f F E. split.
  - intros. eapply ph_app; eauto.
  - intros. eapply ph_idle; eauto.
  - intros. eapply ph_done; eauto. apply E; auto.
  - intros s a s1 r H1 H2 H3 H4. destruct (ph_end _ _ _ _ F _ _ _ _ H1 H2 H3 H4) as (X1 & X2 & X3 & X4).
    split; [auto|split; [auto|split; [auto|]]]. intros. apply E; auto.
  - intros. apply E; auto. eapply ph_bad; eauto.
Qed.
(** Sequencing from the start. *)
Lemma ph_then : forall I Df Dg D f g, ph I (fun _ => True) Df f -> ph I Df Dg g ->
  (forall s, I s -> (Df s /\ Dg s <-> D s)) -> ph I (fun _ => True) D (seq f g).
Proof. intros. eapply ph_iff; [eapply ph_seq; eauto|auto]. Qed.

(** A phase that is one read loop up to a fixed position. *)
Lemma ph_loop : forall {A} (I Pre : S -> Prop) (get : S -> A) (pos : S -> Z) (upd : S -> A -> Z -> S)
    (limit : S -> Z) (step : S -> A -> Z -> Z -> outcome A),
  (forall s, upd s (get s) (pos s) = s) ->
  (forall s a p a2 p2, upd (upd s a p) a2 p2 = upd s a2 p2) ->
  (forall s a p, get (upd s a p) = a) -> (forall s a p, pos (upd s a p) = p) ->
  (forall s a p, limit (upd s a p) = limit s) ->
  (forall s a p, step (upd s a p) = step s) ->
  (forall s, I s -> bad s -> limit s <= pos s) ->
  (forall s st a p r, I s -> Pre s -> bytes_ok st ->
     read_loop_o (limit s) (pos s) (step s) (get s) st = Ok (a, p, r) -> I (upd s a p) /\ Pre (upd s a p)) ->
  ph I Pre (fun s => limit s <= pos s)
    (fun s st => let! x := read_loop_o (limit s) (pos s) (step s) (get s) st in
                 let '(a, p, r) := x in Ok (upd s a p, r)).
Proof.
  intros A I Pre get pos upd limit step U1 U2 G P L St Hbad Hinv. split.
  - intros s a b IS PS BA BB NB. unfold go_on. rewrite read_loop_o_app.
    destruct (read_loop_o (limit s) (pos s) (step s) (get s) a) as [[[a1 p1] r1]|] eqn:E; cbn [bind].
    2:{ congruence. }
    intros _. left. cbn [fst snd]. destruct r1 as [|c r1]; [|reflexivity].
    rewrite L, P, St, G. destruct (read_loop_o (limit s) p1 (step s) a1 b) as [[[a2 p2] r2]|]; cbn [bind]; auto.
    rewrite U2. reflexivity.
  - intros s IS. cbn [read_loop_o bind]. rewrite U1. reflexivity.
  - intros s x IS D. rewrite read_loop_o_stop by auto. cbn [bind]. rewrite U1. reflexivity.
  - intros s a s1 r IS PS BA E.
    destruct (read_loop_o (limit s) (pos s) (step s) (get s) a) as [[[a1 p1] r1]|] eqn:E1; cbn [bind] in E; [|discriminate].
    injection E as <- <-. destruct (Hinv _ _ _ _ _ IS PS BA E1). 
    pose proof (read_loop_o_pos _ _ _ _ _ _ _ _ E1) as (Q1 & Q2 & Q3 & Q4 & Q5).
    repeat split; auto.
    + rewrite Q5 in BA. apply bytes_ok_app in BA. tauto.
    + intros NR. rewrite L, P. destruct Q4; auto. congruence.
  - auto.
Qed.

(** From phases to a parser. *)
Section Top.
Variable parse : S -> list Z -> outcome (S * Z * list Z).
Variable status : S -> pstatus.
Variable pos : S -> Z.
Variable start : S -> S.             (* what a call does before reading *)
Variable F : phase.
Variable fin : S -> S.               (* what a call does after reading *)
Variables I D : S -> Prop.
Variable ok : S -> Prop.
Hypothesis HF : ph I (fun _ => True) D F.
Hypothesis Hbad : forall s, bad s \/ ~ bad s.
Hypothesis parse_eq : forall s st, status s <> FAILED ->
  parse s st = let! x := F (start s) st in Ok (fin (fst x), pos (fst x) - pos (start s), snd x).
Hypothesis parse_failed : forall s st, status s = FAILED -> parse s st = Ok (s, 0, st).
Hypothesis start_I : forall s, ok s -> status s <> FAILED -> I (start s).
Hypothesis fin_ok : forall s, I s -> status (fin s) = INCOMPLETE -> ok (fin s).
Hypothesis start_fin : forall s, I s -> status (fin s) = INCOMPLETE -> start (fin s) = s.
Hypothesis fin_bad : forall s, I s -> bad s <-> status (fin s) = FAILED.
Hypothesis fin_done : forall s, I s -> status (fin s) = DONE -> D s.
Hypothesis done_fin : forall s, I s -> D s -> status (fin s) <> INCOMPLETE.

Lemma phases_two : forall s a b, ok s -> a <> [] -> b <> [] -> bytes_ok a -> bytes_ok b ->
  parse s (a ++ b) <> UB ->
  same_result status (parse s (a ++ b)) (chain parse status (parse s a) b).
Proof.
  intros s a b OK NA NB BA BB.
  destruct (status s) eqn:ST; cycle 2.
  { intros _. rewrite !parse_failed by auto. unfold chain. cbn [bind]. rewrite ST. left. reflexivity. }
  all: (rewrite !parse_eq by congruence); assert (IS : I (start s)) by (apply start_I; auto; congruence);
    intros DD;
    assert (D0 : F (start s) (a ++ b) <> UB) by (intros X; rewrite X in DD; apply DD; reflexivity);
    pose proof (ph_app _ _ _ _ HF (start s) a b IS Logic.I BA BB NB D0) as T;
    unfold go_on in T; unfold chain;
    destruct (F (start s) a) as [[s1 r1]|] eqn:EA; cbn [bind fst snd] in *.
  2:{ destruct T as [T|(? & ? & ? & ? & _ & T & _)]; [congruence|discriminate]. }
  3:{ destruct T as [T|(? & ? & ? & ? & _ & T & _)]; [congruence|discriminate]. }
  all: destruct (ph_end _ _ _ _ HF _ _ _ _ IS Logic.I BA EA) as (I1 & _ & B1 & E1).
  all: assert (TT : same2 (F (start s) (a ++ b)) (match status (fin s1) with INCOMPLETE => F s1 b | _ => Ok (s1, r1 ++ b) end)
               /\ (status (fin s1) = INCOMPLETE -> r1 = [])).
  { destruct r1 as [|c r1].
    - split; auto. destruct (status (fin s1)) eqn:SF; auto.
      + rewrite (ph_done _ _ _ _ HF s1) in T by auto. exact T.
      + rewrite (ph_done _ _ _ _ HF s1) in T. exact T. auto. eapply ph_bad; eauto. apply fin_bad; auto.
    - specialize (E1 ltac:(discriminate)). pose proof (done_fin s1 I1 E1).
      destruct (status (fin s1)); try congruence; split; auto; congruence. }
  2:{ destruct r1 as [|c r1].
    - split; auto. destruct (status (fin s1)) eqn:SF; auto.
      + rewrite (ph_done _ _ _ _ HF s1) in T by auto. exact T.
      + rewrite (ph_done _ _ _ _ HF s1) in T. exact T. auto. eapply ph_bad; eauto. apply fin_bad; auto.
    - specialize (E1 ltac:(discriminate)). pose proof (done_fin s1 I1 E1).
      destruct (status (fin s1)); try congruence; split; auto; congruence. }
  all: clear T E1; destruct TT as [T R];
    assert (BAB : bytes_ok (a ++ b)) by (apply bytes_ok_app; auto);
    destruct T as [T|(x1 & y1 & x2 & y2 & T1 & T2 & T3 & T4)].
  1,3: rewrite T; destruct (status (fin s1)) eqn:SF; cbn [bind fst snd];
    [left; reflexivity| |left; reflexivity];
    rewrite parse_eq by congruence; rewrite start_fin by auto; left;
    destruct (F s1 b) as [[s2 r2]|]; cbn [bind fst snd]; auto;
    do 3 f_equal; lia.
  all: rewrite T1; cbn [bind fst snd]; right;
    destruct (ph_end _ _ _ _ HF _ _ _ _ IS Logic.I BAB T1) as (I2 & _);
    (split; [do 3 eexists; split; [reflexivity|]; apply fin_bad; auto|]);
    destruct (status (fin s1)) eqn:SF.
  1,4: injection T2 as <- <-; exfalso; apply fin_bad in T4; auto; congruence.
  2,4: injection T2 as <- <-; do 3 eexists; split; [reflexivity|]; auto.
  all: rewrite parse_eq by congruence; rewrite start_fin by auto; rewrite T2; cbn [bind fst snd];
    destruct (ph_end _ _ _ _ HF _ _ _ _ I1 Logic.I BB T2) as (I3 & _);
    do 3 eexists; split; [reflexivity|]; apply fin_bad; auto.
Qed.

Lemma phases_inc : forall s a s1 n1 r1, ok s -> a <> [] -> bytes_ok a -> parse s a = Ok (s1, n1, r1) ->
  status s1 = INCOMPLETE -> r1 = [] /\ ok s1.
Proof.
  intros s a s1 n1 r1 OK NA BA E SI.
  destruct (status s) eqn:ST; cycle 2.
  { rewrite parse_failed in E by auto. congruence. }
  all: rewrite parse_eq in E by congruence; assert (IS : I (start s)) by (apply start_I; auto; congruence);
    destruct (F (start s) a) as [[s2 r2]|] eqn:EA; cbn [bind fst snd] in E; [|discriminate];
    injection E as <- <- <-;
    destruct (ph_end _ _ _ _ HF _ _ _ _ IS Logic.I BA EA) as (I1 & _ & B1 & E1);
    (split; [|apply fin_ok; auto]);
    destruct r2; auto; exfalso; apply (done_fin s2); auto; apply E1; discriminate.
Qed.

Lemma phases_both :
  (forall s a b, ok s -> a <> [] -> b <> [] -> bytes_ok a -> bytes_ok b -> parse s (a ++ b) <> UB ->
     same_result status (parse s (a ++ b)) (chain parse status (parse s a) b)) /\
  (forall s a s1 n1 r1, ok s -> a <> [] -> bytes_ok a -> parse s a = Ok (s1, n1, r1) ->
     status s1 = INCOMPLETE -> r1 = [] /\ ok s1).
Proof. split; eauto using phases_two, phases_inc. Qed.
Lemma phases_chunks : forall s, ok s -> chunk_invariant parse status s.
Proof.
  intros s OK chunks NE Fa Df. eapply feed_same with (ok := ok); eauto using phases_two, phases_inc.
Qed.
End Top.
End Phases.

(** A phase that hands the stream to the parser of a part, at position [base]. *)
Section Sub.
Context {S Q : Type}.
Variable bad : S -> Prop.
Variable parse : Q -> list Z -> outcome (Q * Z * list Z).
Variable status : Q -> pstatus.
Variable okq : Q -> Prop.
Hypothesis two : forall s a b, okq s -> a <> [] -> b <> [] -> bytes_ok a -> bytes_ok b ->
  parse s (a ++ b) <> UB -> same_result status (parse s (a ++ b)) (chain parse status (parse s a) b).
Hypothesis inc : forall s a s1 n1 r1, okq s -> a <> [] -> bytes_ok a -> parse s a = Ok (s1, n1, r1) ->
  status s1 = INCOMPLETE -> r1 = [] /\ okq s1.
Hypothesis okq_other : forall s, status s <> INCOMPLETE -> okq s.
Hypothesis count : forall s a s1 n1 r1, okq s -> a <> [] -> bytes_ok a -> parse s a = Ok (s1, n1, r1) ->
  0 <= n1 /\ (status s = DONE -> status s1 = FAILED \/ 1 <= n1) /\ exists p, a = p ++ r1.

Variable get : S -> Q.
Variable pos : S -> Z.
Variable upd : S -> Q -> Z -> S.
Variable base : Z.
Variable I : S -> Prop.
Hypothesis U1 : forall s, upd s (get s) (pos s) = s.
Hypothesis U2 : forall s q p q2 p2, upd (upd s q p) q2 p2 = upd s q2 p2.
Hypothesis G : forall s q p, get (upd s q p) = q.
Hypothesis P : forall s q p, pos (upd s q p) = p.
Hypothesis Bad : forall s, bad s <-> status (get s) = FAILED.
Definition sub_inv (s : S) : Prop :=
  okq (get s) /\ (pos s < base -> status (get s) = DONE) /\ (status (get s) = INCOMPLETE -> base < pos s).
Hypothesis IJ : forall s, I s -> sub_inv s.
Definition sub_done (s : S) : Prop :=
  base <= pos s /\ (status (get s) = FAILED \/ (base < pos s /\ status (get s) = DONE)).
Definition active (s : S) : Prop := (pos s = base /\ status (get s) = DONE) \/ status (get s) = INCOMPLETE.
Hypothesis JI : forall s st q n r, I s -> base <= pos s -> active s -> st <> [] -> bytes_ok st ->
  parse (get s) st = Ok (q, n, r) -> 0 <= n -> sub_inv (upd s q (pos s + n)) -> I (upd s q (pos s + n)).

Definition sub_phase : @phase S := fun s st =>
  let! r3 := (match st with
              | _ :: _ => if pos s =? base then parse (get s) st else Ok (get s, 0, st)
              | [] => Ok (get s, 0, st)
              end) in
  let '(q3, n3, st3) := r3 in
  let! r4 := (match st3, status q3 with
              | _ :: _, INCOMPLETE => parse q3 st3
              | _, _ => Ok (q3, 0, st3)
              end) in
  let '(q4, n4, st4) := r4 in
  Ok (upd s q4 (pos s + n3 + n4), st4).
Hypothesis parse_failed : forall s st, status s = FAILED -> parse s st = Ok (s, 0, st).

Lemma sub_idle : forall s, sub_phase s [] = Ok (s, []).
Proof.
  intros s. unfold sub_phase. cbn [bind]. rewrite Z.add_0_r. rewrite Z.add_0_r, U1. reflexivity.
Qed.
Lemma sub_skip : forall s st, I s -> sub_done s -> sub_phase s st = Ok (s, st).
Proof.
  intros s st IS [H1 H2]. destruct st as [|c t]; [apply sub_idle|]. unfold sub_phase.
  destruct H2 as [F|[H2 D]].
  - assert (E : (if pos s =? base then parse (get s) (c :: t) else Ok (get s, 0, c :: t)) = Ok (get s, 0, c :: t)).
    { destruct (pos s =? base); auto. }
    rewrite E. cbn [bind]. rewrite F. cbn [bind]. rewrite !Z.add_0_r, U1. auto.
  - destruct (Z.eqb_spec (pos s) base); [lia|]. cbn [bind]. rewrite D. cbn [bind]. rewrite !Z.add_0_r, U1. auto.
Qed.
Lemma sub_active : forall s st, I s -> active s -> st <> [] -> bytes_ok st ->
  sub_phase s st = let! r := parse (get s) st in let '(q, n, rest) := r in Ok (upd s q (pos s + n), rest).
Proof.
  intros s st IS A NE B. destruct (IJ _ IS) as (J1 & J2 & J3). destruct st as [|c t]; [congruence|].
  unfold sub_phase. destruct A as [[A1 A2]|A].
  - rewrite A1, Z.eqb_refl. destruct (parse (get s) (c :: t)) as [[[q n] r]|] eqn:E; cbn [bind]; auto.
    assert (X : match r, status q with _ :: _, INCOMPLETE => parse q r | _, _ => Ok (q, 0, r) end = Ok (q, 0, r)).
    { destruct r; auto. destruct (status q) eqn:SQ; auto. destruct (inc _ (c :: t) _ _ _ J1 ltac:(discriminate) B E SQ). discriminate. }
    rewrite X. cbn [bind]. rewrite Z.add_0_r. auto.
  - specialize (J3 A). destruct (Z.eqb_spec (pos s) base); [lia|]. cbn [bind]. rewrite A.
    destruct (parse (get s) (c :: t)) as [[[q k] r]|] eqn:E; cbn [bind]; auto. rewrite Z.add_0_r. auto.
Qed.
Lemma active_or_done : forall s, I s -> base <= pos s -> active s \/ sub_done s.
Proof.
  intros s IS H. destruct (IJ _ IS) as (J1 & J2 & J3). unfold active, sub_done.
  destruct (status (get s)) eqn:E; auto. destruct (Z.eq_dec (pos s) base); auto. right. split; auto. right. split; auto. lia.
Qed.
(** The state after an active step. *)
Lemma sub_step_inv : forall s st q n r, I s -> base <= pos s -> active s -> st <> [] -> bytes_ok st ->
  parse (get s) st = Ok (q, n, r) ->
  I (upd s q (pos s + n)) /\ base <= pos s + n /\ bytes_ok r /\
  (status q <> INCOMPLETE -> sub_done (upd s q (pos s + n))) /\ (status q = INCOMPLETE -> r = [] /\ active (upd s q (pos s + n))).
Proof.
  intros s st q n r IS PS A NE B E. destruct (IJ _ IS) as (J1 & J2 & J3).
  destruct (count _ _ _ _ _ J1 NE B E) as (C1 & C2 & p & C3).
  assert (N : status q <> FAILED -> base < pos s + n).
  { intros NF. destruct A as [[A1 A2]|A].
    - destruct (C2 A2); [congruence|lia].
    - specialize (J3 A). lia. }
  split; [|split; [|split; [|split]]].
  - eapply JI; eauto. unfold sub_inv. rewrite G, P. split; [|split].
    + destruct (status q) eqn:SQ; try (apply okq_other; congruence). eapply inc; eauto.
    + lia.
    + intros SQ. apply N. congruence.
  - lia.
  - rewrite C3 in B. apply bytes_ok_app in B. tauto.
  - intros NI. unfold sub_done. rewrite G, P. split; [lia|]. destruct (status q) eqn:SQ; auto; [|congruence].
    right. split; auto. apply N. congruence.
  - intros SI. split; [eapply inc; eauto|]. right. rewrite G. auto.
Qed.

Lemma ph_sub : ph bad I (fun s => base <= pos s) sub_done sub_phase.
Proof.
  split.
  - intros s a b IS PS BA BB NB D.
    destruct a as [|c t]. { left. unfold go_on. rewrite sub_idle. reflexivity. }
    set (a := c :: t) in *. assert (NA : a <> []) by (subst a; discriminate).
    destruct (active_or_done s IS PS) as [A|DN].
    2:{ left. unfold go_on. rewrite !sub_skip by auto. reflexivity. }
    assert (BAB : bytes_ok (a ++ b)) by (apply bytes_ok_app; auto).
    assert (NAB : a ++ b <> []) by (subst a; discriminate).
    rewrite sub_active in D by auto. unfold go_on. rewrite !sub_active by auto.
    destruct (IJ _ IS) as (J1 & J2 & J3).
    assert (D' : parse (get s) (a ++ b) <> UB) by (intros X; rewrite X in D; apply D; reflexivity).
    pose proof (two (get s) a b J1 NA NB BA BB D') as T. unfold chain in T.
    destruct (parse (get s) a) as [[[q1 n1] r1]|] eqn:E1; cbn [bind] in T |- *.
    2:{ destruct T as [T|[_ (? & ? & ? & T & _)]]; [congruence|discriminate]. }
    destruct (sub_step_inv _ _ _ _ _ IS PS A NA BA E1) as (I1 & P1 & B1 & N1 & C1).
    assert (K : same2 bad (let! r := parse (get s) (a ++ b) in let '(q, n, rest) := r in Ok (upd s q (pos s + n), rest))
      (match status q1 with
       | INCOMPLETE => let! y := parse q1 b in let '(st2, n2, r2) := y in Ok (upd s st2 (pos s + (n1 + n2)), r2)
       | _ => Ok (upd s q1 (pos s + n1), r1 ++ b) end)).
    { destruct T as [T|[(q2 & n2 & r2 & T1 & T2) (q3 & n3 & r3 & T3 & T4)]].
      - left. rewrite T. destruct (status q1); auto. destruct (parse q1 b) as [[[? ?] ?]|]; reflexivity.
      - right. rewrite T1. cbn [bind]. destruct (status q1) eqn:SQ.
        + injection T3 as <- <- <-. congruence.
        + destruct (parse q1 b) as [[[q4 n4] r4]|]; [|discriminate]. cbn [bind] in *. injection T3 as <- <- <-.
          do 4 eexists; repeat split; eauto; apply Bad; rewrite G; auto.
        + do 4 eexists; repeat split; eauto; apply Bad; rewrite G; auto. }
    cbn [fst snd]. destruct (status q1) eqn:SQ.
    + destruct r1 as [|x r1]; [|exact K]. rewrite sub_skip; auto. apply N1. congruence.
    + destruct (C1 eq_refl) as [-> A1]. rewrite sub_active by auto. rewrite G, P.
      destruct (parse q1 b) as [[[q4 n4] r4]|]; cbn [bind] in *; auto. rewrite U2.
      replace (pos s + n1 + n4) with (pos s + (n1 + n4)) by lia. exact K.
    + destruct r1 as [|x r1]; [|exact K]. rewrite sub_skip; auto. apply N1. congruence.
  - intros. apply sub_idle.
  - intros. apply sub_skip; auto.
  - intros s a s1 r IS PS BA E.
    destruct a as [|c t]. { rewrite sub_idle in E. injection E as <- <-. split; [auto|split; [auto|split; [auto|congruence]]]. }
    destruct (active_or_done s IS PS) as [A|DN].
    2:{ rewrite sub_skip in E by auto. injection E as <- <-. split; [auto|split; [auto|split; auto]]. }
    rewrite sub_active in E by (auto; discriminate).
    destruct (parse (get s) (c :: t)) as [[[q1 n1] r1]|] eqn:E1; cbn [bind] in E; [|discriminate].
    injection E as <- <-.
    destruct (sub_step_inv s (c :: t) q1 n1 r1 IS PS A ltac:(discriminate) BA E1) as (I1 & P1 & B1 & N1 & C1).
    rewrite P. split; [auto|split; [auto|split; [auto|]]]. intros NR.
    destruct (status q1) eqn:SQ; try (apply N1; congruence). destruct (C1 eq_refl); congruence.
  - intros s IS B. apply Bad in B. destruct (IJ _ IS) as (J1 & J2 & J3). split; auto.
    destruct (Z.le_gt_cases base (pos s)); auto. specialize (J2 ltac:(lia)). congruence.
Qed.
End Sub.
