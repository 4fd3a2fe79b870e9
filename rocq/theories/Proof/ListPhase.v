(** Parsing the elements of a list one after the other, each in as many chunks as it takes. *)
From Coq Require Import Lia.
From Verif Require Import Base.Bytes Base.BytesFacts Model.Stream Model.Tx Spec.Wire Proof.StreamFacts Proof.Chunks.
Open Scope Z_scope.

Section List.
Context {E : Type}.
Variable parse : E -> list Z -> outcome (E * Z * list Z).
Variable status : E -> pstatus.
Variable ok : E -> Prop.
Variable at_ : E -> Z.     (* how far the element is *)
Hypothesis two : forall s a b, ok s -> status s = INCOMPLETE -> a <> [] -> b <> [] -> bytes_ok a -> bytes_ok b ->
  parse s (a ++ b) <> UB -> same_result status (parse s (a ++ b)) (chain parse status (parse s a) b).
Hypothesis step : forall s a s1 n1 r1, ok s -> status s = INCOMPLETE -> a <> [] -> bytes_ok a -> parse s a = Ok (s1, n1, r1) ->
  ok s1 /\ (status s1 = INCOMPLETE -> r1 = []) /\ bytes_ok r1 /\ (status s1 <> FAILED -> at_ s1 = at_ s + n1).

Fixpoint lrun (l : list E) (st : list Z) : outcome (list E * Z * list Z) :=
  match l with
  | [] => Ok ([], 0, st)
  | e :: t =>
      match status e with
      | DONE => let! r := lrun t st in let '(t2, n2, st2) := r in Ok (e :: t2, n2, st2)
      | FAILED => Ok (e :: t, 0, st)
      | INCOMPLETE =>
          match st with
          | [] => Ok (e :: t, 0, [])
          | _ :: _ =>
              let! r := parse e st in
              let '(e1, n1, st1) := r in
              match status e1 with
              | DONE => let! r2 := lrun t st1 in let '(t2, n2, st2) := r2 in Ok (e1 :: t2, n1 + n2, st2)
              | _ => Ok (e1 :: t, n1, st1)
              end
          end
      end
  end.
Definition ldone (l : list E) : Prop := Forall (fun e => status e = DONE) l.
Definition lbad (l : list E) : Prop := Exists (fun e => status e = FAILED) l.
Definition lclean (l : list E) : Prop := Forall (fun e => status e <> FAILED) l.
Definition lbadb (l : list E) : bool := existsb (fun e => pstatus_eqb (status e) FAILED) l.

Lemma lbadb_spec : forall l, lbadb l = true <-> lbad l.
Proof.
  intros l. unfold lbadb, lbad. rewrite existsb_exists, Exists_exists.
  split; intros (x & H1 & H2); exists x; split; auto; destruct (status x); auto; discriminate.
Qed.
Lemma lclean_bad : forall l, lclean l -> lbadb l = false.
Proof.
  intros l H. destruct (lbadb l) eqn:B; auto. apply lbadb_spec in B. unfold lbad in B. rewrite Exists_exists in B.
  destruct B as (x & I & B). unfold lclean in H. rewrite Forall_forall in H. apply H in I. congruence.
Qed.
Lemma lbadb_clean : forall l, lbadb l = false -> lclean l.
Proof.
  induction l as [|e l IH]; intros H; [constructor|]. cbn [lbadb existsb] in H. apply orb_false_iff in H as [H1 H2].
  constructor; [|apply IH; exact H2]. intros X. rewrite X in H1. discriminate.
Qed.
Lemma ldone_clean : forall l, ldone l -> lclean l.
Proof. intros l H. eapply Forall_impl; [|exact H]. cbv beta. intros; congruence. Qed.

Lemma lrun_idle : forall l, lrun l [] = Ok (l, 0, []).
Proof.
  induction l as [|e l IH]; cbn [lrun]; auto. destruct (status e); auto. rewrite IH. reflexivity.
Qed.
Lemma lrun_done : forall l x, ldone l -> lrun l x = Ok (l, 0, x).
Proof.
  induction l as [|e l IH]; intros x H; cbn [lrun]; auto. inversion H; subst. rewrite H2, IH by auto. reflexivity.
Qed.
Definition zat (l : list E) : Z := zsum (map at_ l).
Lemma zat_cons : forall e l, zat (e :: l) = at_ e + zat l.
Proof. reflexivity. Qed.

Lemma lrun_end : forall l a l1 n1 r1, Forall ok l -> lclean l -> bytes_ok a -> lrun l a = Ok (l1, n1, r1) ->
  Forall ok l1 /\ length l1 = length l /\ bytes_ok r1 /\ (r1 <> [] -> ldone l1 \/ lbad l1) /\
  (lclean l1 -> zat l1 = zat l + n1).
Proof.
  induction l as [|e l IH]; intros a l1 n1 r1 F C B R; cbn [lrun] in R.
  { injection R as <- <- <-. repeat split; auto. left; constructor. }
  inversion F as [|? ? F1 F2]; subst. inversion C as [|? ? C1 C2]; subst.
  destruct (status e) eqn:S; [| |congruence].
  - destruct (lrun l a) as [[[t2 n2] r2]|] eqn:E2; cbn [bind] in R; [|discriminate]. injection R as <- <- <-.
    destruct (IH _ _ _ _ F2 C2 B E2) as (X1 & X2 & X3 & X5 & X6).
    split; [constructor; auto|]. split; [cbn; lia|]. split; [auto|]. split.
    + intros N. destruct (X5 N); [left; constructor; auto|right; right; auto].
    + intros N. inversion N; subst. rewrite !zat_cons, X6; auto. lia.
  - destruct a as [|c a].
    { injection R as <- <- <-. repeat split; auto; try lia; congruence. }
    destruct (parse e (c :: a)) as [[[e1 m1] s1]|] eqn:P; cbn [bind] in R; [|discriminate].
    destruct (step _ (c :: a) _ _ _ F1 S ltac:(discriminate) B P) as (Y1 & Y2 & Y4 & Y5).
    destruct (status e1) eqn:S1.
    + destruct (lrun l s1) as [[[t2 n2] r2]|] eqn:E2; cbn [bind] in R; [|discriminate]. injection R as <- <- <-.
      destruct (IH _ _ _ _ F2 C2 Y4 E2) as (X1 & X2 & X3 & X5 & X6).
      split; [constructor; auto|]. split; [cbn; lia|]. split; [auto|]. split.
      * intros N. destruct (X5 N); [left; constructor; auto|right; right; auto].
      * intros N. inversion N; subst. rewrite !zat_cons, X6, Y5; auto; [lia|congruence].
    + injection R as <- <- <-. rewrite Y2 by auto. split; [constructor; auto|]. split; [auto|]. split; [constructor|].
      split; [congruence|]. intros _. rewrite !zat_cons, Y5; [lia|congruence].
    + injection R as <- <- <-. split; [constructor; auto|]. split; [auto|]. split; [auto|].
      split; [right; left; auto|]. intros N. inversion N; congruence.
Qed.

Definition lsame (r1 r2 : outcome (list E * Z * list Z)) : Prop :=
  r1 = r2 \/ exists l1 n1 t1 l2 n2 t2, r1 = Ok (l1, n1, t1) /\ r2 = Ok (l2, n2, t2) /\ lbad l1 /\ lbad l2.
Definition lgo (r : outcome (list E * Z * list Z)) (b : list Z) : outcome (list E * Z * list Z) :=
  let! x := r in
  let '(l1, n1, r1) := x in
  match r1 with
  | [] => let! y := lrun l1 b in let '(l2, n2, r2) := y in Ok (l2, n1 + n2, r2)
  | _ :: _ => Ok (l1, n1, r1 ++ b)
  end.
(* a head in front of both *)
Lemma lsame_cons : forall e n r1 r2, lsame r1 r2 ->
  lsame (let! r := r1 in let '(t2, n2, st2) := r in Ok (e :: t2, n + n2, st2))
        (let! r := r2 in let '(t2, n2, st2) := r in Ok (e :: t2, n + n2, st2)).
Proof.
  intros e n r1 r2 [->|(l1 & n1 & t1 & l2 & n2 & t2 & -> & -> & B1 & B2)]; [left; auto|].
  right. cbn [bind]. do 6 eexists. split; [reflexivity|]. split; [reflexivity|]. split; right; auto.
Qed.
Lemma lgo_cons : forall e n l a b, status e = DONE ->
  lgo (let! r := lrun l a in let '(t2, n2, st2) := r in Ok (e :: t2, n + n2, st2)) b =
  let! r := lgo (lrun l a) b in let '(t2, n2, st2) := r in Ok (e :: t2, n + n2, st2).
Proof.
  intros e n l a b S. unfold lgo. destruct (lrun l a) as [[[t n2] r]|]; cbn [bind]; auto.
  destruct r; auto. cbn [lrun]. rewrite S. destruct (lrun t b) as [[[t3 n3] r3]|]; cbn [bind]; auto.
  do 3 f_equal. lia.
Qed.
Lemma bind_plus0 : forall (r : outcome (list E * Z * list Z)) e,
  (let! r := r in let '(t2, n2, st2) := r in Ok (e :: t2, n2, st2)) =
  (let! r := r in let '(t2, n2, st2) := r in Ok (e :: t2, 0 + n2, st2)).
Proof. intros [[[t n] r]|] e; auto. Qed.

Lemma lrun_app : forall l a b, Forall ok l -> bytes_ok a -> bytes_ok b -> b <> [] -> lrun l (a ++ b) <> UB ->
  lsame (lrun l (a ++ b)) (lgo (lrun l a) b).
Proof.
  induction l as [|e l IH]; intros a b F BA BB NB D.
  { left. cbn [lrun lgo bind]. destruct a; reflexivity. }
  inversion F as [|? ? F1 F2]; subst. cbn [lrun] in D |- *. destruct (status e) eqn:S.
  - rewrite (bind_plus0 (lrun l (a ++ b)) e), (bind_plus0 (lrun l a) e). rewrite (lgo_cons e 0 l a b) by auto. apply lsame_cons. apply IH; auto.
    intros X. rewrite X in D. apply D. reflexivity.
  - destruct a as [|c a].
    { cbn [app]. left. unfold lgo. cbn [bind]. cbn [lrun]. rewrite S.
      destruct b as [|d b]; [congruence|].
      destruct (parse e (d :: b)) as [[[e1 n1] r1]|]; cbn [bind]; auto. destruct (status e1); auto.
      destruct (lrun l r1) as [[[? ?] ?]|]; cbn [bind]; auto. }
    cbn [app] in *. set (ca := c :: a) in *.
    change (c :: a ++ b) with (ca ++ b) in *.
    assert (D0 : parse e (ca ++ b) <> UB) by (intros X; rewrite X in D; apply D; reflexivity).
    pose proof (two e ca b F1 S ltac:(discriminate) NB BA BB D0) as T.
    destruct (parse e ca) as [[[e1 n1] r1]|] eqn:P.
    2:{ cbn [chain bind] in T. destruct T as [T|[_ (? & ? & ? & T & _)]]; [congruence|discriminate]. }
    destruct (step _ ca _ _ _ F1 S ltac:(discriminate) BA P) as (Y1 & Y2 & Y4 & Y5).
    cbn [chain bind] in T |- *. destruct (status e1) eqn:S1.
    + assert (T' : parse e (ca ++ b) = Ok (e1, n1, r1 ++ b)).
      { destruct T as [T|[_ (? & ? & ? & T & X)]]; [auto|]. injection T as <- <- <-. congruence. }
      rewrite T' in D |- *. cbn [bind] in D |- *. rewrite S1 in D |- *.
      rewrite lgo_cons by auto. apply lsame_cons. apply IH; auto.
      intros X. rewrite X in D. apply D. reflexivity.
    + rewrite Y2 in * by auto. unfold lgo. cbn [bind lrun]. rewrite S1.
      destruct b as [|d b]; [congruence|]. 
      destruct T as [T|[(x1 & y1 & z1 & T1 & T2) (x2 & y2 & z2 & T3 & T4)]].
      * rewrite T. destruct (parse e1 (d :: b)) as [[[e2 n2] r2]|]; cbn [bind]; [|left; auto].
        left. destruct (status e2); auto.
        destruct (lrun l r2) as [[[? ?] ?]|]; cbn [bind]; auto. do 3 f_equal; lia.
      * rewrite T1. cbn [bind]. rewrite T2.
        destruct (parse e1 (d :: b)) as [[[e2 n2] r2]|]; cbn [bind] in *; [|discriminate].
        injection T3 as -> _ _. rewrite T4. right. do 6 eexists. split; [reflexivity|]. split; [reflexivity|]. split; left; auto.
    + unfold lgo. cbn [bind]. 
      assert (G : match r1 with [] => let! y := lrun (e1 :: l) b in let '(l2, n2, r2) := y in Ok (l2, n1 + n2, r2)
                  | _ :: _ => Ok (e1 :: l, n1, r1 ++ b) end = Ok (e1 :: l, n1, r1 ++ b)).
      { destruct r1; auto. cbn [lrun]. rewrite S1. cbn [bind app]. rewrite Z.add_0_r. reflexivity. }
      rewrite G. destruct T as [T|[(x1 & y1 & z1 & T1 & T2) _]].
      * rewrite T. cbn [bind]. rewrite S1. left. reflexivity.
      * rewrite T1. cbn [bind]. rewrite T2. right. do 6 eexists. split; [reflexivity|]. split; [reflexivity|]. split; left; auto.
  - left. unfold lgo. cbn [bind]. destruct a; auto. cbn [lrun]. rewrite S. reflexivity.
Qed.

(** ** The code's two loops *)
Lemma more_idle : forall l, lclean l -> parse_more parse status l [] = Ok (l, 0, [], false).
Proof.
  induction l as [|e l IH]; intros C; cbn [parse_more]; auto. inversion C; subst. cbn [bind].
  destruct (status e) eqn:S; try congruence; cbn [pstatus_eqb]; rewrite IH by auto; reflexivity.
Qed.
(* from the careful loop to the code's *)
Lemma lrun_more : forall l a l1 n1 r1, Forall ok l -> lclean l -> bytes_ok a -> lrun l a = Ok (l1, n1, r1) -> lclean l1 ->
  parse_more parse status l a = Ok (l1, n1, r1, false).
Proof.
  induction l as [|e l IH]; intros a l1 n1 r1 F C B R C1; cbn [lrun parse_more] in *.
  { injection R as <- <- <-. reflexivity. }
  inversion F as [|? ? F1 F2]; subst. inversion C as [|? ? CA C2]; subst.
  destruct (status e) eqn:S; [| |congruence].
  - destruct (lrun l a) as [[[t2 n2] r2]|] eqn:E2; cbn [bind] in R; [|discriminate]. injection R as <- <- <-.
    inversion C1; subst. replace (match a with [] => _ | _ :: _ => _ end) with (Ok (e, 0, a)) by (destruct a; auto).
    cbn [bind]. rewrite S. cbn [pstatus_eqb]. erewrite IH by eauto. reflexivity.
  - destruct a as [|c a].
    { injection R as <- <- <-. cbn [bind]. rewrite S. cbn [pstatus_eqb]. rewrite more_idle by auto. reflexivity. }
    destruct (parse e (c :: a)) as [[[e1 m1] s1]|] eqn:P; cbn [bind] in R |- *; [|discriminate].
    destruct (step _ (c :: a) _ _ _ F1 S ltac:(discriminate) B P) as (Y1 & Y2 & Y4 & Y5).
    destruct (status e1) eqn:S1.
    + destruct (lrun l s1) as [[[t2 n2] r2]|] eqn:E2; cbn [bind] in R; [|discriminate]. injection R as <- <- <-.
      inversion C1; subst. cbn [pstatus_eqb]. erewrite IH by eauto. reflexivity.
    + injection R as <- <- <-. rewrite Y2 by auto. cbn [pstatus_eqb]. rewrite more_idle by auto. cbn [bind]. rewrite Z.add_0_r. reflexivity.
    + injection R as <- <- <-. inversion C1; congruence.
Qed.
(* and back *)
Lemma more_lrun : forall l a l1 n1 r1, Forall ok l -> lclean l -> bytes_ok a ->
  parse_more parse status l a = Ok (l1, n1, r1, false) -> lrun l a = Ok (l1, n1, r1) /\ lclean l1.
Proof.
  induction l as [|e l IH]; intros a l1 n1 r1 F C B R; cbn [lrun parse_more] in *.
  { injection R as <- <- <-. split; [reflexivity|constructor]. }
  inversion F as [|? ? F1 F2]; subst. inversion C as [|? ? CA C2]; subst.
  destruct (status e) eqn:S; [| |congruence].
  - replace (match a with [] => _ | _ :: _ => _ end) with (Ok (e, 0, a)) in R by (destruct a; auto).
    cbn [bind] in R. rewrite S in R. cbn [pstatus_eqb] in R.
    destruct (parse_more parse status l a) as [[[[t2 n2] r2] f2]|] eqn:E2; cbn [bind] in R; [|discriminate]. injection R as <- <- <- ->.
    destruct (IH _ _ _ _ F2 C2 B E2) as [X1 X2]. rewrite X1. cbn [bind]. split; auto. constructor; auto; congruence.
  - destruct a as [|c a].
    { cbn [bind] in R. rewrite S in R. cbn [pstatus_eqb] in R. rewrite more_idle in R by auto. injection R as <- <- <-. split; auto. }
    destruct (parse e (c :: a)) as [[[e1 m1] s1]|] eqn:P; cbn [bind] in R |- *; [|discriminate].
    destruct (step _ (c :: a) _ _ _ F1 S ltac:(discriminate) B P) as (Y1 & Y2 & Y4 & Y5).
    destruct (status e1) eqn:S1; cbn [pstatus_eqb] in R.
    + destruct (parse_more parse status l s1) as [[[[t2 n2] r2] f2]|] eqn:E2; cbn [bind] in R; [|discriminate]. injection R as <- <- <- ->.
      destruct (IH _ _ _ _ F2 C2 Y4 E2) as [X1 X2]. rewrite X1. cbn [bind]. split; auto. constructor; auto; congruence.
    + rewrite Y2 in R |- * by auto. rewrite more_idle in R by auto. cbn [bind] in R. rewrite Z.add_0_r in R. injection R as <- <- <-.
      split; auto. constructor; auto; congruence.
    + discriminate.
Qed.

(** Fresh elements: [e0] as constructed, [e1] after a call that found nothing. *)
Variables e0 e1 : E.
Hypothesis fresh_nil : parse e0 [] = Ok (e1, 0, []).
Hypothesis fresh_same : forall st, st <> [] -> parse e0 st = parse e1 st.
Hypothesis e1_inc : status e1 = INCOMPLETE.
Hypothesis e1_ok : ok e1.

Lemma all_idle : forall n, parse_all parse (repeat e0 n) [] = Ok (repeat e1 n, 0, []).
Proof. induction n as [|n IH]; cbn [repeat parse_all]; auto. rewrite fresh_nil. cbn [bind]. rewrite IH. reflexivity. Qed.
Lemma fresh_clean : forall n, lclean (repeat e1 n).
Proof. induction n; cbn; constructor; auto; congruence. Qed.
Lemma fresh_ok : forall n, Forall ok (repeat e1 n).
Proof. induction n; cbn; constructor; auto. Qed.
Lemma fresh_done : forall n, ldone (repeat e1 n) -> n = 0%nat.
Proof. intros [|n] H; auto. inversion H; congruence. Qed.

(* the loop over fresh elements followed by the loop over unfinished ones *)
Lemma lrun_fresh : forall n a l1 n1 r1, bytes_ok a -> lrun (repeat e1 n) a = Ok (l1, n1, r1) -> lclean l1 ->
  parse_all parse (repeat e0 n) a = Ok (l1, n1, r1).
Proof.
  induction n as [|n IH]; intros a l1 n1 r1 B R C; cbn [repeat lrun parse_all] in *.
  { exact R. }
  rewrite e1_inc in R. destruct a as [|c a].
  { injection R as <- <- <-. rewrite fresh_nil. cbn [bind]. rewrite all_idle. reflexivity. }
  rewrite fresh_same by discriminate.
  destruct (parse e1 (c :: a)) as [[[e m1] s1]|] eqn:P; cbn [bind] in R |- *; [|discriminate].
  destruct (step _ (c :: a) _ _ _ e1_ok e1_inc ltac:(discriminate) B P) as (Y1 & Y2 & Y4 & Y5).
  destruct (status e) eqn:S1.
  - destruct (lrun (repeat e1 n) s1) as [[[t2 n2] r2]|] eqn:E2; cbn [bind] in R; [|discriminate]. injection R as <- <- <-.
    inversion C; subst. erewrite IH by eauto. reflexivity.
  - injection R as <- <- <-. rewrite Y2 by auto. rewrite all_idle. cbn [bind]. rewrite Z.add_0_r. reflexivity.
  - injection R as <- <- <-. inversion C; congruence.
Qed.
Lemma fresh_lrun : forall n a l1 n1 r1, bytes_ok a -> parse_all parse (repeat e0 n) a = Ok (l1, n1, r1) -> lclean l1 ->
  lrun (repeat e1 n) a = Ok (l1, n1, r1).
Proof.
  induction n as [|n IH]; intros a l1 n1 r1 B R C; cbn [repeat lrun parse_all] in *.
  { exact R. }
  rewrite e1_inc. destruct a as [|c a].
  { rewrite fresh_nil in R. cbn [bind] in R. rewrite all_idle in R. injection R as <- <- <-. reflexivity. }
  rewrite fresh_same in R by discriminate.
  destruct (parse e1 (c :: a)) as [[[e m1] s1]|] eqn:P; cbn [bind] in R |- *; [|discriminate].
  destruct (step _ (c :: a) _ _ _ e1_ok e1_inc ltac:(discriminate) B P) as (Y1 & Y2 & Y4 & Y5).
  destruct (parse_all parse (repeat e0 n) s1) as [[[t2 n2] r2]|] eqn:E2; cbn [bind] in R; [|discriminate]. injection R as <- <- <-.
  inversion C; subst.
  destruct (status e) eqn:S1.
  - erewrite IH by eauto. reflexivity.
  - rewrite Y2 in E2 |- * by auto. rewrite all_idle in E2. injection E2 as <- <- <-. rewrite Z.add_0_r. reflexivity.
  - congruence.
Qed.
(* after the first loop nothing is left for the second *)
Lemma settled_more : forall l r, lclean l -> (r <> [] -> ldone l) -> parse_more parse status l r = Ok (l, 0, r, false).
Proof.
  intros l r C H. destruct r as [|c r]; [apply more_idle; auto|]. specialize (H ltac:(discriminate)). clear C.
  induction H as [|e l S H IH]; cbn [parse_more]; auto. rewrite S. cbn [bind]. rewrite S. cbn [pstatus_eqb]. rewrite IH. reflexivity.
Qed.
Lemma more_bad : forall l r l1 n1 r1, parse_more parse status l r = Ok (l1, n1, r1, false) -> lclean l1.
Proof.
  induction l as [|e l IH]; intros r l1 n1 r1 R; cbn [parse_more] in R.
  { injection R as <- <- <-. constructor. }
  match goal with R : (let! r := ?X in _) = _ |- _ => destruct X as [[[e2 m2] s2]|] end; cbn [bind] in R; [|discriminate].
  destruct (pstatus_eqb (status e2) FAILED) eqn:Q; [discriminate|].
  destruct (parse_more parse status l s2) as [[[[t2 n2] r2] f2]|] eqn:E2; cbn [bind] in R; [|discriminate]. injection R as <- <- <- ->.
  constructor; [destruct (status e2); discriminate|]. exact (IH _ _ _ _ E2).
Qed.
Lemma more_was : forall l r l1 n1 r1, parse_more parse status l r = Ok (l1, n1, r1, false) -> lclean l.
Proof.
  induction l as [|e l IH]; intros r l1 n1 r1 R; cbn [parse_more] in R; [constructor|].
  constructor.
  - intros X. rewrite X in R. replace (match r with [] => _ | _ :: _ => _ end) with (Ok (e, 0, r)) in R by (destruct r; auto).
    cbn [bind] in R. rewrite X in R. discriminate.
  - match goal with R : (let! r := ?X in _) = _ |- _ => destruct X as [[[e2 m2] s2]|] end; cbn [bind] in R; [|discriminate].
    destruct (pstatus_eqb (status e2) FAILED) eqn:Q; [discriminate|].
    destruct (parse_more parse status l s2) as [[[[t2 n2] r2] f2]|] eqn:E2; cbn [bind] in R; [|discriminate]. injection R as <- <- <- ->. exact (IH _ _ _ _ E2).
Qed.
(** Reading fresh elements: the code's two loops and the careful loop agree when nothing fails. *)
Lemma fresh_both : forall n a l r k, bytes_ok a ->
  (lrun (repeat e1 n) a = Ok (l, k, r) /\ lclean l) <->
  (exists l1 k1 r1 k2, parse_all parse (repeat e0 n) a = Ok (l1, k1, r1) /\ parse_more parse status l1 r1 = Ok (l, k2, r, false) /\ k = k1 + k2).
Proof.
  intros n a l r k B.
  assert (SET : forall l1 k1 r1, lrun (repeat e1 n) a = Ok (l1, k1, r1) -> lclean l1 -> parse_more parse status l1 r1 = Ok (l1, 0, r1, false)).
  { intros l1 k1 r1 R C. apply settled_more; auto. intros N.
    destruct (lrun_end _ _ _ _ _ (fresh_ok n) (fresh_clean n) B R) as (_ & _ & _ & X & _).
    destruct (X N) as [|Z]; auto. apply lbadb_spec in Z. rewrite lclean_bad in Z by auto. discriminate. }
  split.
  - intros [R C]. exists l, k, r, 0. split; [apply lrun_fresh; auto|]. split; [eapply SET; eauto|lia].
  - intros (l1 & k1 & r1 & k2 & P & M & ->).
    assert (C : lclean l1) by (eapply more_was; eauto).
    pose proof (fresh_lrun n a l1 k1 r1 B P C) as R. rewrite (SET _ _ _ R C) in M. injection M as <- <- <-.
    rewrite Z.add_0_r. auto.
Qed.
End List.
