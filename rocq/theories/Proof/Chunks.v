(** From two chunks to any number of chunks. *)
From Coq Require Import Lia.
From Verif Require Import Base.Bytes Base.BytesFacts Model.Stream Spec.Wire.
Open Scope Z_scope.

Section Chunk.
Context {St : Type}.
Variable parse : St -> list Z -> outcome (St * Z * list Z).
Variable status : St -> pstatus.
Variable ok : St -> Prop.
Notation same := (same_result status).

Definition chain (r : outcome (St * Z * list Z)) (b : list Z) : outcome (St * Z * list Z) :=
  let! x := r in
  let '(st1, n1, r1) := x in
  match status st1 with
  | INCOMPLETE => let! y := parse st1 b in let '(st2, n2, r2) := y in Ok (st2, n1 + n2, r2)
  | _ => Ok (st1, n1, r1 ++ b)
  end.
Hypothesis two : forall s a b, ok s -> a <> [] -> b <> [] -> bytes_ok a -> bytes_ok b ->
  parse s (a ++ b) <> UB -> same (parse s (a ++ b)) (chain (parse s a) b).
Hypothesis inc : forall s a s1 n1 r1, ok s -> a <> [] -> bytes_ok a -> parse s a = Ok (s1, n1, r1) ->
  status s1 = INCOMPLETE -> r1 = [] /\ ok s1.

Lemma same_trans : forall a b c, same a b -> same b c -> same a c.
Proof.
  intros a b c [->|[A B]] [->|[C D]]; unfold same_result in *; auto.
Qed.
Lemma same_sym : forall a b, same a b -> same b a.
Proof. intros a b [->|[A B]]; [left|right]; auto. Qed.

Lemma feed_same : forall chunks st, ok st -> chunks <> [] -> Forall (fun c => c <> [] /\ bytes_ok c) chunks ->
  parse st (concat chunks) <> UB -> same (feed parse status st chunks) (parse st (concat chunks)).
Proof.
  induction chunks as [|c t IH]; intros st OK NE F D; [congruence|].
  inversion F as [|? ? [C1 C2] F']; subst. cbn [feed concat].
  destruct t as [|c2 t].
  - cbn [concat feed]. rewrite app_nil_r. left.
    destruct (parse st c) as [[[st1 n1] r1]|] eqn:P; cbn [bind]; auto.
    destruct (status st1) eqn:S; cbn [bind]; rewrite ?app_nil_r, ?Z.add_0_r; auto.
  - set (u := c2 :: t) in *.
    assert (U1 : concat u <> []).
    { unfold u. cbn [concat]. inversion F' as [|? ? [X _] _]; subst. destruct c2; [congruence|discriminate]. }
    assert (U2 : bytes_ok (concat u)).
    { clear -F'. induction F' as [|x l [H1 H2] F IH]; cbn; [constructor|]. apply bytes_ok_app; auto. }
    cbn [concat] in D. pose proof (two st c (concat u) OK C1 U1 C2 U2 D) as T.
    assert (DC : chain (parse st c) (concat u) <> UB).
    { destruct T as [T|[_ (? & ? & ? & T & _)]]; [rewrite <- T; auto|rewrite T; discriminate]. }
    apply same_sym. eapply same_trans; [exact T|]. clear T. revert DC.
    unfold chain. destruct (parse st c) as [[[st1 n1] r1]|] eqn:P; cbn [bind]; intros DC; [|left; auto].
    destruct (status st1) eqn:S; [left; auto| |left; auto].
    destruct (inc _ _ _ _ _ OK C1 C2 P S) as [-> OK1].
    assert (same (parse st1 (concat u)) (feed parse status st1 u)) as Q.
    { apply same_sym, IH; auto; [unfold u; discriminate|].
      intros X. rewrite X in DC. apply DC. reflexivity. }
    destruct Q as [Q|[(s1 & m1 & t1 & E1 & Q1) (s2 & m2 & t2 & E2 & Q2)]].
    + rewrite Q. left. destruct (feed parse status st1 u) as [[[? ?] ?]|]; cbn [bind app]; auto.
    + rewrite E1, E2. right. split; do 3 eexists; cbn [bind]; split; eauto.
Qed.
End Chunk.
